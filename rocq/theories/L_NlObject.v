(** Objects with a nonlinear score: invariants of their histories, and what a
    successful fit leaves behind. *)
From Verif Require Import L_Framework L_ModelProps.
From Verif Require Export L_QFit.
From Coq Require Import Lia Lra Permutation.
Local Open Scope R_scope.
Local Open Scope res_scope.
Local Open Scope string_scope.

Section Nl.
Context {P : Type}.
Variable sv : solvers.
Variable K : nl_class (P:=P).
Notation C := (nl_ctx K).
(** What the start values satisfy. *)
Variable I : R -> Prop.
Hypothesis keeps : forall m models ext start r, I start -> (forall sm, m_smpls m = Some sm -> forall fs, In fs sm -> fs <> []) -> I (fst (nl_rep_fit sv K m models ext start r)).

Lemma reps_keep m models ext : (forall sm, m_smpls m = Some sm -> forall fs, In fs sm -> fs <> []) -> forall rs start, I start -> I (fst (nl_reps sv K m models ext start rs)).
Proof.
  intro Ne. induction rs as [|r rs IH]; intros start Hs; [exact Hs|]. cbn [nl_reps]. pose proof (keeps m models ext start r Hs Ne) as K1. destruct (nl_rep_fit sv K m models ext start r) as (s1 & [p|e]); [|exact K1].
  specialize (IH s1 K1). destruct (nl_reps sv K m models ext s1 rs) as (s2 & [l|e]); exact IH.
Qed.
Lemma check_same nj store ext smod w w1 u : check_fit C nj store ext smod w = (w1, u) -> w1 = w.
Proof. unfold check_fit, lift. intro H. congruence. Qed.
Lemma nl_fit_world nj store ext smod b : ob_world (fst (nl_fit sv K nj store ext smod b)) = ob_world b.
Proof.
  unfold nl_fit. destruct (check_fit C nj store ext smod (ob_world b)) as (w1 & [u|e]) eqn:Ck; [|reflexivity]. apply check_same in Ck. subst w1.
  destruct (nl_reps _ _ _ _ _ _ _) as (s1 & [reps|e]); [|reflexivity]. destruct (mk_framework _); reflexivity.
Qed.
Lemma nl_fit_start nj store ext smod b : (forall sm, m_smpls (w_obj (ob_world b)) = Some sm -> forall fs, In fs sm -> fs <> []) -> I (ob_start b) -> I (ob_start (fst (nl_fit sv K nj store ext smod b))).
Proof.
  intros Ne Hs. unfold nl_fit. destruct (check_fit C nj store ext smod (ob_world b)) as (w1 & [u|e]) eqn:Ck; [|exact Hs]. apply check_same in Ck. subst w1.
  match goal with |- context [nl_reps sv K ?m ?mo ?ex ?st ?rs] => pose proof (reps_keep m mo ex Ne rs st Hs) as Q; destruct (nl_reps sv K m mo ex st rs) as (s1 & [reps|e]) end; [|exact Q]. destruct (mk_framework _); exact Q.
Qed.

Hypothesis npos : (0 < nk_n K)%nat.
Lemma splits_nonempty w : soundly_reached C w -> forall sm, m_smpls (w_obj w) = Some sm -> forall fs, In fs sm -> partition_of (nk_n K) fs /\ fs <> [].
Proof.
  intros (nf & nr & dr & gen & perm & w0 & ops & A & B & D & F & ->) sm Es fs Hf. assert (Hc : c_cluster C <> Some []) by discriminate.
  destruct (splits_valid C Hc nf nr dr gen perm w0 ops A B D F sm Es) as (_ & V). destruct (V fs Hf) as ((V1 & _) & _). split; [exact V1|].
  intros ->. apply Permutation_length in V1. rewrite seq_length in V1. cbn in V1. lia.
Qed.
Lemma nl_step_sound o b : nl_good o -> soundly_reached C (ob_world b) -> soundly_reached C (ob_world (nl_step sv K o b)).
Proof.
  intros G S. assert (Go : forall op, good_op op -> soundly_reached C (fst (run_op C op (ob_world b)))).
  { intros op Hop. apply (reached_later C (ob_world b)); [exact S|]. exists [op]. split; [intros q [<-|[]]; exact Hop|reflexivity]. }
  destruct o as [nj store ext smod|g perm|sp|l t v]; cbn [nl_step].
  - rewrite nl_fit_world. exact S.
  - exact (Go (ODraw g perm) G).
  - pose proof (Go (OSet sp None) Logic.I) as Q. cbn [run_op] in Q. destruct (set_sample_splitting C sp None (ob_world b)) as (w1 & [u|e]); exact Q.
  - exact (Go (OParams l t v) Logic.I).
Qed.
Lemma nl_step_start o b : soundly_reached C (ob_world b) -> I (ob_start b) -> I (ob_start (nl_step sv K o b)).
Proof.
  intros S H. destruct o as [nj store ext smod|g perm|sp|l t v]; cbn [nl_step].
  - apply nl_fit_start; [|exact H]. intros sm Es fs Hf. exact (proj2 (splits_nonempty _ S sm Es fs Hf)).
  - exact H.
  - destruct (set_sample_splitting C sp None (ob_world b)) as (w1 & [u|e]); exact H.
  - exact H.
Qed.
Lemma nl_reached b0 b : soundly_reached C (ob_world b0) -> I (ob_start b0) -> nl_later sv K b0 b -> soundly_reached C (ob_world b) /\ I (ob_start b).
Proof.
  intros S H (ops & G & ->). revert b0 S H G. induction ops as [|o ops IH]; intros b0 S H G; [split; assumption|]. cbn [nl_run].
  apply IH; [apply nl_step_sound; [apply G; now left|exact S]|apply nl_step_start; assumption|intros q Hq; apply G; now right].
Qed.

(** Repetitions of a successful fit. *)
Lemma reps_each m models ext : (forall sm, m_smpls m = Some sm -> forall fs, In fs sm -> fs <> []) -> forall rs start s' l, I start -> nl_reps sv K m models ext start rs = (s', Ok l) ->
  length l = length rs /\ forall j r, nth_error rs j = Some r -> exists s0 s1 p, I s0 /\ nl_rep_fit sv K m models ext s0 r = (s1, Ok p) /\ nth_error l j = Some p.
Proof.
  intro Ne. induction rs as [|r rs IH]; intros start s' l Hs H; cbn [nl_reps] in H.
  - injection H as _ <-. split; [reflexivity|]. intros [|j] r H; discriminate.
  - pose proof (keeps m models ext start r Hs Ne) as K1. destruct (nl_rep_fit sv K m models ext start r) as (s1 & [p|e]) eqn:Er; [|discriminate]. cbn [fst] in K1.
    destruct (nl_reps sv K m models ext s1 rs) as (s2 & [l'|e]) eqn:E2; [|discriminate]. injection H as _ <-. destruct (IH s1 s2 l' K1 E2) as (A & B). split; [cbn; congruence|].
    intros [|j] r' Hj; cbn in Hj.
    + injection Hj as <-. exists start, s1, p. auto.
    + exact (B j r' Hj).
Qed.
Lemma nl_fit_inv nj store ext smod b b' : soundly_reached C (ob_world b) -> I (ob_start b) -> nl_fit sv K nj store ext smod b = (b', Ok tt) ->
  ob_world b' = ob_world b /\ I (ob_start b') /\ exists sm reps F, m_smpls (w_obj (ob_world b)) = Some sm /\ ob_res b' = Some (reps, F) /\ length reps = length sm /\
    mk_framework (Some (nl_dict K reps)) = Ok F /\
    forall r fs, nth_error sm r = Some fs -> partition_of (nk_n K) fs /\ fs <> [] /\ exists s0 s1 p, I s0 /\ nl_rep_fit sv K (w_obj (ob_world b)) (match smod with PBool b => b | _ => false end) ext s0 r = (s1, Ok p) /\ nth_error reps r = Some p.
Proof.
  intros S Hs H. pose proof (splits_nonempty _ S) as Pt. assert (Ne : forall sm, m_smpls (w_obj (ob_world b)) = Some sm -> forall fs, In fs sm -> fs <> []) by (intros sm Es fs Hf; exact (proj2 (Pt sm Es fs Hf))).
  pose proof (nl_fit_world nj store ext smod b) as Ew. pose proof (nl_fit_start nj store ext smod b Ne Hs) as Es. rewrite H in Ew, Es. cbn [fst] in Ew, Es. split; [exact Ew|]. split; [exact Es|].
  unfold nl_fit in H. destruct (check_fit C nj store ext smod (ob_world b)) as (w1 & [u|e]) eqn:Ck; [|discriminate]. apply check_same in Ck. subst w1. cbn [fst] in *.
  destruct (nl_reps _ _ _ _ _ _ _) as (s1 & [reps|e]) eqn:Er; [|discriminate]. destruct (mk_framework _) as [F|e] eqn:Ef; [|discriminate]. injection H as <-.
  destruct (reps_each _ _ _ Ne _ _ _ _ Hs Er) as (Ln & Each). rewrite seq_length in Ln.
  pose proof (reachable_wf C _ (reached_reachable C _ S)) as W.
  assert (N0 : (0 < m_n_rep (w_obj (ob_world b)))%nat) by (apply W).
  destruct (m_smpls (w_obj (ob_world b))) as [sm|] eqn:Em.
  2:{ exfalso. destruct (Each 0%nat 0%nat) as (s0 & s2 & p & _ & Q & _). { destruct (m_n_rep (w_obj (ob_world b))); [lia|reflexivity]. } unfold nl_rep_fit in Q. rewrite Em in Q. cbn in Q. destruct (set_external _ _ _ _); discriminate. }
  assert (Ls : length sm = m_n_rep (w_obj (ob_world b))).
  { exact (wf_smpls _ _ W sm Em). }
  exists sm, reps, F. split; [reflexivity|]. split; [reflexivity|]. split; [congruence|]. split; [exact Ef|]. intros r fs Hr. destruct (Pt sm eq_refl fs (nth_error_In _ _ Hr)) as (P1 & P2). split; [exact P1|]. split; [exact P2|].
  apply Each. assert (Hlt : (r < length sm)%nat) by (apply nth_error_Some; congruence). rewrite nth_error_nth' with (d := 0%nat) by (rewrite seq_length; lia). rewrite seq_nth by lia. reflexivity.
Qed.
(** The results object. *)
Definition get_vs (reps : list nl_rep) : R := match nth_error reps (length reps - 1) with Some p => nr_vs p | None => 0 end.
Lemma nl_framework reps F : reps <> [] -> mk_framework (Some (nl_dict K reps)) = Ok F ->
  fw_wf F /\ fw_aggregated F /\ fw_n_rep F = length reps /\ fw_n_thetas F = 1%nat /\ fw_n_obs F = nk_n K /\
  forall r p, nth_error reps r = Some p -> at_ (fw_all_thetas F) [0%nat; r] = nr_theta p /\ at_ (fw_all_ses F) [0%nat; r] = nr_se p /\ at_ (fw_vs F) [0%nat] = get_vs reps /\
    forall i, at_ (fw_scaled_psi F) [i; 0%nat; r] = nr_psi p i / meanf (nk_n K) (nr_deriv p).
Proof.
  intros Hne H. destruct (mk_fw_inv _ _ H) as (W & F1 & F2 & F3 & F4 & F5 & F6 & F7 & F8 & F9 & _). cbn [nl_dict k_thetas k_ses k_all_thetas k_all_ses k_vs k_scaled_psi] in *.
  apply (f_equal (fun e => match e with Val v => v | _ => fw_thetas F end)) in F1, F2, F3, F4, F5, F6. cbv beta iota in F1, F2, F3, F4, F5, F6.
  split; [exact W|]. rewrite <- F6 in F7, F8, F9. cbn [mk3 dim shape nth] in F7, F8, F9.
  split; [|split; [exact F9|split; [exact F8|split; [exact F7|]]]].
  - intros t Ht. rewrite F8 in Ht. assert (t = 0%nat) as -> by lia. rewrite F9, <- F1, <- F2, <- F3, <- F4, <- F5. split; reflexivity.
  - intros r p Hp. rewrite <- F3, <- F4, <- F5, <- F6. cbn [mk1 mk2 mk3 at_ nth]. rewrite Hp. auto.
Qed.
End Nl.

(** Concrete runs of the complete quantile models. *)
From Verif Require Import L_Lpq L_LocalFit L_Local L_NuisWitness L_QWitness L_Estimation L_QNested L_Sum S_Local.
From Coq Require Import Lia Lra FunctionalExtensionality.
Local Open Scope R_scope.
Local Open Scope res_scope.
Local Open Scope string_scope.

(** ** Bisection as root finder *)
Fixpoint bisect (n : nat) (f : R -> R) (a b : R) : R :=
  match n with
  | 0%nat => a
  | S n => if rleb (f a * f ((a + b) / 2)) 0 then bisect n f a ((a + b) / 2) else bisect n f ((a + b) / 2) b
  end.
Definition bs_solvers (tol : R) : solvers :=
  {| sv_newton := fun _ _ x => (x, true); sv_brentq := fun f p => bisect (Z.to_nat (up ((snd p - fst p) / tol))) f (fst p) (snd p); sv_fmin := fun _ x _ => x |}.
Lemma bisect_near f : forall n a b, a <= b -> f a * f b <= 0 ->
  exists a' b', a <= a' /\ a' <= b' /\ b' <= b /\ bisect n f a b = a' /\ b' - a' <= (b - a) / 2 ^ n /\ f a' * f b' <= 0.
Proof.
  induction n as [|n IH]; intros a b Hab H; cbn [bisect pow].
  - exists a, b. repeat split; try lra.
  - assert (P : 0 < 2 ^ n) by (apply pow_lt; lra). set (c := (a + b) / 2) in *.
    destruct (rleb _ _) eqn:E; [apply rleb_true in E|apply rleb_false in E].
    + destruct (IH a c) as (a' & b' & A & B & C & D & F & K); [unfold c; lra|exact E|]. exists a', b'. repeat split; try assumption; [unfold c in *; lra|].
      replace ((b - a) / (2 * 2 ^ n)) with ((c - a) / 2 ^ n) by (unfold c; field; lra). exact F.
    + assert (H2 : f c * f b <= 0) by nra. destruct (IH c b) as (a' & b' & A & B & C & D & F & K); [unfold c; lra|exact H2|].
      exists a', b'. repeat split; try assumption; [unfold c in *; lra|].
      replace ((b - a) / (2 * 2 ^ n)) with ((b - c) / 2 ^ n) by (unfold c; field; lra). exact F.
Qed.
Lemma pow2_ge n : INR n <= 2 ^ n.
Proof. induction n as [|n IH]; [cbn; lra|]. rewrite S_INR. cbn [pow]. assert (1 <= 2 ^ n) by (apply pow_R1_Rle; lra). lra. Qed.
Lemma bs_near tol : 0 < tol -> brentq_near (bs_solvers tol) tol.
Proof.
  intros Ht f a b Hab H. cbn [bs_solvers sv_brentq fst snd]. set (m := Z.to_nat _). destruct (bisect_near f m a b Hab H) as (a' & b' & A & B & C & -> & F & K).
  assert (W : b' - a' <= tol).
  { apply Rle_trans with (1 := F). assert (P : 0 < 2 ^ m) by (apply pow_lt; lra).
    assert (Q : (b - a) / tol <= 2 ^ m).
    { apply Rle_trans with (INR m); [|apply pow2_ge]. unfold m. destruct (archimed ((b - a) / tol)) as (U & _).
      assert (0 <= (b - a) / tol) by (apply Rmult_le_pos; [lra|left; apply Rinv_0_lt_compat; exact Ht]).
      rewrite INR_IZR_INZ, Z2Nat.id; [lra|]. apply le_IZR. lra. }
    apply Rmult_le_reg_r with (2 ^ m); [exact P|]. unfold Rdiv. rewrite Rmult_assoc, Rinv_l, Rmult_1_r by lra.
    apply Rmult_le_compat_r with (r := tol) in Q; [|lra]. unfold Rdiv in Q. rewrite Rmult_assoc, Rinv_l, Rmult_1_r in Q by lra. lra. }
  exists a', b'. repeat split; try assumption; rewrite Rabs_right by lra; lra.
Qed.
Lemma bs_ok tol : brentq_ok (bs_solvers tol).
Proof. intros f a b Hab H. cbn [bs_solvers sv_brentq fst snd]. destruct (bisect_near f (Z.to_nat (up ((b - a) / tol))) a b Hab H) as (a' & b' & A & B & C & -> & _). lra. Qed.
Lemma bs_fmin tol : fmin_ok (bs_solvers tol).
Proof. intros f x lo hi H. exact H. Qed.

(** ** Sixteen rows, two folds *)
Definition u_smpls : list fold := [(seq 8 8, seq 0 8); (seq 0 8, seq 8 8)].
Definition u_x (i : nat) : row := [INR i].
Definition u_y (i : nat) : R := INR i.
Definition u_d (i : nat) : R := INR (nth (i mod 4) [0; 1; 1; 0] 0)%nat.
Definition u_z (i : nat) : R := INR (i mod 2).
Definition u_o : q_oracles := {|
  qo_tts := fun l _ => (firstn 4 l, skipn 4 l);
  qo_skf := fun lab => let n := length lab in [(seq 2 (n - 2), seq 0 (Nat.min 2 n)); (seq 0 (Nat.min 2 n), seq 2 (n - 2))];
  qo_solve := wsolve; qo_order := [1; 0]%nat |}.
Lemma u_split : splitters_ok u_o.
Proof.
  split; [intros l lab; cbn [u_o qo_tts fst snd]; rewrite firstn_skipn; reflexivity|].
  intros lab. unfold partition_of. cbn [u_o qo_skf flat_map snd app]. rewrite app_nil_r. generalize (length lab). intros [|[|n]]; [apply Permutation_refl..|]. replace (S (S n) - 2)%nat with n by lia. apply Permutation_refl.
Qed.
Lemma u_solver : solver_ok u_o.
Proof. exact wsolver. Qed.
Lemma u_part : partition_of 16 u_smpls.
Proof. unfold partition_of. cbn. apply Permutation_refl. Qed.

Lemma r_cv n x y smpls : partition_of n smpls -> length smpls = 2%nat -> (forall h : fold, In h smpls -> fst h <> []) -> both_labels n y smpls ->
  exists r, cv_predict r_learner [1; 0]%nat [] n x (YVec y) smpls NoParams true false false = Ok r.
Proof.
  intros Hp Hl Hne (A & B & D). assert (Hs : smpls <> []) by (intro Z; rewrite Z in Hl; discriminate).
  rewrite (cv_cases r_learner [1; 0]%nat [] n x (YVec y) smpls NoParams _ false false Hp Hs). cbn [is_fast is_list_params is_fold_target orb negb].
  apply (fast_def r_learner r_predict r_proba r_row r_clone [] n x smpls NoParams Hp [1; 0]%nat y); [rewrite Hl; exact ex_sched|reflexivity|lia| |].
  - intros k Hk. apply r_fits; [exact Hk|]. apply Hne, nth_In, Hk.
  - intros Hq k m xi Hk Hm. destruct (classes_full r_learner r_proba [] n x smpls NoParams y k m r_classifier A B Hk Hm) as [Q1 Q2].
    unfold eorow. rewrite Q1, seq_length, Nat.eqb_refl, Q2. exact D.
Qed.
(** The first halves are the rows [s, s + 4). *)
Definition u_inner : list fold := [([2; 3], [0; 1]); ([0; 1], [2; 3])]%nat.
Lemma u_inner_part : partition_of 4 u_inner.
Proof. apply Permutation_refl. Qed.
Lemma u_inner_range : train_in_range 4 u_inner.
Proof. intros f i Hf Hi. destruct Hf as [<- | [<- | []]]; cbn in Hi; lia. Qed.
Lemma u_both v : (v 0%nat = 0 /\ v 1%nat = 1 \/ v 0%nat = 1 /\ v 1%nat = 0) -> (v 2%nat = 0 /\ v 3%nat = 1 \/ v 2%nat = 1 /\ v 3%nat = 0) -> both_labels 4 v u_inner.
Proof.
  intros A B. assert (L : labels_in_train 4 v u_inner).
  { intros h i Hh Hi. assert (V : v i = 0 \/ v i = 1) by (destruct i as [|[|[|[|]]]]; try lia; lra).
    destruct Hh as [<- | [<- | []]]; cbn [fst]; destruct V as [-> | ->]; destruct A as [(A1 & A2)|(A1 & A2)], B as [(B1 & B2)|(B1 & B2)];
    first [exists 0%nat; split; [cbn; now auto|lra] | exists 1%nat; split; [cbn; now auto|lra] | exists 2%nat; split; [cbn; now auto|lra] | exists 3%nat; split; [cbn; now auto|lra]]. }
  split; [exact L|]. split; [exact u_inner_range|].
  destruct (labels_spec 4 v) as (_ & M). assert (H0 : In (v 0%nat) (labels 4 v)) by (apply M; exists 0%nat; split; [lia|reflexivity]). assert (H1 : In (v 1%nat) (labels 4 v)) by (apply M; exists 1%nat; split; [lia|reflexivity]).
  destruct (labels 4 v) as [|u [|u' l]]; cbn in *; [contradiction| |lia]. destruct H0 as [H0|[]], H1 as [H1|[]]. lra.
Qed.
Definition u_half (s : nat) : list nat := seq s 4.
Lemma u_both_d s : s = 0%nat \/ s = 8%nat -> both_labels 4 (take (u_half s) u_d) u_inner.
Proof. intros [-> | ->]; apply u_both; unfold take, u_d; cbn; lra. Qed.
Lemma u_both_z s : s = 0%nat \/ s = 8%nat -> both_labels 4 (take (u_half s) u_z) u_inner.
Proof. intros [-> | ->]; apply u_both; unfold take, u_z; cbn; lra. Qed.
Lemma u_inner_ok v s : both_labels 4 (take (u_half s) v) u_inner -> inner_split v (u_half s) u_inner [1; 0]%nat.
Proof. intros (A & B & _). constructor; [cbn; lia|exact u_inner_part|exact B|exact A|exact ex_sched]. Qed.
Lemma u_halves (h : fold) : In h u_smpls -> exists s, (s = 0%nat \/ s = 8%nat) /\ fst h = seq s 8.
Proof. intros [<- | [<- | []]]; [exists 8%nat|exists 0%nat]; auto. Qed.
Lemma u_cv v s : both_labels 4 (take (u_half s) v) u_inner -> exists r, cv_predict r_learner [1; 0]%nat [] 4 (takex [] (u_half s) u_x) (YVec (take (u_half s) v)) u_inner NoParams true false false = Ok r.
Proof. intro B. apply r_cv; [exact u_inner_part|reflexivity|intros h Hh; destruct Hh as [<- | [<- | []]]; discriminate|exact B]. Qed.

(** ** Potential quantile and CVaR *)
Definition u_c (cv : bool) : @pq_cfg r_memo := {|
  qc_cvar := cv; qc_n := 16; qc_treated := true; qc_q := 1 / 2; qc_norm := true; qc_thr := 1 / 100; qc_fuel := 11;
  qc_bounds := (0, 15); qc_g := fun _ => []; qc_m := fun _ => []; qc_ext_g := None; qc_ext_m := None |}.
Lemma filter_hit {A} (f : A -> bool) l a : In a l -> f a = true -> filter f l <> [].
Proof. intros H1 H2 Z. assert (In a (filter f l)) by (apply filter_In; auto). rewrite Z in H. contradiction. Qed.
Lemma u_prelim cv y mp s : exists t, prelim_ipw u_o (u_c cv) 7 (u_half s) y u_d mp = Ok t.
Proof.
  unfold prelim_ipw. cbn [u_c qc_fuel qc_bounds fst snd]. match goal with |- context [get_bracket_guess 11 ?sc 7 0 15] => destruct (bracket_guess 11 sc 7 0 15) as (st & b & seen & -> & _); [lia|lra|] end.
  eexists. reflexivity.
Qed.
Lemma u_prelim_m cv k s : s = 0%nat \/ s = 8%nat -> exists mp, prelim_m r_learner u_o [] (u_c cv) k u_x u_d (u_half s) = Ok mp.
Proof.
  intro Hs. destruct (u_cv u_d s (u_both_d s Hs)) as (r & Er). unfold prelim_m. cbn [u_c qc_ext_m qc_m].
  match goal with |- context [cv_predict ?a ?b ?c ?d ?e ?f ?g ?h ?i ?j ?k] => assert (Ec : cv_predict a b c d e f g h i j k = Ok r) by exact Er; rewrite Ec end. eexists. reflexivity.
Qed.
Lemma u_pq_fold cv k (h : fold) : In h u_smpls -> exists r, pq_fold r_learner r_learner u_o [] (u_c cv) 7 u_x u_y u_d k h = Ok r.
Proof.
  intro Hh. destruct (u_halves h Hh) as (s & Hs & F). unfold pq_fold. rewrite F. cbn [u_o qo_tts fst snd].
  change (firstn 4 (seq s 8)) with (u_half s). change (skipn 4 (seq s 8)) with (u_half (S (S (S (S s))))). fold u_o.
  destruct (u_prelim_m cv k s Hs) as (mp & Em). change (prelim_m r_learner _ [] (u_c cv) k u_x u_d (u_half s)) with (prelim_m r_learner u_o [] (u_c cv) k u_x u_d (u_half s)). rewrite Em. cbn [bind].
  destruct (u_prelim cv u_y mp s) as (t & Et). change (prelim_ipw _ (u_c cv) 7 (u_half s) u_y u_d mp) with (prelim_ipw u_o (u_c cv) 7 (u_half s) u_y u_d mp). rewrite Et. cbn [bind].
  cbn [u_c qc_ext_g qc_ext_m qc_g qc_m]. rewrite r_fit_ok.
  2:{ unfold g_rows. apply map_nonempty. apply (filter_hit _ _ (5 + s)%nat); [cbn; auto|]. destruct Hs as [-> | ->]; unfold u_d; cbn; unfold reqb; destruct (Req_EM_T 1 1); congruence. }
  cbn [bind]. rewrite r_fit_ok by (apply map_nonempty; discriminate). cbn [bind].
  match goal with |- context [predict01 r_learner (map ?a ?b) ?c] => destruct (r_predict01 (map a b) c) as (p2 & ->) end. cbn [bind].
  destruct cv; [eexists; reflexivity|].
  match goal with |- context [predict01 r_learner ?a ?c] => destruct (r_predict01 a c) as (p1 & ->) end. eexists. reflexivity.
Qed.
Lemma u_pq_run cv : exists r, pq_nuisance r_learner r_learner u_o [] (u_c cv) 7 u_x u_y u_d u_smpls = Ok r.
Proof.
  unfold pq_nuisance. cbn [u_c qc_ext_g qc_ext_m u_smpls length seq combine map_res fst snd].
  destruct (u_pq_fold cv 0 (seq 8 8, seq 0 8)) as (r0 & E0); [cbn; auto|]. destruct (u_pq_fold cv 1 (seq 0 8, seq 8 8)) as (r1 & E1); [cbn; auto|].
  change (pq_fold r_learner r_learner u_o [] _ 7 u_x u_y u_d 0 _) with (pq_fold r_learner r_learner u_o [] (u_c cv) 7 u_x u_y u_d 0 (seq 8 8, seq 0 8)). rewrite E0. cbn [bind].
  change (pq_fold r_learner r_learner u_o [] _ 7 u_x u_y u_d 1 _) with (pq_fold r_learner r_learner u_o [] (u_c cv) 7 u_x u_y u_d 1 (seq 0 8, seq 8 8)). rewrite E1. cbn [bind]. eexists. reflexivity.
Qed.
Lemma u_pq_inner (h : fold) : In h u_smpls -> inner_split u_d (first_half u_o u_d h) (qo_skf u_o (map u_d (first_half u_o u_d h))) (qo_order u_o).
Proof.
  intro Hh. destruct (u_halves h Hh) as (s & Hs & F). unfold first_half. rewrite F. exact (u_inner_ok u_d s (u_both_d s Hs)).
Qed.
Lemma u_cvar_fit : exists theta, cvar_fit r_learner r_learner u_o [] (u_c true) 7 u_x u_y u_d u_smpls = Ok (theta, 7).
Proof. destruct (u_pq_run true) as (r & E). unfold cvar_fit. rewrite E. eexists. reflexivity. Qed.

(** ** Local quantile *)
Definition v_c (ext : string -> option vec) : @lpq_cfg r_memo := {|
  lc_n := 16; lc_treated := true; lc_q := 1 / 2; lc_norm := true; lc_thr := 1 / 100; lc_fuel := 11; lc_bounds := (0, 15); lc_est := fun _ _ => []; lc_ext := ext |}.
Lemma v_fit01 y rows at_rows : rows <> [] -> exists p, fit01 r_learner ([] : r_memo) u_x y rows at_rows = Ok p.
Proof. intro H. unfold fit01. rewrite r_fit_ok by (apply map_nonempty; exact H). cbn [bind]. apply r_predict01. Qed.
Lemma v_with s b : s = 0%nat \/ s = 4%nat \/ s = 8%nat \/ s = 12%nat -> b = 0 \/ b = 1 -> with_z u_z b (u_half s) <> [].
Proof.
  intros Hs [-> | ->]; [apply (filter_hit _ _ s)|apply (filter_hit _ _ (S s))]; try (cbn; now auto); destruct Hs as [-> | [-> | [-> | ->]]]; unfold u_z; cbn; unfold reqb; destruct (Req_EM_T _ _); try reflexivity; congruence.
Qed.
Lemma v_prelim ext k s : s = 0%nat \/ s = 8%nat -> exists t, lpq_prelim r_learner u_o [] (v_c ext) k 7 u_x u_y u_d u_z (u_half s) = Ok t.
Proof.
  intro Hs. destruct (u_cv u_z s (u_both_z s Hs)) as (r & Er). unfold lpq_prelim.
  match goal with |- context [cv_predict ?a ?b ?c ?d ?e ?f ?g ?h ?i ?j ?k] => assert (Ec : cv_predict a b c d e f g h i j k = Ok r) by exact Er; rewrite Ec end. cbn [bind].
  destruct (v_fit01 u_d (with_z u_z 0 (u_half s)) (u_half s)) as (p0 & P0); [apply v_with; intuition|]. destruct (v_fit01 u_d (with_z u_z 1 (u_half s)) (u_half s)) as (p1 & P1); [apply v_with; intuition|].
  change (ln_clone r_learner _) with ([] : r_memo). rewrite P0. cbn [bind]. rewrite P1. cbn [bind].
  cbn [v_c lc_fuel lc_bounds fst snd]. match goal with |- context [get_bracket_guess 11 ?sc 7 0 15] => destruct (bracket_guess 11 sc 7 0 15) as (st & b & seen & -> & _); [lia|lra|] end.
  eexists. reflexivity.
Qed.
Lemma v_fold ext k (h : fold) : In h u_smpls -> exists r, lpq_fold r_learner r_learner u_o [] (v_c ext) 7 u_x u_y u_d u_z k h = Ok r.
Proof.
  intro Hh. destruct (u_halves h Hh) as (s & Hs & F). unfold lpq_fold. rewrite F.
  change (fst (qo_tts u_o (seq s 8) _)) with (u_half s). change (snd (qo_tts u_o (seq s 8) _)) with (u_half (S (S (S (S s))))).
  destruct (v_prelim ext k s Hs) as (t & ->). cbn [bind v_c lc_est].
  repeat match goal with |- context [fit01 r_learner [] u_x ?y ?rows ?a] => destruct (v_fit01 y rows a) as (? & ->);
    [first [discriminate | apply v_with; [destruct Hs as [-> | ->]; auto|auto] | apply (filter_hit _ _ s); [cbn; now auto|destruct Hs as [-> | ->]; unfold u_z; cbn; unfold reqb; destruct (Req_EM_T _ _); congruence]
                                       | apply (filter_hit _ _ (S s)); [cbn; now auto|destruct Hs as [-> | ->]; unfold u_z; cbn; unfold reqb; destruct (Req_EM_T _ _); congruence]]|cbn [bind]] end.
  eexists. reflexivity.
Qed.
Lemma v_run ext : (exists name, In name lpq_names /\ ext name = None) -> exists r, lpq_nuisance r_learner r_learner u_o [] (v_c ext) 7 u_x u_y u_d u_z u_smpls = Ok r /\
  lpq_nuisance r_learner r_learner u_o [] (v_c (fun _ => None)) 7 u_x u_y u_d u_z u_smpls = Ok r.
Proof.
  intro He. unfold lpq_nuisance.
  match goal with |- context [forallb ?t ?l] => assert (A : forallb t l = false) end.
  { destruct He as (name & Hin & He). destruct Hin as [<-|[<-|[<-|[<-|[<-|[]]]]]]; cbn; rewrite He; repeat destruct (ext _); reflexivity. }
  rewrite A. clear A. cbn [v_c lc_ext forallb lpq_names andb]. cbn [u_smpls length seq combine map_res fst snd].
  destruct (v_fold ext 0 (seq 8 8, seq 0 8)) as (r0 & E0); [cbn; auto|]. destruct (v_fold ext 1 (seq 0 8, seq 8 8)) as (r1 & E1); [cbn; auto|].
  change (lpq_fold r_learner r_learner u_o [] _ 7 u_x u_y u_d u_z 0 _) with (lpq_fold r_learner r_learner u_o [] (v_c ext) 7 u_x u_y u_d u_z 0 (seq 8 8, seq 0 8)). rewrite E0. cbn [bind].
  change (lpq_fold r_learner r_learner u_o [] _ 7 u_x u_y u_d u_z 1 _) with (lpq_fold r_learner r_learner u_o [] (v_c ext) 7 u_x u_y u_d u_z 1 (seq 0 8, seq 8 8)). rewrite E1. cbn [bind]. eexists. split; reflexivity.
Qed.
Lemma v_inner (h : fold) : In h u_smpls -> inner_split u_z (lfirst_half u_o u_d u_z h) (qo_skf u_o (map (cells4 u_d u_z) (lfirst_half u_o u_d u_z h))) (qo_order u_o).
Proof.
  intro Hh. destruct (u_halves h Hh) as (s & Hs & F). unfold lfirst_half. rewrite F. exact (u_inner_ok u_z s (u_both_z s Hs)).
Qed.

(** ** External predictions: a root is found *)
Definition e_c : @pq_cfg r_memo := {|
  qc_cvar := false; qc_n := 4; qc_treated := true; qc_q := 1 / 2; qc_norm := false; qc_thr := 1 / 100; qc_fuel := 11;
  qc_bounds := (0, 10); qc_g := fun _ => []; qc_m := fun _ => []; qc_ext_g := Some (fun _ => 1 / 2); qc_ext_m := Some (fun _ => 1 / 2) |}.
Definition e_y (i : nat) : R := INR (S i).
Definition e_d (i : nat) : R := INR (i mod 2).
Definition e_smpls : list fold := [([2; 3], [0; 1]); ([0; 1], [2; 3])]%nat.
Lemma root_found sv fuel n psi psid start lo hi : (11 <= fuel)%nat -> lo < hi -> start = (lo + hi) / 2 -> meanf n (psi lo) < 0 -> 0 < meanf n (psi hi) ->
  exists theta, nl_est_coef sv fuel n None psi psid start (Some (lo, hi)) = Some (theta, false).
Proof.
  intros Hf Hl -> A B. unfold nl_est_coef. set (score := fun th => aggregate_obs n None (psi th)).
  destruct (bracket_guess fuel score ((lo + hi) / 2) lo hi Hf ltac:(lra)) as (s & b & seen & -> & _ & _ & _ & D). destruct s; [eexists; reflexivity|].
  specialize (D eq_refl 10%nat ltac:(lia)). exfalso. unfold bracket_at, tenth in D. replace (INR 10) with 10 in D by (cbn; lra).
  match type of D with signs_differ _ (?a, ?b) = _ => replace a with lo in D; [replace b with hi in D|] end.
  - unfold signs_differ in D. cbn [fst snd] in D. unfold score, aggregate_obs in D. unfold rsign, reqb in D. repeat destruct (Rlt_dec _ _) in D; try lra; destruct (Req_EM_T _ _) in D; cbn in D; try lra; discriminate.
  - unfold Rmin. destruct (Rle_dec _ _); lra.
  - unfold Rmax. destruct (Rle_dec _ _); lra.
Qed.
Lemma half_clip : rclip (1 / 100) (1 - 1 / 100) (1 / 2) = 1 / 2.
Proof. unfold rclip. repeat (unfold Rmax, Rmin; destruct (Rle_dec _ _)); lra. Qed.
Lemma e_fit kde : exists theta, pq_fit r_learner r_learner u_o [] (bs_solvers (1 / 100)) kde e_c 5 u_x e_y e_d e_smpls = Ok (theta, 5, false).
Proof.
  unfold pq_fit. cbn [e_c pq_nuisance qc_ext_g qc_ext_m bind po_start po_g po_m qc_bounds qc_fuel qc_n qc_q qc_norm qc_thr qc_treated].
  match goal with |- context [nl_est_coef ?sv ?fu ?n None ?psi ?psid 5 _] => destruct (root_found sv fu n psi psid 5 0 10) as (theta & E) end; [lia|lra|lra| | |rewrite E; eexists; reflexivity].
  - unfold meanf, pq_score, arm, level, pq_adjust, trimm, val, sumf, e_d, e_y, b2r. cbv beta iota. rewrite !half_clip. cbn. rl. lra.
  - unfold meanf, pq_score, arm, level, pq_adjust, trimm, val, sumf, e_d, e_y, b2r. cbv beta iota. rewrite !half_clip. cbn. rl. lra.
Qed.
(** ** Local quantile with all five predictions supplied *)
Definition g_ext (name : string) : option vec :=
  Some (fun _ => if String.eqb name "ml_m_z" then 1 / 2 else if String.eqb name "ml_m_d_z1" then 1 else 0).
Definition g_c : @lpq_cfg r_memo := {|
  lc_n := 4; lc_treated := true; lc_q := 1 / 2; lc_norm := false; lc_thr := 1 / 100; lc_fuel := 11; lc_bounds := (0, 10); lc_est := fun _ _ => []; lc_ext := g_ext |}.
Lemma g_fit kde : exists theta, lpq_fit r_learner r_learner u_o [] (bs_solvers (1 / 100)) kde g_c 5 u_x e_y e_d e_d e_smpls = Ok (theta, 5, false).
Proof.
  unfold lpq_fit, lpq_nuisance. cbn [g_c g_ext lc_ext forallb lpq_names andb bind lo_start lc_bounds lc_fuel lc_n].
  assert (Mz : forall r z, lo_preds r "ml_m_z" = (fun _ => Some (1 / 2)) -> lpq_mz g_c z r = fun _ => 1 / 2).
  { intros r z Q. apply functional_extensionality. intro i. unfold lpq_mz, lpq_adjust, trimm. cbn [g_c lc_norm lc_thr]. unfold val. rewrite Q. exact half_clip. }
  match goal with |- context [lpq_psi _ _ _ _ ?r] => set (rr := r) end.
  assert (Em : lpq_mz g_c e_d rr = fun _ => 1 / 2) by (apply Mz; reflexivity).
  assert (Ec : lpq_comp_hat g_c e_d e_d rr = 1).
  { unfold lpq_comp_hat. rewrite Em. unfold lpq_comp, meanf, sumf, val, e_d, rr. cbn [lo_preds g_c lc_n g_ext option_map]. cbn. lra. }
  match goal with |- context [nl_est_coef ?sv ?fu ?n None ?psi ?psid 5 _] => destruct (root_found sv fu n psi psid 5 0 10) as (theta & E) end; [lia|lra|lra| | |].
  - unfold lpq_psi. fold g_c. rewrite Em, Ec. unfold meanf, sumf, lpq_score, lpq_sign, level, arm, val, rr. cbn [lo_preds g_c lc_n lc_treated lc_q g_ext option_map]. unfold e_d, e_y, b2r, level. cbn. rl. lra.
  - unfold lpq_psi. fold g_c. rewrite Em, Ec. unfold meanf, sumf, lpq_score, lpq_sign, level, arm, val, rr. cbn [lo_preds g_c lc_n lc_treated lc_q g_ext option_map]. unfold e_d, e_y, b2r, level. cbn. rl. lra.
  - fold g_c. unfold rr in *. rewrite E. eexists. reflexivity.
Qed.

(** ** Four of the five predictions supplied: ignored *)
Lemma partial_ignored : exists (v : vec) r, let c := v_c (fun name => if String.eqb name "ml_g_du_z1" then None else Some v) in
  (forall name, In name lpq_names -> name <> "ml_g_du_z1" -> lc_ext c name = Some v) /\
  lpq_nuisance r_learner r_learner u_o [] c 7 u_x u_y u_d u_z u_smpls = Ok r /\
  lpq_nuisance r_learner r_learner u_o [] (v_c (fun _ => None)) 7 u_x u_y u_d u_z u_smpls = Ok r /\
  exists m, lo_preds r "ml_m_z" 0%nat = Some m /\ m <> v 0%nat.
Proof.
  assert (Hn : exists name, In name lpq_names /\ (fun _ : string => @None vec) name = None) by (exists "ml_m_z"; split; [now left|reflexivity]).
  destruct (v_run (fun _ => None) Hn) as (r & E & _).
  destruct (lpq_documented r_learner r_learner u_o [] (v_c (fun _ => None)) r_predict r_predict r_proba r_proba u_x u_y u_d u_z r_row r_classifier r_row r_classifier r_clone 7 16 u_smpls r
              ltac:(cbn; lra) u_part Hn v_inner E) as (_ & _ & D).
  destruct (D 0%nat ltac:(lia)) as (k & h & ipw & mz & d0 & d1 & g0 & g1 & _ & _ & Q & _).
  exists (fun _ => mz + 1), r. split; [|split; [|split; [exact E|exists mz; split; [exact Q|lra]]]].
  - intros name _ H. cbn [v_c lc_ext]. destruct (String.eqb_spec name "ml_g_du_z1"); [contradiction|reflexivity].
  - match goal with |- lpq_nuisance _ _ _ _ (v_c ?ext) _ _ _ _ _ _ = _ => destruct (v_run ext) as (r' & A & B) end; [exists "ml_g_du_z1"; split; [cbn; tauto|reflexivity]|]. rewrite A. congruence.
Qed.

(** ** Refitting and the use of all outcomes: shares as predictions *)
Definition s_y (u v : R) : vec := fun i => nth i [0; -100; 0; 0; u; 0; 0; 0; 0; v; u; 0] 0.
Definition s_d : vec := fun i => nth i [1; 0; 1; 0; 1; 0; 1; 0; 1; 0; 1; 0] 0.
Definition s_smpls : list fold := [(seq 0 6, seq 6 6); (seq 6 6, seq 0 6)].
Definition s_c (b : R * R) : @lpq_cfg (option R) := {|
  lc_n := 12; lc_treated := true; lc_q := 3 / 5; lc_norm := false; lc_thr := 1 / 100; lc_fuel := 12; lc_bounds := b; lc_est := fun _ _ => None; lc_ext := fun _ => None |}.
Lemma s_part : partition_of 12 s_smpls.
Proof. unfold partition_of, s_smpls. cbn. apply NoDup_Permutation; [repeat constructor; cbn; intuition lia|apply (seq_NoDup 12 0)|]. intros k. cbn. tauto. Qed.
Definition ssc (theta : R) : R := b2r (rleb 0 theta) - 3 / 5.
Lemma ssc_neg theta : theta < 0 -> ssc theta = - (3 / 5).
Proof. intros H. unfold ssc. rl. cbn. lra. Qed.
Lemma ssc_pos theta : 0 <= theta -> ssc theta = 2 / 5.
Proof. intros H. unfold ssc. rl. cbn. lra. Qed.
Lemma ssc_differ a b : signs_differ ssc (a, b) = true <-> (a < 0 /\ 0 <= b) \/ (b < 0 /\ 0 <= a).
Proof.
  unfold signs_differ. cbn [fst snd]. destruct (Rlt_dec a 0), (Rlt_dec b 0);
  [rewrite !ssc_neg by lra|rewrite ssc_neg, ssc_pos by lra|rewrite ssc_pos, ssc_neg by lra|rewrite !ssc_pos by lra]; unfold rsign, reqb;
  repeat destruct (Rlt_dec _ _); try lra; destruct (Req_EM_T _ _); cbn; try lra; split; intros; try lra; try discriminate; try reflexivity; exfalso; lra.
Qed.
Lemma sbracket1 v : 100 <= v <= 1000 -> exists s, get_bracket_guess 12 ssc 0 (-100) v = Some (true, (- ((v + 100) / 20), (v + 100) / 20), s).
Proof.
  intros V. unfold get_bracket_guess. cbn [bracket_while]. cbn [negb]. rl. cbn [andb].
  assert (E : bracket_at (1 / 10) 0 (-100) v = (- ((v + 100) / 20), (v + 100) / 20)).
  { unfold bracket_at. rewrite Rmax_left by lra. rewrite Rmin_left by lra. f_equal; lra. }
  rewrite E. replace (signs_differ ssc (- ((v + 100) / 20), (v + 100) / 20)) with true by (symmetry; apply ssc_differ; lra).
  cbn. eexists; reflexivity.
Qed.
Lemma sbracket2 : exists s, get_bracket_guess 12 ssc 10 (-100) 100 = Some (true, (-10, 30), s).
Proof.
  unfold get_bracket_guess. cbn [bracket_while]. cbn [negb]. rl. cbn [andb].
  assert (E : bracket_at (1 / 10) 10 (-100) 100 = (0, 20)). { unfold bracket_at. rewrite Rmax_left by lra. rewrite Rmin_left by lra. f_equal; lra. }
  rewrite E. replace (signs_differ ssc (0, 20)) with false. 2:{ symmetry. apply Bool.not_true_is_false. rewrite ssc_differ. lra. }
  cbn [negb]. rl. cbn [andb].
  assert (E2 : bracket_at (1 / 10 + 1 / 10) 10 (-100) 100 = (-10, 30)). { unfold bracket_at. rewrite Rmax_left by lra. rewrite Rmin_left by lra. f_equal; lra. }
  rewrite E2. replace (signs_differ ssc (-10, 30)) with true by (symmetry; apply ssc_differ; lra). cbn. eexists; reflexivity.
Qed.
Lemma ssolve_upper a b : a < 0 -> 0 <= b -> wsolve ssc (a, b) = b.
Proof.
  intros A B. unfold wsolve. cbn [fst snd]. rewrite ssc_neg, ssc_pos by lra. replace (rltb _ _) with false; auto. symmetry. apply rltb_false.
  rewrite Rabs_Ropp, !Rabs_right; lra.
Qed.
Lemma sbounds u v : 0 <= u <= 100 -> 100 <= v -> pq_bounds 12 (s_y u v) = (-100, v).
Proof.
  intros U V. unfold pq_bounds, minf, maxf, s_y. cbn. unfold rmax_list. cbn. f_equal.
  - repeat match goal with |- context [Rmax ?a ?b] => first [rewrite (Rmax_left a b) by lra | rewrite (Rmax_right a b) by lra] end; lra.
  - repeat match goal with |- context [Rmax ?a ?b] => first [rewrite (Rmax_left a b) by lra | rewrite (Rmax_right a b) by lra] end; lra.
Qed.
Lemma sstart u v : 0 <= u -> pq_start 12 true (3 / 5) (s_y u v) s_d = 0.
Proof.
  intros U. unfold pq_start.
  assert (F : filter (fun i => reqb (s_d i) (level true)) (seq 0 12) = [0; 2; 4; 6; 8; 10]%nat).
  { cbn [seq filter]. unfold s_d, level. cbn [nth]. rl. reflexivity. }
  rewrite F. change (map (s_y u v) [0; 2; 4; 6; 8; 10]%nat) with [0; 0; u; 0; 0; u].
  unfold quantile. cbn [length Nat.sub].
  assert (E : rsort [0; 0; u; 0; 0; u] = [0; 0; 0; 0; u; u]).
  { rewrite (rsort_perm_eq _ [0; 0; 0; 0; u; u]).
    - apply L_Order.rsort_id. repeat (apply SSorted_cons || apply SSorted_nil || apply Forall_cons || apply Forall_nil); lra.
    - do 2 apply perm_skip. apply Permutation_trans with (0 :: u :: 0 :: [u]); [apply perm_swap|]. apply perm_skip. apply perm_swap. }
  rewrite E. replace (3 / 5 * INR 5) with 3 by (cbn; lra).
  assert (E2 : Int_part 3 = 3%Z) by (unfold Int_part; rewrite <- (tech_up 3 4); [reflexivity|cbn; lra|cbn; lra]).
  rewrite E2. change (Z.to_nat 3) with 3%nat. cbn [nth Nat.min]. replace (3 - INR 3) with 0 by (cbn; lra). lra.
Qed.
Definition wl_f (e : option R) (_ : nat) : R := match e with Some p => p | None => 0 end.
Definition wl_g (e : option R) (_ : nat) : list R := match e with Some p => [1 - p; p] | None => [0] end.
Lemma wl_row : row_wise wl wl_f wl_g.
Proof. intros e xs. split; reflexivity. Qed.
Lemma wl_clone : clone_ok wl.
Proof. split; [reflexivity|]. cbn. intros e p e' H. congruence. Qed.
Lemma s_take s : s = 0%nat \/ s = 6%nat -> take (u_half s) s_d = fun k => nth k [1; 0; 1; 0] 0.
Proof. intro Hs. apply functional_extensionality. intro k. unfold take, u_half, s_d. destruct Hs as [-> | ->]; reflexivity. Qed.
Definition s_z4 : vec := fun k => nth k [1; 0; 1; 0] 0.
Lemma s_labels : labels 4 s_z4 = [0; 1].
Proof.
  destruct (labels_spec 4 s_z4) as [S M]. apply ssorted_Rlt_eq; [exact S|repeat constructor; lra|]. intro z. rewrite M. cbn. split.
  - intros (i & Hi & <-). unfold s_z4. destruct i as [|[|[|[|]]]]; try lia; cbn; lra.
  - intros [<- | [<- | []]]; [exists 1%nat|exists 0%nat]; split; try lia; unfold s_z4; cbn; lra.
Qed.
Lemma s_encode i : (i < 4)%nat -> encode 4 s_z4 i = s_z4 i.
Proof.
  intro Hi. apply (codes_zero_one 4 s_z4); [|exists 1%nat; split; [lia|reflexivity]|apply encode_codes|exact Hi].
  intros j Hj. unfold s_z4. destruct j as [|[|[|[|]]]]; try lia; cbn; lra.
Qed.
Lemma s_fitted x k m : (k < 2)%nat -> fits wl None x u_inner NoParams (used 4 true (YVec s_z4)) k m -> m = Some (1 / 2).
Proof.
  intros Hk (p & data & Hp & T & F). cbn in Hp. subst p. cbn [used train_data] in T. subst data. cbn [fitted wl ln_clone ln_fit] in F. injection F as <-. f_equal.
  unfold train_rows. rewrite map_map. cbn [snd].
  destruct k as [|[|]]; [| |lia]; cbn [nth u_inner fst map]; rewrite !s_encode by lia; unfold Rmean, s_z4; cbn; lra.
Qed.
Lemma s_cv x : exists r, cv_predict wl [1; 0]%nat None 4 x (YVec s_z4) u_inner NoParams true false false = Ok r /\ forall j, (j < 4)%nat -> cv_preds r j = Some (1 / 2).
Proof.
  rewrite (cv_cases wl [1; 0]%nat None 4 x (YVec s_z4) u_inner NoParams true false false u_inner_part) by discriminate. cbn [is_fast is_list_params is_fold_target orb negb].
  destruct (fast_def wl wl_f wl_g wl_row wl_clone None 4 x u_inner NoParams u_inner_part [1; 0]%nat s_z4 true ex_sched eq_refl) as (r & E); [cbn; lia| | |].
  - intros k Hk. eexists. exists None. eexists. split; [reflexivity|]. split; [reflexivity|]. cbn. reflexivity.
  - intros _ k m xi Hk Hm. rewrite (s_fitted x k m Hk Hm). unfold eorow. rewrite s_labels. cbn. lia.
  - exists r. split; [exact E|]. intros j Hj. destruct (fast_inv wl wl_f wl_g wl_row wl_clone None 4 x u_inner NoParams u_inner_part _ _ _ _ ex_sched E) as (_ & _ & B & _).
    assert (Q : exists k h, nth_error u_inner k = Some h /\ In j (snd h)).
    { destruct j as [|[|[|[|]]]]; try lia; [exists 0%nat|exists 0%nat|exists 1%nat|exists 1%nat]; eexists; (split; [reflexivity|cbn; auto]). }
    destruct Q as (k & h & N & Hj'). destruct (B k h j N Hj') as (m & v & Hm & P & V). rewrite P. f_equal.
    rewrite (s_fitted x k m) in V; [|change 2%nat with (length u_inner); apply nth_error_Some; congruence|exact Hm]. unfold fast_value, eorow in V. rewrite s_labels in V. cbn in V. congruence.
Qed.
Lemma s_with s : s = 0%nat \/ s = 6%nat -> with_z s_d 0 (u_half s) = [S s; S (S (S s))] /\ with_z s_d 1 (u_half s) = [s; S (S s)].
Proof. intros [-> | ->]; split; unfold with_z, u_half, s_d; cbn [seq filter nth]; rl; reflexivity. Qed.
Lemma s_fit0 s : s = 0%nat \/ s = 6%nat -> fit01 wl None wx s_d [S s; S (S (S s))] (u_half s) = Ok [0; 0; 0; 0].
Proof.
  intro Hs. assert (E : Rmean [s_d (S s); s_d (S (S (S s)))] = 0) by (destruct Hs as [-> | ->]; unfold Rmean, s_d; cbn; lra).
  unfold fit01. cbn [wl ln_fit bind map snd]. rewrite E. reflexivity.
Qed.
Lemma s_fit1 s : s = 0%nat \/ s = 6%nat -> fit01 wl None wx s_d [s; S (S s)] (u_half s) = Ok [1; 1; 1; 1].
Proof.
  intro Hs. assert (E : Rmean [s_d s; s_d (S (S s))] = 1) by (destruct Hs as [-> | ->]; unfold Rmean, s_d; cbn; lra).
  unfold fit01. cbn [wl ln_fit bind map snd]. rewrite E. reflexivity.
Qed.
Lemma s_prelim u v start b s k : s = 0%nat \/ s = 6%nat ->
  lpq_prelim wl u_o 0%nat (s_c b) k start wx (s_y u v) s_d s_d (u_half s) =
  match get_bracket_guess 12 ssc start (fst b) (snd b) with None => Err RuntimeError | Some (_, br, _) => Ok (wsolve ssc br) end.
Proof.
  intros Hs. unfold lpq_prelim. rewrite (s_take s Hs). fold s_z4. destruct (s_cv (takex 0%nat (u_half s) wx)) as (r & Er & Pr).
  match goal with |- context [cv_predict ?a ?b ?c ?d ?e ?f ?g ?h ?i ?j ?k] => assert (Ec : cv_predict a b c d e f g h i j k = Ok r) by exact Er; rewrite Ec; clear Ec end. cbn [bind].
  assert (W0 : fit01 wl (ln_clone wl (lc_est (s_c b) "ml_m_d_z0" k)) wx s_d (with_z s_d 0 (u_half s)) (u_half s) = Ok [0; 0; 0; 0]) by (rewrite (proj1 (s_with s Hs)); apply s_fit0; exact Hs).
  assert (W1 : fit01 wl (ln_clone wl (lc_est (s_c b) "ml_m_d_z1" k)) wx s_d (with_z s_d 1 (u_half s)) (u_half s) = Ok [1; 1; 1; 1]) by (rewrite (proj2 (s_with s Hs)); apply s_fit1; exact Hs).
  rewrite W0, W1. cbn [bind].
  set (mz := lpq_adjust _ _ _ _ _).
  assert (Mz : forall j, (j < 4)%nat -> mz j = 1 / 2).
  { intros j Hj. unfold mz, lpq_adjust, trimm. cbn [s_c lc_norm lc_thr]. rewrite (Pr j Hj). exact half_clip. }
  assert (Cp : lpq_comp (length (u_half s)) s_z4 s_z4 mz (fun j => nth j [0; 0; 0; 0] 0) (fun j => nth j [1; 1; 1; 1] 0) = 1).
  { unfold lpq_comp, meanf, sumf. change (length (u_half s)) with 4%nat. cbn [seq map Rsum INR]. rewrite !Mz by lia. unfold s_z4. cbn [nth]. lra. }
  rewrite Cp. cbn [s_c lc_fuel lc_treated lc_q lc_bounds].
  match goal with |- context [get_bracket_guess 12 ?sc] => replace sc with ssc; [reflexivity|] end.
  apply functional_extensionality. intros theta. unfold meanf, sumf, lpq_ipw_score. change (length (u_half s)) with 4%nat. cbn [seq map Rsum INR]. rewrite !Mz by lia.
  unfold arm, level, lpq_sign, ssc, take, u_half, s_z4, s_y. cbn [level].
  destruct Hs as [-> | ->]; cbn [map nth seq]; destruct (rleb 0 theta); cbn [b2r]; rl; cbn [b2r]; lra.
Qed.
Lemma wl_predict01 p xs : predict01 wl (Some p) xs = Ok (map (fun _ => p) xs).
Proof.
  unfold predict01. cbn [wl ln_proba]. assert (F : forallb (fun r => Nat.eqb (length r) 2) (map (fun _ : nat => [1 - p; p]) xs) = true) by (induction xs; cbn; auto). rewrite F.
  unfold col1. induction xs as [|a xs IH]; [reflexivity|]. cbn [map map_res]. cbn in F. rewrite (IH F). reflexivity.
Qed.
Lemma s_any y rows at_rows : exists p, fit01 wl None wx y rows at_rows = Ok p.
Proof. unfold fit01. cbn [wl ln_fit bind]. rewrite wl_predict01. eexists. reflexivity. Qed.
Lemma s_event u v t s at_rows : s = 0%nat \/ s = 6%nat -> 
  fit01 wl None wx (du true t (s_y u v) s_d) (with_z s_d 1 [S (S (S (S s))); S (S (S (S (S s))))]) at_rows = Ok (map (fun _ => b2r (rleb u t)) at_rows).
Proof.
  intro Hs. assert (W : with_z s_d 1 [S (S (S (S s))); S (S (S (S (S s))))] = [S (S (S (S s)))]).
  { destruct Hs as [-> | ->]; unfold with_z, s_d; cbn [filter nth]; rl; reflexivity. }
  rewrite W. unfold fit01. cbn [wl ln_fit bind map snd]. replace (Rmean [du true t (s_y u v) s_d (S (S (S (S s))))]) with (b2r (rleb u t)).
  2:{ unfold Rmean, du, arm, level. destruct Hs as [-> | ->]; unfold s_d, s_y; cbn [nth]; rl; cbn [b2r Rsum length INR]; field. }
  rewrite wl_predict01, map_map. reflexivity.
Qed.
Lemma s_fold u v start b br sn s k test : s = 0%nat \/ s = 6%nat -> get_bracket_guess 12 ssc start (fst b) (snd b) = Some (true, br, sn) -> fst br < 0 -> 0 <= snd br ->
  exists r, lpq_fold wl wl u_o 0%nat (s_c b) start wx (s_y u v) s_d s_d k (seq s 6, test) = Ok r /\ lf_ipw r = snd br /\ lf_g1 r = map (fun _ => b2r (rleb u (snd br))) test.
Proof.
  intros Hs B N Q. unfold lpq_fold. cbn [fst snd]. change (fst (qo_tts u_o (seq s 6) _)) with (u_half s). change (snd (qo_tts u_o (seq s 6) _)) with [S (S (S (S s))); S (S (S (S (S s))))].
  rewrite (s_prelim u v start b s k Hs), B. cbn [bind]. destruct br as [b1 b2]. cbn [fst snd] in *. rewrite (ssolve_upper b1 b2 N Q).
  cbn [s_c lc_est lc_treated].
  match goal with |- context [fit01 wl None wx ?y (with_z s_d 0 ?rows) test] => destruct (s_any y (with_z s_d 0 rows) test) as (p0 & ->) end. cbn [bind].
  rewrite (s_event u v b2 s test Hs). cbn [bind].
  repeat match goal with |- context [fit01 wl None wx s_d ?rows test] => destruct (s_any s_d rows test) as (? & ->); cbn [bind] end.
  eexists. split; [reflexivity|]. split; reflexivity.
Qed.
Lemma s_run u v start b br sn : get_bracket_guess 12 ssc start (fst b) (snd b) = Some (true, br, sn) -> fst br < 0 -> 0 <= snd br ->
  exists r, lpq_nuisance wl wl u_o 0%nat (s_c b) start wx (s_y u v) s_d s_d s_smpls = Ok r /\ lo_preds r "ml_g_du_z1" 9%nat = Some (b2r (rleb u (snd br))) /\ lo_start r = snd br.
Proof.
  intros B N Q. unfold lpq_nuisance. cbn [s_c lc_ext forallb lpq_names andb]. cbn [s_smpls length combine map_res fst snd seq].
  destruct (s_fold u v start b br sn 0 0 (seq 6 6) (or_introl eq_refl) B N Q) as (r0 & E0 & I0 & G0). destruct (s_fold u v start b br sn 6 1 (seq 0 6) (or_intror eq_refl) B N Q) as (r1 & E1 & I1 & G1).
  match goal with |- context [lpq_fold wl wl u_o 0%nat ?c start wx ?y s_d s_d 0%nat ?f] => change (lpq_fold wl wl u_o 0%nat c start wx y s_d s_d 0%nat f) with (lpq_fold wl wl u_o 0%nat (s_c b) start wx (s_y u v) s_d s_d 0%nat (seq 0 6, seq 6 6)) end. rewrite E0. cbn [bind].
  match goal with |- context [lpq_fold wl wl u_o 0%nat ?c start wx ?y s_d s_d 1%nat ?f] => change (lpq_fold wl wl u_o 0%nat c start wx y s_d s_d 1%nat f) with (lpq_fold wl wl u_o 0%nat (s_c b) start wx (s_y u v) s_d s_d 1%nat (seq 6 6, seq 0 6)) end. rewrite E1. cbn [bind].
  eexists. split; [reflexivity|]. cbn [lo_preds lo_start map]. rewrite I0, I1. split; [|unfold Rmean; cbn; field].
  unfold lcollect. change (lsel "ml_g_du_z1") with lf_g1. cbn [s_smpls combine fold_left fst snd]. rewrite G0, G1. reflexivity.
Qed.

Lemma s_refit : exists (G M : learner (option R) nat unit) o x0 (c : @lpq_cfg (option R)) x y d z smpls r r',
  splitters_ok o /\ solver_ok o /\ partition_of (lc_n c) smpls /\ lc_bounds c = pq_bounds (lc_n c) y /\
  lpq_nuisance G M o x0 c (pq_start (lc_n c) (lc_treated c) (lc_q c) y d) x y d z smpls = Ok r /\
  lpq_nuisance G M o x0 c (lo_start r) x y d z smpls = Ok r' /\ lo_preds r "ml_g_du_z1" 9%nat = Some 0 /\ lo_preds r' "ml_g_du_z1" 9%nat = Some 1.
Proof.
  exists wl, wl, u_o, 0%nat, (s_c (-100, 100)), wx, (s_y 20 100), s_d, s_d, s_smpls.
  destruct (sbracket1 100) as (s1 & B1); [lra|]. destruct sbracket2 as (s2 & B2).
  destruct (s_run 20 100 0 (-100, 100) _ _ B1) as (r & E & Er & Es); [cbn; lra..|]. cbn [snd] in Es, Er.
  destruct (s_run 20 100 10 (-100, 100) _ _ B2) as (r' & E' & Er' & _); [cbn; lra..|]. cbn [snd] in Er'.
  exists r, r'. split; [exact u_split|]. split; [exact u_solver|]. split; [exact s_part|]. split; [symmetry; apply sbounds; lra|].
  cbn [s_c lc_n lc_treated lc_q]. rewrite sstart by lra. split; [exact E|]. split; [rewrite Es; replace ((100 + 100) / 20) with 10 by lra; exact E'|].
  rewrite Er, Er'. split; f_equal; rl; reflexivity.
Qed.
Lemma s_leak : exists (G M : learner (option R) nat unit) o x0 (c : R * R -> @lpq_cfg (option R)) x y y' d z smpls r r' n h,
  splitters_ok o /\ solver_ok o /\ partition_of n smpls /\ (forall b, lc_bounds (c b) = b) /\
  tested_in smpls 9 0 h /\ (forall j, j <> 9%nat -> y j = y' j) /\
  lpq_nuisance G M o x0 (c (pq_bounds n y)) (pq_start n true (lc_q (c (pq_bounds n y))) y d) x y d z smpls = Ok r /\
  lpq_nuisance G M o x0 (c (pq_bounds n y')) (pq_start n true (lc_q (c (pq_bounds n y'))) y' d) x y' d z smpls = Ok r' /\
  lo_preds r "ml_g_du_z1" 9%nat = Some 0 /\ lo_preds r' "ml_g_du_z1" 9%nat = Some 1.
Proof.
  exists wl, wl, u_o, 0%nat, s_c, wx, (s_y 40 100), (s_y 40 1000), s_d, s_d, s_smpls.
  destruct (sbracket1 100) as (s & B); [lra|]. destruct (sbracket1 1000) as (s' & B'); [lra|].
  destruct (s_run 40 100 0 (-100, 100) _ _ B) as (r & E & Er & _); [cbn; lra..|]. cbn [snd] in Er.
  destruct (s_run 40 1000 0 (-100, 1000) _ _ B') as (r' & E' & Er' & _); [cbn; lra..|]. cbn [snd] in Er'.
  exists r, r', 12%nat, (seq 0 6, seq 6 6). split; [exact u_split|]. split; [exact u_solver|]. split; [exact s_part|]. split; [reflexivity|]. split.
  { split; [reflexivity|]. split; [cbn; tauto|]. intros k h' Hk Hi. destruct k as [|[|k]]; [reflexivity| |destruct k; discriminate]. injection Hk as <-. cbn in Hi. lia. }
  split; [intros j Hj; unfold s_y; do 9 (destruct j as [|j]; [reflexivity|]); destruct j; [lia|reflexivity]|].
  rewrite !sbounds by lra. cbn [s_c lc_q]. rewrite !sstart by lra. split; [exact E|]. split; [exact E'|].
  rewrite Er, Er'. split; f_equal; rl; reflexivity.
Qed.

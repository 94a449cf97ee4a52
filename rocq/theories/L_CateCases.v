(** Effect heterogeneity methods: refusals, results before a fit, and results
    from predictions of an earlier fit. *)
From Verif Require Export L_CateFit.
From Coq Require Import Lia Lra.
Local Open Scope R_scope.
Local Open Scope res_scope.
Local Open Scope string_scope.

Section Cases.
Context {P : Type}.
Variable ols : ols_fun.
Variable C : ctx P.

Lemma cate_refusals w basis b :
  object_cate ols C false w basis b = Err ValueError /\
  (m_n_rep (w_obj w) <> 1%nat -> object_cate ols C true w basis b = Err NotImplementedError) /\
  (m_n_rep (w_obj w) = 1%nat -> ~ NoDup (fr_names basis) -> object_cate ols C true w basis b = Err ValueError) /\
  (m_n_rep (w_obj w) = 1%nat -> NoDup (fr_names basis) -> exists r, object_cate ols C true w basis b = Ok r).
Proof.
  unfold object_cate, irm_cate. split; [reflexivity|]. cbn [require]. split; [|split].
  - intro N. apply Nat.eqb_neq in N. rewrite N. reflexivity.
  - intros -> N. cbn [Nat.eqb require]. unfold blp_new. cbn. destruct (names_unique (fr_names basis)) eqn:E; [apply names_unique_iff in E; contradiction|]. reflexivity.
  - intros -> N. cbn [Nat.eqb require]. unfold blp_new. cbn. apply names_unique_iff in N. rewrite N. cbn. eexists. reflexivity.
Qed.

(** ** Before a fit *)
Lemma new_fresh nf nr dr g perm w : new_object C nf nr dr g perm = Ok w -> exists w3, w = fresh C w3.
Proof.
  unfold new_object. match goal with |- context [construct _ _ _ _ _ _ ?x] => set (w0 := x) end.
  destruct (construct C nf nr dr g perm w0) as [w1 [u|e]] eqn:E; [|discriminate]. intro H. injection H as ->. unfold construct in E. cbv zeta in E.
  do 6 (apply andthen_ok in E; destruct E as (? & ? & _ & E)).
  match type of E with (initialize_arrays C;;; initialize_params) ?w3 = _ => change ((initialize_arrays C;;; initialize_params) w3) with (init_both C w3) in E; exists w3 end.
  rewrite init_both_eq in E. congruence.
Qed.
Lemma fresh_signal w i : orth_signal (fresh C w) i = None.
Proof. reflexivity. Qed.
Lemma nan_result w basis b : (0 < c_n C)%nat -> (forall i, orth_signal w i = None) -> m_n_rep (w_obj w) = 1%nat -> NoDup (fr_names basis) -> object_cate ols C true w basis b = Ok None.
Proof.
  intros Hn Hs H1 Hd. destruct (proj2 (proj2 (proj2 (cate_refusals w basis b))) H1 Hd) as (r & E). rewrite E. unfold object_cate in E. destruct (irm_cate _ _ _ _ _ _ _) as [m|]; [|discriminate]. cbn [bind] in E. injection E as <-. f_equal.
  destruct (no_nan (c_n C) (orth_signal w)) eqn:En; [|reflexivity]. exfalso. unfold no_nan in En. rewrite forallb_forall in En. specialize (En 0%nat ltac:(apply in_seq; lia)). rewrite Hs in En. discriminate.
Qed.
Lemma unfitted_nan nf nr dr g perm w basis b : (0 < c_n C)%nat -> new_object C nf nr dr g perm = Ok w -> m_n_rep (w_obj w) = 1%nat -> NoDup (fr_names basis) -> object_cate ols C true w basis b = Ok None.
Proof. intros Hn H. destruct (new_fresh _ _ _ _ _ _ H) as (w3 & ->). apply nan_result; [exact Hn|apply fresh_signal]. Qed.
Lemma set_fresh s asc w w' : set_sample_splitting C s asc w = (w', Ok tt) -> m_preds (w_obj w') = m_preds (w_obj w) /\ forall i, orth_signal w' i = None.
Proof.
  intro H. destruct (set_inv C s asc w) as [(ck & sc & _ & _ & E)|(e' & E)]; rewrite E in H; [|discriminate]. apply pair_equal_spec in H. destruct H as [<- _]. split; reflexivity.
Qed.
Lemma split_again s asc w w' basis b : (0 < c_n C)%nat -> set_sample_splitting C s asc w = (w', Ok tt) -> m_n_rep (w_obj w') = 1%nat -> NoDup (fr_names basis) -> object_cate ols C true w' basis b = Ok None.
Proof. intros Hn H. apply nan_result; [exact Hn|apply (set_fresh _ _ _ _ H)]. Qed.

(** ** Predictions are stored only on request *)
Definition kp {A} (a : act P A) : Prop := forall w, m_preds (w_obj (fst (a w))) = m_preds (w_obj w).
Lemma kp_then {A B} (a : act P A) (k : A -> act P B) : kp a -> (forall x, kp (k x)) -> kp (x <- a ;; k x).
Proof. intros Ha Hk w. unfold andthen. specialize (Ha w). destruct (a w) as [w1 [x|e]]; cbn [fst] in *; [rewrite Hk|]; exact Ha. Qed.
Lemma kp_lift {A} (r : world P -> result A) : kp (lift r). Proof. intro w. reflexivity. Qed.
Lemma kp_ret {A} (x : A) : kp (ret x). Proof. intro w. reflexivity. Qed.
Lemma kp_assign u : (forall m, m_preds (u m) = m_preds m) -> kp (assign u). Proof. intros H w. apply H. Qed.
Lemma kp_write l u : kp (hwrite l u). Proof. intro w. unfold hwrite. destruct (u _); reflexivity. Qed.
Lemma kp_fw o : kp (fw_alloc o). Proof. intro w. reflexivity. Qed.
Lemma kp_for {A} (l : list A) body : (forall x, kp (body x)) -> kp (for_ l body).
Proof. intro H. induction l as [|x l IH]; [apply kp_ret|]. cbn [for_]. apply kp_then; [apply H|intros _; exact IH]. Qed.
Ltac kp_tac := repeat first [apply kp_lift | apply kp_ret | apply kp_write | apply kp_fw | (apply kp_assign; intro; reflexivity) | (apply kp_for; intro) | (apply kp_then; [|intro])].
Lemma kp_fit nj st ext sm : st <> PBool true -> kp (fit C nj st ext sm).
Proof.
  intro Hs. unfold fit. apply kp_then; [unfold check_fit; kp_tac|intros _]. assert (E : match st with PBool b => b | _ => false end = false) by (destruct st as [| |[|]| | | |]; congruence). rewrite E. cbv zeta.
  apply kp_then; [unfold initialize_fit; destruct (c_sens C); kp_tac|intros _]. apply kp_then; [apply kp_lift|intro w]. apply kp_then; [apply kp_for; intro r; apply kp_for; intro t|intros _].
  - unfold fit_step. apply kp_then; [|intro no; apply kp_then; [|intros _]].
    + unfold fit_nuisance, update_dict. cbv zeta. kp_tac.
    + unfold solve_score. cbv zeta. kp_tac.
    + unfold fit_sensitivity. destruct (c_sens C); kp_tac.
  - unfold finish_fit, construct_framework. cbv zeta. destruct (c_sens C); kp_tac.
Qed.
Lemma op_preds o w : wf C w -> never_stores o -> m_preds (w_obj (fst (run_op C o w))) = m_preds (w_obj w).
Proof.
  intros W H. destruct o as [nj st ext sm|g perm|s sc|l t v|wt mt nb|ppf mi a b c d e].
  - apply kp_fit, H.
  - exact (proj1 (proj2 (between_op C (ODraw g perm) w W I))).
  - cbn [run_op]. destruct (set_sample_splitting C s sc w) as [w' [[]|e]] eqn:E; cbn [fst]; [apply (set_fresh _ _ _ _ E)|]. rewrite (rejected_split C _ _ _ _ _ E). reflexivity.
  - exact (proj1 (proj2 (between_op C (OParams l t v) w W I))).
  - exact (proj1 (proj2 (between_op C (OBoot wt mt nb) w W I))).
  - exact (proj1 (proj2 (between_op C (OSens ppf mi a b c d e) w W I))).
Qed.
Lemma run_preds ops : forall w, wf C w -> Forall never_stores ops -> m_preds (w_obj (run C ops w)) = m_preds (w_obj w).
Proof.
  induction ops as [|o ops IH]; intros w W H; [reflexivity|]. cbn [run]. inversion_clear H as [|? ? H1 H2]. rewrite IH; [apply op_preds; assumption|apply op_step, W|exact H2].
Qed.
Lemma plr_not_stored nf nr dr g perm w0 ops iv y d basis b : new_object C nf nr dr g perm = Ok w0 -> Forall never_stores ops -> let w := run C ops w0 in
  exists e, object_plr_cate ols C iv y d w basis b = Err e /\ (length (c_dcols C) = 1%nat -> m_n_rep (w_obj w) = 1%nat -> e = ValueError).
Proof.
  intros N Hs w. destruct (new_inv C _ _ _ _ _ _ N) as (W & _ & _ & Hp & _). assert (E : m_preds (w_obj w) = None) by (unfold w; rewrite run_preds by assumption; exact Hp).
  unfold object_plr_cate. rewrite E. unfold plr_cate. destruct (Nat.ltb 1 (length (c_dcols C))) eqn:E1; cbn [negb require bind].
  { exists NotImplementedError. split; [reflexivity|]. intro H1. rewrite H1 in E1. discriminate. }
  destruct (Nat.eqb (m_n_rep (w_obj w)) 1) eqn:E2; cbn [require bind]; [exists ValueError; split; reflexivity|]. exists NotImplementedError. split; [reflexivity|]. intros _ H2. rewrite H2 in E2. discriminate.
Qed.
Lemma plr_refusals iv y d w basis b :
  (length (c_dcols C) <> 1%nat -> c_dcols C <> [] -> object_plr_cate ols C iv y d w basis b = Err NotImplementedError) /\
  (length (c_dcols C) = 1%nat -> m_n_rep (w_obj w) <> 1%nat -> object_plr_cate ols C iv y d w basis b = Err NotImplementedError).
Proof.
  unfold object_plr_cate, plr_cate. split.
  - intros H1 H0. assert (E : Nat.ltb 1 (length (c_dcols C)) = true) by (apply Nat.ltb_lt; destruct (c_dcols C) as [|? [|? ?]]; cbn in *; [congruence|lia|lia]). rewrite E. destruct (m_preds (w_obj w)); reflexivity.
  - intros -> H. apply Nat.eqb_neq in H. rewrite H. destruct (m_preds (w_obj w)); reflexivity.
Qed.

(** ** Predictions of an earlier fit *)
Lemma stale y d w w' : m_preds (w_obj w') = m_preds (w_obj w) -> m_n_rep (w_obj w') = m_n_rep (w_obj w) -> 
  (forall basis b, object_plr_cate ols C false y d w' basis b = object_plr_cate ols C false y d w basis b) /\ forall cols, object_plr_gate ols C false y d w' cols = object_plr_gate ols C false y d w cols.
Proof.
  intros Ep En. assert (K : forall basis b, object_plr_cate ols C false y d w' basis b = object_plr_cate ols C false y d w basis b) by (intros basis b; unfold object_plr_cate; rewrite Ep, En; reflexivity).
  split; [exact K|]. intro cols. unfold object_plr_gate. destruct (gate_basis (c_n C) cols); cbn [bind]; [apply K|reflexivity].
Qed.
Lemma stale_fit y d w nj ext smod w' : c_dcols C <> [] -> reachable C w -> fit C nj (PBool false) ext smod w = (w', Ok tt) ->
  (forall basis b, object_plr_cate ols C false y d w' basis b = object_plr_cate ols C false y d w basis b) /\ forall cols, object_plr_gate ols C false y d w' cols = object_plr_gate ols C false y d w cols.
Proof.
  intros Hd Hw H. destruct (fit_leaves C w nj (PBool false) ext smod w' Hd (reachable_wf C w Hw) H) as (_ & _ & Hp & En & _). apply stale; [exact (Hp eq_refl)|exact En].
Qed.
Lemma stale_split y d s asc w w' : set_sample_splitting C s asc w = (w', Ok tt) -> m_n_rep (w_obj w') = m_n_rep (w_obj w) ->
  (forall basis b, object_plr_cate ols C false y d w' basis b = object_plr_cate ols C false y d w basis b) /\ forall cols, object_plr_gate ols C false y d w' cols = object_plr_gate ols C false y d w cols.
Proof. intros H En. apply stale; [apply (set_fresh _ _ _ _ H)|exact En]. Qed.
End Cases.

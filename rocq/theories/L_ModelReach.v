(** Every reachable object is well formed; how objects evolve. *)
From Verif Require Export L_ModelInv.
Local Open Scope R_scope.

Section Obj.
Context {P : Type}.
Variable C : ctx P.
Notation n := (c_n C).
Notation nt := (length (c_dcols C)).

Lemma boot_keeps wt mt nb f : let g := fst (bootstrap_m wt mt nb f) in fw_n_obs g = fw_n_obs f /\ fw_n_thetas g = fw_n_thetas f /\ fw_n_rep g = fw_n_rep f /\ fw_thetas g = fw_thetas f /\
     fw_ses g = fw_ses f /\ fw_scaled_psi g = fw_scaled_psi f /\ fw_cluster g = fw_cluster f /\ fw_sens g = fw_sens f /\ fw_names g = fw_names f.
Proof.
  cbv zeta. unfold bootstrap_m, m_bind, m_lift, m_set. destruct (check_bootstrap mt nb); [|cbn; repeat split]. destruct (require _ _ _); cbn; repeat split.
Qed.
Lemma sens_keeps ppf mi a b c d e f : let g := fst (sensitivity_analysis_m ppf mi a b c d e f) in fw_n_obs g = fw_n_obs f /\ fw_n_thetas g = fw_n_thetas f /\ fw_n_rep g = fw_n_rep f /\ fw_thetas g = fw_thetas f /\
     fw_ses g = fw_ses f /\ fw_scaled_psi g = fw_scaled_psi f /\ fw_cluster g = fw_cluster f /\ fw_sens g = fw_sens f /\ fw_names g = fw_names f.
Proof.
  cbv zeta. unfold sensitivity_analysis_m, m_bind, m_lift, m_set. destruct (null_vec _ _); [|cbn; repeat split]. destruct (calc_sensitivity _ _ _ _ _ _); cbn; repeat split.
Qed.

Lemma params_inv l t v w : (exists ps, set_ml_nuisance_params C l t v w =
    ({| w_heap := w_heap w; w_fws := w_fws w; w_obj := with_params (fun l' t' => if String.eqb l' l && String.eqb t' t then ps else m_params (w_obj w) l' t') (w_obj w) |}, Ok tt) /\
    In l (c_learners C) /\ In t (c_dcols C) /\ length ps = m_n_rep (w_obj w) /\
    match v with
    | ParNone => ps = repeat None (m_n_rep (w_obj w))
    | ParDict p => ps = repeat (Some (repeat p (m_n_folds (w_obj w)))) (m_n_rep (w_obj w))
    | ParList ll => length ll = m_n_rep (w_obj w) /\ (forall x, In x ll -> length x = m_n_folds (w_obj w)) /\ ps = map Some ll
    end) \/ exists e, set_ml_nuisance_params C l t v w = (w, Err e) /\
    (~ In l (c_learners C) \/ ~ In t (c_dcols C) \/
     exists ll, v = ParList ll /\ ~ (length ll = m_n_rep (w_obj w) /\ forall x, In x ll -> length x = m_n_folds (w_obj w))).
Proof.
  assert (Sm : forall k ls, smem k ls = true <-> In k ls).
  { intros k ls. unfold smem. rewrite existsb_exists. split; [intros (x & Hx & E); apply String.eqb_eq in E; congruence|intro H; exists k; split; [exact H|apply String.eqb_refl]]. }
  remember (set_ml_nuisance_params C l t v w) as p eqn:E. unfold set_ml_nuisance_params in E. rewrite andthen_unf in E. unfold lift at 1 in E.
  destruct (smem l (c_learners C)) eqn:E1; cbn [require] in E.
  2: { right. eexists. split; [exact E|]. left. rewrite <- Sm. congruence. }
  apply Sm in E1. rewrite andthen_unf in E. unfold lift at 1 in E. destruct (smem t (c_dcols C)) eqn:E2; cbn [require] in E.
  2: { right. eexists. split; [exact E|]. right. left. rewrite <- Sm. congruence. }
  apply Sm in E2. rewrite andthen_unf in E. unfold lift at 1 in E. destruct v as [|p'|ll].
  - left. eexists. split; [exact E|]. split; [exact E1|]. split; [exact E2|]. split; [apply repeat_length|reflexivity].
  - left. eexists. split; [exact E|]. split; [exact E1|]. split; [exact E2|]. split; [apply repeat_length|reflexivity].
  - destruct (Nat.eqb (length ll) (m_n_rep (w_obj w))) eqn:E3; cbn [require] in E.
    2: { right. eexists. split; [exact E|]. right. right. exists ll. split; [reflexivity|]. intros [E' _]. apply Nat.eqb_neq in E3. contradiction. }
    apply Nat.eqb_eq in E3. destruct (forallb _ ll) eqn:E4; cbn [require] in E.
    2: { right. eexists. split; [exact E|]. right. right. exists ll. split; [reflexivity|]. intros [_ E']. apply not_true_iff_false in E4. apply E4.
         apply forallb_forall. intros x Hx. apply Nat.eqb_eq. auto. }
    left. eexists. split; [exact E|]. split; [exact E1|]. split; [exact E2|]. split; [rewrite map_length; exact E3|]. split; [exact E3|]. split; [|reflexivity].
    intros x Hx. rewrite forallb_forall in E4. apply Nat.eqb_eq, E4, Hx.
Qed.

Lemma wf_with_split (w : world P) sm sc nf : wf C w -> length sm = m_n_rep (w_obj w) ->
  match c_cluster C with Some _ => exists sc', sc = Some sc' /\ length sc' = m_n_rep (w_obj w) | None => True end ->
  wf C {| w_heap := w_heap w; w_fws := w_fws w; w_obj := with_split (m_n_rep (w_obj w)) nf (Some sm) sc (w_obj w) |}.
Proof.
  intros [] H1 H2. constructor; try assumption; cbn [w_obj with_split m_smpls m_smpls_cluster m_n_rep].
  - intros sm' E. injection E as <-. exact H1.
  - intros cv sm' Ec E. rewrite Ec in H2. destruct H2 as (sc' & -> & H2). eauto.
Qed.
Lemma evolves_obj (w : world P) m : m_vs m = m_vs (w_obj w) -> m_all_coef m = m_all_coef (w_obj w) -> m_all_se m = m_all_se (w_obj w) ->
  evolves w {| w_heap := w_heap w; w_fws := w_fws w; w_obj := m |}.
Proof. intros. constructor; cbn; auto. intros k o H2. exists o. split; [exact H2|apply fw_core_refl]. Qed.

Lemma op_step o w : wf C w -> wf C (fst (run_op C o w)) /\ evolves w (fst (run_op C o w)).
Proof.
  intro W. destruct o as [nj st ext sm|g perm|s sc|l t v|wt mt nb|ppf mi a b c d e]; cbn [run_op].
  - destruct (fit_ends C nj st ext sm w W). auto.
  - destruct (draw_inv C g perm w) as [(sm & sc & E & L1 & L2)|(e & E)]; rewrite E; cbn [fst]; [|auto using evolves_refl]. split.
    + apply wf_with_split; [exact W|exact L1|]. destruct (c_cluster C); [exact L2|exact I].
    + apply evolves_obj; reflexivity.
  - destruct (set_inv C s sc w) as [(ck & sc' & E1 & E2 & E)|(e & E)]; rewrite E; cbn [fst]; [|auto using evolves_refl]. split.
    + apply wf_fresh. eapply set_pre; [exact W|exact E1|]. destruct (c_cluster C); [|exact E2]. destruct E2 as (x & E3 & E4). eauto.
    + eapply evolves_trans; [|apply fresh_evolves]. apply evolves_obj; reflexivity.
  - destruct (params_inv l t v w) as [(ps & E & _ & _ & L & _)|(e & E & _)]; rewrite E; cbn [fst]; [|auto using evolves_refl]. split.
    + destruct W. constructor; try assumption. intros l' t'. cbn [w_obj with_params m_params m_n_rep]. destruct (_ && _); [exact L|apply wf_params].
    + apply evolves_obj; reflexivity.
  - destruct (method_ev C (bootstrap_m wt mt nb) w (boot_keeps wt mt nb) W) as (A & B & _). auto.
  - destruct (method_ev C (sensitivity_analysis_m ppf mi a b c d e) w (sens_keeps ppf mi a b c d e) W) as (A & B & _). auto.
Qed.
Lemma run_step ops : forall w, wf C w -> wf C (run C ops w) /\ evolves w (run C ops w).
Proof.
  induction ops as [|o ops IH]; intros w W; [auto using evolves_refl|]. cbn [run]. destruct (op_step o w W) as [W1 E1].
  destruct (IH _ W1) as [W2 E2]. split; [exact W2|]. eapply evolves_trans; eauto.
Qed.

Lemma new_inv nf nr dr g perm w : new_object C nf nr dr g perm = Ok w ->
  wf C w /\ w_fws w = [] /\ m_fw (w_obj w) = None /\ m_preds (w_obj w) = None /\ m_targets (w_obj w) = None /\ m_loss (w_obj w) = None /\
  b_at (m_coef (w_obj w)) = (fun _ => None) /\ length (w_heap w) = 3%nat /\ (forall l t, m_params (w_obj w) l t = repeat None (m_n_rep (w_obj w))).
Proof.
  unfold new_object. match goal with |- context [construct _ _ _ _ _ _ ?x] => set (w0 := x) end.
  destruct (construct C nf nr dr g perm w0) as [w1 [u|e]] eqn:E; [|discriminate]. intro H. injection H as ->.
  unfold construct in E. apply andthen_ok in E. destruct E as (? & ? & E1 & E). unfold lift in E1. apply pair_equal_spec in E1. destruct E1 as [<- E1]. apply require_ok in E1. destruct E1 as [Hc _].
  apply andthen_ok in E. destruct E as (? & ? & E1 & E). unfold lift in E1. apply pair_equal_spec in E1. destruct E1 as [<- E1]. apply require_ok in E1. destruct E1 as [_ E1]. apply require_ok in E1. destruct E1 as [Hf _].
  apply andthen_ok in E. destruct E as (? & ? & E1 & E). unfold lift in E1. apply pair_equal_spec in E1. destruct E1 as [<- E1]. apply require_ok in E1. destruct E1 as [_ E1]. apply require_ok in E1. destruct E1 as [Hr _].
  apply andthen_ok in E. destruct E as (? & ? & E1 & E). unfold lift in E1. apply pair_equal_spec in E1. destruct E1 as [<- E1]. cbv zeta in E.
  apply andthen_ok in E. destruct E as (w2 & [] & E2 & E). unfold assign in E2. apply pair_equal_spec in E2. destruct E2 as [E2 _].
  apply andthen_ok in E. destruct E as (w3 & [] & E3 & E).
  apply Z.leb_le in Hr. assert (R0 : (0 < m_n_rep (w_obj w2))%nat) by (rewrite <- E2; cbn; lia).
  assert (CV : forall cv, c_cluster C = Some cv -> (length cv <= 2)%nat) by (intros cv Ec; rewrite Ec in Hc; apply Nat.leb_le in Hc; exact Hc).
  assert (B : w_heap w3 = [] /\ w_fws w3 = [] /\ m_fw (w_obj w3) = None /\ m_preds (w_obj w3) = None /\ m_targets (w_obj w3) = None /\ m_loss (w_obj w3) = None /\ pre C w3).
  { assert (D : (w3 = w2) \/ draw_sample_splitting C g perm w2 = (w3, Ok tt)).
    { destruct dr as [| |[|]| | | |]; try (left; unfold ret in E3; congruence); right; exact E3. }
    destruct D as [->|D].
    - do 6 (split; [rewrite <- E2; reflexivity|]). constructor; [exact R0| | |exact CV| |]; rewrite <- E2; cbn; try discriminate.
      intros [|] ? ?; discriminate.
    - destruct (draw_inv C g perm w2) as [(sm & sc & D1 & L1 & L2)|(e & D1)]; rewrite D1 in D; [|discriminate]. apply pair_equal_spec in D. destruct D as [<- _].
      do 6 (split; [rewrite <- E2; reflexivity|]). constructor; cbn [w_obj w_fws w_heap with_split m_n_rep m_smpls m_smpls_cluster m_fw]; [exact R0| | |exact CV| |].
      + intros sm' Es. injection Es as <-. exact L1.
      + intros cv sm' Ec Es. rewrite Ec in L2. destruct L2 as (sc' & -> & L2). eauto.
      + rewrite <- E2. cbn. discriminate.
      + rewrite <- E2. cbn. intros [|] ? ?; discriminate. }
  destruct B as (B1 & B2 & B3 & B4 & B5 & B6 & B7). change ((initialize_arrays C;;; initialize_params) w3) with (init_both C w3) in E. rewrite init_both_eq in E.
  assert (w = fresh C w3) as -> by congruence. split; [apply wf_fresh, B7|].
  cbn [fresh w_fws w_obj w_heap with_params with_arrays m_fw m_preds m_targets m_loss m_coef m_params m_n_rep]. rewrite B1. repeat split; assumption.
Qed.
Lemma reachable_wf w : reachable C w -> wf C w.
Proof. intros (nf & nr & dr & g & perm & w0 & ops & E & ->). apply new_inv in E. apply run_step. apply E. Qed.
Lemma run_app a : forall b w, run C (a ++ b) w = run C b (run C a w).
Proof. induction a as [|o a IH]; intros b w; [reflexivity|]. cbn. apply IH. Qed.
Lemma reachable_run w ops : reachable C w -> reachable C (run C ops w).
Proof. intros (nf & nr & dr & g & perm & w0 & ops0 & E & ->). exists nf, nr, dr, g, perm, w0, (ops0 ++ ops). split; [exact E|]. symmetry. apply run_app. Qed.
Lemma reachable_op w o : reachable C w -> reachable C (fst (run_op C o w)).
Proof. apply (reachable_run w [o]). Qed.
End Obj.

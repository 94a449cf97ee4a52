(** The fitting loop as a whole. *)
From Verif Require Export L_ModelStep.
From Coq Require Import FunctionalExtensionality.
Local Open Scope R_scope.

Section Obj.
Context {P : Type}.
Variable C : ctx P.
Notation n := (c_n C).
Notation nt := (length (c_dcols C)).

Definition coef_val (no : nuis_out) (cl : option cluster_args) : R := lin_est_coef n (no_a no) (no_b no) cl.
Definition score_val (no : nuis_out) (cl : option cluster_args) : nat -> R := lin_score (no_a no) (no_b no) (coef_val no cl).

(** Effect of one iteration. *)
Record step_effect (store : bool) (r t : nat) (no : nuis_out) (cl : option cluster_args) (s2 v : R) (w w' : world P) : Prop := {
  se_len : length (w_heap w') = length (w_heap w);
  se_lv : hget (w_heap w') (m_vs (w_obj w)) = b_put [t] (Some v) (hget (w_heap w) (m_vs (w_obj w)));
  se_lc : hget (w_heap w') (m_all_coef (w_obj w)) = b_put [t; r] (Some (coef_val no cl)) (hget (w_heap w) (m_all_coef (w_obj w)));
  se_ls : hget (w_heap w') (m_all_se (w_obj w)) = b_put [t; r] (Some (sqrt s2)) (hget (w_heap w) (m_all_se (w_obj w)));
  se_oth : forall l, l <> m_vs (w_obj w) -> l <> m_all_coef (w_obj w) -> l <> m_all_se (w_obj w) -> hget (w_heap w') l = hget (w_heap w) l;
  se_fws : w_fws w' = w_fws w;
  se_n_rep : m_n_rep (w_obj w') = m_n_rep (w_obj w);
  se_n_folds : m_n_folds (w_obj w') = m_n_folds (w_obj w);
  se_nfpc : m_nfpc (w_obj w') = m_nfpc (w_obj w);
  se_smpls : m_smpls (w_obj w') = m_smpls (w_obj w);
  se_smpls_c : m_smpls_cluster (w_obj w') = m_smpls_cluster (w_obj w);
  se_mvs : m_vs (w_obj w') = m_vs (w_obj w);
  se_mac : m_all_coef (w_obj w') = m_all_coef (w_obj w);
  se_mas : m_all_se (w_obj w') = m_all_se (w_obj w);
  se_coef : m_coef (w_obj w') = m_coef (w_obj w);
  se_se : m_se (w_obj w') = m_se (w_obj w);
  se_fw : m_fw (w_obj w') = m_fw (w_obj w);
  se_params : m_params (w_obj w') = m_params (w_obj w);
  se_pa : m_psi_a (w_obj w') = b_putcol r t (fun i => Some (no_a no i)) (m_psi_a (w_obj w));
  se_pb : m_psi_b (w_obj w') = b_putcol r t (fun i => Some (no_b no i)) (m_psi_b (w_obj w));
  se_psi : m_psi (w_obj w') = b_putcol r t (fun i => Some (score_val no cl i)) (m_psi (w_obj w));
  se_dpsi : m_psi_deriv (w_obj w') = b_putcol r t (fun i => Some (no_a no i)) (m_psi_deriv (w_obj w));
  se_loss : forall l0, m_loss (w_obj w) = Some l0 -> exists lo, m_loss (w_obj w') = Some lo /\
     (forall l, b_shape (lo l) = b_shape (l0 l)) /\ forall l, In l (c_learners C) -> lo l = put_loss C no r t l (l0 l);
  se_nostore : store = false -> m_preds (w_obj w') = m_preds (w_obj w) /\ m_targets (w_obj w') = m_targets (w_obj w);
  se_store : store = true -> forall p0 t0, m_preds (w_obj w) = Some p0 -> m_targets (w_obj w) = Some t0 ->
     exists p1 t1, m_preds (w_obj w') = Some p1 /\ m_targets (w_obj w') = Some t1 /\
       (forall l, b_shape (p1 l) = b_shape (p0 l)) /\ (forall l, b_shape (t1 l) = b_shape (t0 l)) /\
       forall l, In l (c_learners C) -> p1 l = b_putcol r t (no_preds no l) (p0 l) /\ t1 l = b_putcol r t (tg_of no l) (t0 l);
  se_nosens : c_sens C = None -> m_sens (w_obj w') = m_sens (w_obj w);
  se_sens : forall est s, c_sens C = Some est -> m_sens (w_obj w) = Some s ->
     m_sens (w_obj w') = Some (sens_put r t (est r t no (coef_val no cl)) s) }.

(** What the iteration needs, and computes, from the configuration. *)
Definition step_data (m : dml P) (ext : ext_arg) (r t : nat) (no : nuis_out) (cl : option cluster_args) (s2 v : R) : Prop :=
  nuis_call C m ext r t = Ok no /\ cluster_args_of C m r = Ok cl /\ var_est n (score_val no cl) (no_a no) cl = Ok (s2, v).

Lemma wf_after_nuis store r t no w w' : wf C w -> nuis_effect C store r t no w w' -> wf C w'.
Proof.
  intros [] [Hh Hf (lo & pr & tg & Ho & _)]. rewrite <- Hh in *. rewrite <- Hf in *.
  constructor; rewrite ?Ho; cbn [m_n_rep m_smpls m_smpls_cluster m_psi m_psi_deriv m_psi_a m_psi_b m_vs m_all_coef m_all_se m_coef m_se m_fw m_params with_results with_elements with_arrays b_putcol b_shape]; assumption.
Qed.
Lemma shapes_after_nuis store r t no w w' : fit_shapes C store w -> nuis_effect C store r t no w w' -> fit_shapes C store w'.
Proof.
  intros [F1 F2 F3 F4] [Hh Hf (lo & pr & tg & Ho & L1 & N & Y)]. destruct F1 as (l0 & El0 & Sl0). destruct (L1 l0 El0) as [Slo _].
  constructor; rewrite Ho; cbn [m_n_rep m_loss m_preds m_targets m_sens with_results with_elements with_arrays].
  - exists lo. split; [reflexivity|]. intro l. now rewrite Slo, Sl0.
  - intro E. destruct (F2 E) as (p0 & Ep & Sp). destruct (F3 E) as (t0 & Et & St). destruct (Y E p0 t0 Ep Et) as (p1 & t1 & -> & -> & S1 & S2 & _).
    exists p1. split; [reflexivity|]. intro l. now rewrite S1, Sp.
  - intro E. destruct (F2 E) as (p0 & Ep & Sp). destruct (F3 E) as (t0 & Et & St). destruct (Y E p0 t0 Ep Et) as (p1 & t1 & -> & -> & S1 & S2 & _).
    exists t1. split; [reflexivity|]. intro l. now rewrite S2, St.
  - exact F4.
Qed.

Lemma step_ok store ext r t w no cl s2 v : wf C w -> fit_shapes C store w -> (r < m_n_rep (w_obj w))%nat -> (t < nt)%nat ->
  step_data (w_obj w) ext r t no cl s2 v -> exists w', fit_step C store ext r t w = (w', Ok tt) /\ step_effect store r t no cl s2 v w w'.
Proof.
  intros W F Hr Ht (Hn & Hcl & Hv). destruct (nuis_ok C store ext r t w no W F Hr Ht Hn) as (w1 & E1 & N1).
  pose proof (wf_after_nuis _ _ _ _ _ _ W N1) as W1. pose proof (shapes_after_nuis _ _ _ _ _ _ F N1) as F1.
  destruct N1 as [Hh Hf (lo & pr & tg & Ho & L1 & N & Y)].
  assert (Ea : col_of (m_psi_a (w_obj w1)) r t = no_a no) by (rewrite Ho; apply col_putcol).
  assert (Eb : col_of (m_psi_b (w_obj w1)) r t = no_b no) by (rewrite Ho; apply col_putcol).
  assert (Hr1 : (r < m_n_rep (w_obj w1))%nat) by (rewrite Ho; exact Hr).
  assert (Hcl1 : cluster_args_of C (w_obj w1) r = Ok cl) by (rewrite Ho; exact Hcl).
  pose proof (solve_ok C r t w1 cl s2 v W1 Hr1 Ht Hcl1) as Hs. cbv zeta in Hs. rewrite Ea, Eb in Hs. specialize (Hs Hv).
  unfold fit_step. rewrite (andthen_eq _ _ _ _ _ E1). rewrite (andthen_eq _ _ _ _ _ Hs).
  match type of Hs with _ = (?x, _) => set (w2 := x) in * end.
  assert (F2 : fit_shapes C store w2).
  { destruct F1. constructor; assumption. }
  destruct (sens_ok C store no r t w2 F2 Hr1 Ht) as (sn & E3 & Sn & Sy). eexists. split; [exact E3|].
  destruct W1.
  assert (Hlen : length (w_heap w2) = length (w_heap w)) by (unfold w2; cbn [w_heap]; rewrite !set_nth_length; congruence).
  assert (Ec : hget (w_heap w2) (m_all_coef (w_obj w1)) = b_put [t; r] (Some (coef_val no cl)) (hget (w_heap w1) (m_all_coef (w_obj w1)))).
  { unfold w2. cbn [w_heap]. rewrite hget_set_other by congruence. rewrite hget_set_other by congruence. apply hget_set_same. assumption. }
  constructor; cbn [w_heap w_fws w_obj].
  - exact Hlen.
  - replace (m_vs (w_obj w)) with (m_vs (w_obj w1)) by (now rewrite Ho). rewrite <- Hh. unfold w2. cbn [w_heap]. apply hget_set_same. rewrite !set_nth_length. assumption.
  - replace (m_all_coef (w_obj w)) with (m_all_coef (w_obj w1)) by (now rewrite Ho). rewrite <- Hh. exact Ec.
  - replace (m_all_se (w_obj w)) with (m_all_se (w_obj w1)) by (now rewrite Ho). rewrite <- Hh. unfold w2. cbn [w_heap]. rewrite hget_set_other by congruence.
    apply hget_set_same. rewrite !set_nth_length. assumption.
  - intros l. replace (m_vs (w_obj w)) with (m_vs (w_obj w1)) by (now rewrite Ho). replace (m_all_coef (w_obj w)) with (m_all_coef (w_obj w1)) by (now rewrite Ho).
    replace (m_all_se (w_obj w)) with (m_all_se (w_obj w1)) by (now rewrite Ho). intros A1 A2 A3. unfold w2. cbn [w_heap]. rewrite !hget_set_other by assumption. now rewrite Hh.
  - exact Hf.
  - unfold w2; cbn [w_obj]; rewrite Ho; reflexivity.
  - unfold w2; cbn [w_obj]; rewrite Ho; reflexivity.
  - unfold w2; cbn [w_obj]; rewrite Ho; reflexivity.
  - unfold w2; cbn [w_obj]; rewrite Ho; reflexivity.
  - unfold w2; cbn [w_obj]; rewrite Ho; reflexivity.
  - unfold w2; cbn [w_obj]; rewrite Ho; reflexivity.
  - unfold w2; cbn [w_obj]; rewrite Ho; reflexivity.
  - unfold w2; cbn [w_obj]; rewrite Ho; reflexivity.
  - unfold w2; cbn [w_obj]; rewrite Ho; reflexivity.
  - unfold w2; cbn [w_obj]; rewrite Ho; reflexivity.
  - unfold w2; cbn [w_obj]; rewrite Ho; reflexivity.
  - unfold w2; cbn [w_obj]; rewrite Ho; reflexivity.
  - unfold w2; cbn [w_obj]; rewrite Ho; reflexivity.
  - unfold w2; cbn [w_obj]; rewrite Ho; reflexivity.
  - unfold w2; cbn [w_obj]; rewrite Ho; reflexivity.
  - unfold w2; cbn [w_obj]; rewrite Ho; reflexivity.
  - intros l0 E0. exists lo. split; [unfold w2; cbn [w_obj]; rewrite Ho; reflexivity|]. apply L1, E0.
  - intro E. destruct (N E) as [-> ->]. unfold w2; cbn [w_obj]; rewrite Ho. split; reflexivity.
  - intros E p0 t0 Ep Et. destruct (Y E p0 t0 Ep Et) as (p1 & t1 & -> & -> & S). exists p1, t1.
    split; [unfold w2; cbn [w_obj]; rewrite Ho; reflexivity|]. split; [unfold w2; cbn [w_obj]; rewrite Ho; reflexivity|]. exact S.
  - intro E. cbn [m_sens with_sens with_results]. rewrite (Sn E). unfold w2; cbn [w_obj]; rewrite Ho; reflexivity.
  - intros est s Ee Es. cbn [m_sens with_sens with_results].
    rewrite (Sy est s Ee) by (unfold w2; cbn [w_obj]; rewrite Ho; exact Es).
    change (m_all_coef (w_obj w2)) with (m_all_coef (w_obj w1)). rewrite Ec. rewrite put_at. reflexivity.
Qed.
Lemma step_inv store ext r t w w' : wf C w -> fit_shapes C store w -> (r < m_n_rep (w_obj w))%nat -> (t < nt)%nat ->
  fit_step C store ext r t w = (w', Ok tt) -> exists no cl s2 v, step_data (w_obj w) ext r t no cl s2 v.
Proof.
  intros W F Hr Ht H. unfold fit_step in H. apply andthen_ok in H. destruct H as (w1 & no & H1 & H). pose proof (nuis_inv C _ _ _ _ _ _ _ H1) as Hn.
  destruct (nuis_ok C store ext r t w no W F Hr Ht Hn) as (w1' & E1 & N1). assert (w1' = w1) as -> by congruence.
  pose proof (wf_after_nuis _ _ _ _ _ _ W N1) as W1. destruct N1 as [Hh Hf (lo & pr & tg & Ho & _)].
  apply andthen_ok in H. destruct H as (w2 & [] & H2 & _).
  apply (solve_inv C) in H2; [|exact W1|rewrite Ho; exact Hr|exact Ht]. destruct H2 as (cl & s2 & v & A & B).
  rewrite Ho in A, B. exists no, cl, s2, v. split; [exact Hn|]. split; [exact A|].
  cbn [m_psi_a m_psi_b with_results with_elements with_arrays] in B. rewrite !col_putcol in B. exact B.
Qed.

(** The scaling factor does not depend on the repetition. *)
Lemma var_est_vs k p1 d1 cl1 s1 v1 p2 d2 cl2 s2 v2 : option_map ca_vars cl1 = option_map ca_vars cl2 ->
  var_est k p1 d1 cl1 = Ok (s1, v1) -> var_est k p2 d2 cl2 = Ok (s2, v2) -> v1 = v2.
Proof.
  intros E H1 H2. destruct cl1 as [c1|], cl2 as [c2|]; cbn in E; try discriminate.
  - injection E as E. unfold var_est in H1, H2. rewrite <- E in H2.
    destruct (ca_vars c1) as [|u [|u' [|]]]; try discriminate; cbn in H1, H2; injection H1 as _ <-; injection H2 as _ <-; reflexivity.
  - cbn in H1, H2. injection H1 as _ <-. injection H2 as _ <-. reflexivity.
Qed.
Lemma cluster_args_vars m r cl : cluster_args_of C m r = Ok cl -> option_map ca_vars cl = c_cluster C.
Proof.
  unfold cluster_args_of. destruct (c_cluster C) as [cv|]; [|intro H; now injection H as <-].
  destruct (smpls_rep (m_smpls m) r); [|discriminate]. cbn [bind]. destruct (smpls_rep (m_smpls_cluster m) r); [|discriminate]. cbn. intro H. injection H as <-. reflexivity.
Qed.

(** Written cells. *)
Record cell_written (store : bool) (r t : nat) (no : nuis_out) (cl : option cluster_args) (s2 v : R) (w : world P) : Prop := {
  cw_coef : b_at (hget (w_heap w) (m_all_coef (w_obj w))) [t; r] = Some (coef_val no cl);
  cw_se : b_at (hget (w_heap w) (m_all_se (w_obj w))) [t; r] = Some (sqrt s2);
  cw_vs : b_at (hget (w_heap w) (m_vs (w_obj w))) [t] = Some v;
  cw_pa : forall i, b_at (m_psi_a (w_obj w)) [i; r; t] = Some (no_a no i);
  cw_pb : forall i, b_at (m_psi_b (w_obj w)) [i; r; t] = Some (no_b no i);
  cw_psi : forall i, b_at (m_psi (w_obj w)) [i; r; t] = Some (score_val no cl i);
  cw_dpsi : forall i, b_at (m_psi_deriv (w_obj w)) [i; r; t] = Some (no_a no i);
  cw_loss : forall d l, m_loss (w_obj w) = Some d -> In l (c_learners C) ->
     b_at (d l) [r; t] = loss_value C (c_classifier C l) (no_preds no l) (no_targets no l);
  cw_preds : store = true -> forall d l i, m_preds (w_obj w) = Some d -> In l (c_learners C) -> b_at (d l) [i; r; t] = no_preds no l i;
  cw_targets : store = true -> forall d l i, m_targets (w_obj w) = Some d -> In l (c_learners C) -> b_at (d l) [i; r; t] = tg_of no l i;
  cw_sens : forall est s, c_sens C = Some est -> m_sens (w_obj w) = Some s ->
     let o := est r t no (coef_val no cl) in
     (forall i, b_at (sb_sigma2 s) [i; r; t] = Some (so_sigma2 o)) /\ (forall i, b_at (sb_nu2 s) [i; r; t] = Some (so_nu2 o)) /\
     (forall i, b_at (sb_psi_sigma2 s) [i; r; t] = Some (so_psi_sigma2 o i)) /\ (forall i, b_at (sb_psi_nu2 s) [i; r; t] = Some (so_psi_nu2 o i)) /\
     (forall i, b_at (sb_rr s) [i; r; t] = Some (so_rr o i)) }.

(** Unchanged by a fit in progress. *)
Record frame (store : bool) (w0 w : world P) : Prop := {
  fr_len : length (w_heap w) = length (w_heap w0);
  fr_oth : forall l, l <> m_vs (w_obj w0) -> l <> m_all_coef (w_obj w0) -> l <> m_all_se (w_obj w0) -> hget (w_heap w) l = hget (w_heap w0) l;
  fr_fws : w_fws w = w_fws w0;
  fr_n_rep : m_n_rep (w_obj w) = m_n_rep (w_obj w0);
  fr_n_folds : m_n_folds (w_obj w) = m_n_folds (w_obj w0);
  fr_nfpc : m_nfpc (w_obj w) = m_nfpc (w_obj w0);
  fr_smpls : m_smpls (w_obj w) = m_smpls (w_obj w0);
  fr_smpls_c : m_smpls_cluster (w_obj w) = m_smpls_cluster (w_obj w0);
  fr_mvs : m_vs (w_obj w) = m_vs (w_obj w0);
  fr_mac : m_all_coef (w_obj w) = m_all_coef (w_obj w0);
  fr_mas : m_all_se (w_obj w) = m_all_se (w_obj w0);
  fr_coef : m_coef (w_obj w) = m_coef (w_obj w0);
  fr_se : m_se (w_obj w) = m_se (w_obj w0);
  fr_fw : m_fw (w_obj w) = m_fw (w_obj w0);
  fr_params : m_params (w_obj w) = m_params (w_obj w0);
  fr_nostore : store = false -> m_preds (w_obj w) = m_preds (w_obj w0) /\ m_targets (w_obj w) = m_targets (w_obj w0) }.
Lemma frame_refl store w : frame store w w.
Proof. constructor; auto. Qed.
Lemma frame_trans store w0 w w' : frame store w0 w -> frame store w w' -> frame store w0 w'.
Proof.
  intros [] []. constructor; try congruence.
  - intros l A B D. rewrite fr_oth1 by congruence. auto.
  - intro E. destruct (fr_nostore0 E), (fr_nostore1 E). split; congruence.
Qed.
Lemma step_frame store r t no cl s2 v w w' : step_effect store r t no cl s2 v w w' -> frame store w w'.
Proof. intros []. constructor; auto. Qed.

Lemma wf_after_step store r t no cl s2 v w w' : wf C w -> step_effect store r t no cl s2 v w w' -> wf C w'.
Proof.
  intros [] []. constructor; rewrite ?se_n_rep0, ?se_mvs0, ?se_mac0, ?se_mas0, ?se_len0, ?se_smpls0, ?se_smpls_c0, ?se_fws0, ?se_fw0, ?se_params0, ?se_coef0, ?se_se0, ?se_psi0, ?se_dpsi0, ?se_pa0, ?se_pb0, ?se_lv0, ?se_lc0, ?se_ls0; cbn [b_shape b_put b_putcol]; assumption.
Qed.
Lemma shapes_after_step store r t no cl s2 v w w' : fit_shapes C store w -> step_effect store r t no cl s2 v w w' -> fit_shapes C store w'.
Proof.
  intros [F1 F2 F3 F4] []. destruct F1 as (l0 & El0 & Sl0). constructor; rewrite ?se_n_rep0.
  - destruct (se_loss0 l0 El0) as (lo & E & Sh & _). exists lo. split; [exact E|]. intro l. now rewrite Sh, Sl0.
  - intro E. destruct (F2 E) as (p0 & Ep & Sp). destruct (F3 E) as (t0 & Et & St). destruct (se_store0 E p0 t0 Ep Et) as (p1 & t1 & A & B & S1 & S2 & _).
    exists p1. split; [exact A|]. intro l. now rewrite S1, Sp.
  - intro E. destruct (F2 E) as (p0 & Ep & Sp). destruct (F3 E) as (t0 & Et & St). destruct (se_store0 E p0 t0 Ep Et) as (p1 & t1 & A & B & S1 & S2 & _).
    exists t1. split; [exact B|]. intro l. now rewrite S2, St.
  - intros est E. destruct (F4 est E) as (s & Es & S). eexists. split; [exact (se_sens0 est s E Es)|]. exact S.
Qed.

Lemma cell_now store r t no cl s2 v w w' : wf C w -> fit_shapes C store w -> step_effect store r t no cl s2 v w w' -> cell_written store r t no cl s2 v w'.
Proof.
  intros W [F1 F2 F3 F4] []. destruct F1 as (l0 & El0 & Sl0). constructor; rewrite ?se_mvs0, ?se_mac0, ?se_mas0.
  - rewrite se_lc0. apply put_at.
  - rewrite se_ls0. apply put_at.
  - rewrite se_lv0. apply put_at.
  - intro i. rewrite se_pa0. apply putcol_at.
  - intro i. rewrite se_pb0. apply putcol_at.
  - intro i. rewrite se_psi0. apply putcol_at.
  - intro i. rewrite se_dpsi0. apply putcol_at.
  - intros d l Ed Hl. destruct (se_loss0 l0 El0) as (lo & E & Sh & I). rewrite E in Ed. injection Ed as <-. rewrite (I l Hl). unfold put_loss. apply put_at.
  - intros E d l i Ed Hl. destruct (F2 E) as (p0 & Ep & Sp). destruct (F3 E) as (t0 & Et & St). destruct (se_store0 E p0 t0 Ep Et) as (p1 & t1 & A & B & S1 & S2 & I).
    rewrite A in Ed. injection Ed as <-. destruct (I l Hl) as [-> _]. apply putcol_at.
  - intros E d l i Ed Hl. destruct (F2 E) as (p0 & Ep & Sp). destruct (F3 E) as (t0 & Et & St). destruct (se_store0 E p0 t0 Ep Et) as (p1 & t1 & A & B & S1 & S2 & I).
    rewrite B in Ed. injection Ed as <-. destruct (I l Hl) as [_ ->]. apply putcol_at.
  - intros est s Ee Es. destruct (F4 est Ee) as (s0 & Es0 & _). rewrite (se_sens0 est s0 Ee Es0) in Es. injection Es as <-. unfold sens_put.
    cbn [sb_sigma2 sb_nu2 sb_psi_sigma2 sb_psi_nu2 sb_rr]. repeat split; intro i; apply putcol_at.
Qed.
Lemma cell_kept store r t no cl s2 v r' t' no' cl' s2' v' w w' : fit_shapes C store w ->
  step_effect store r t no cl s2 v w w' -> (r' <> r \/ t' <> t) -> v = v' ->
  cell_written store r' t' no' cl' s2' v' w -> cell_written store r' t' no' cl' s2' v' w'.
Proof.
  intros [F1 F2 F3 F4] [] Hd <- []. destruct F1 as (l0 & El0 & Sl0). constructor; rewrite ?se_mvs0, ?se_mac0, ?se_mas0.
  - rewrite se_lc0, put_other; [assumption|]. intro E. injection E as -> ->. lia.
  - rewrite se_ls0, put_other; [assumption|]. intro E. injection E as -> ->. lia.
  - rewrite se_lv0. destruct (Nat.eq_dec t' t) as [->|Hne]; [apply put_at|]. rewrite put_other; [assumption|]. intro E. injection E as ->. lia.
  - intro i. rewrite se_pa0, putcol_other by exact Hd. auto.
  - intro i. rewrite se_pb0, putcol_other by exact Hd. auto.
  - intro i. rewrite se_psi0, putcol_other by exact Hd. auto.
  - intro i. rewrite se_dpsi0, putcol_other by exact Hd. auto.
  - intros d l Ed Hl. destruct (se_loss0 l0 El0) as (lo & E & Sh & I). rewrite E in Ed. injection Ed as <-. rewrite (I l Hl). unfold put_loss.
    rewrite put_other; [exact (cw_loss0 l0 l El0 Hl)|]. intro E'. injection E' as -> ->. lia.
  - intros E d l i Ed Hl. destruct (F2 E) as (p0 & Ep & Sp). destruct (F3 E) as (t0 & Et & St). destruct (se_store0 E p0 t0 Ep Et) as (p1 & t1 & A & B & S1 & S2 & I).
    rewrite A in Ed. injection Ed as <-. destruct (I l Hl) as [-> _]. rewrite putcol_other by exact Hd. exact (cw_preds0 E p0 l i Ep Hl).
  - intros E d l i Ed Hl. destruct (F2 E) as (p0 & Ep & Sp). destruct (F3 E) as (t0 & Et & St). destruct (se_store0 E p0 t0 Ep Et) as (p1 & t1 & A & B & S1 & S2 & I).
    rewrite B in Ed. injection Ed as <-. destruct (I l Hl) as [_ ->]. rewrite putcol_other by exact Hd. exact (cw_targets0 E t0 l i Et Hl).
  - intros est s Ee Es. destruct (F4 est Ee) as (s0 & Es0 & _). rewrite (se_sens0 est s0 Ee Es0) in Es. injection Es as <-. unfold sens_put.
    cbn [sb_sigma2 sb_nu2 sb_psi_sigma2 sb_psi_nu2 sb_rr]. cbv zeta. destruct (cw_sens0 est s0 Ee Es0) as (A & B & D & G & H).
    repeat split; intro i; rewrite putcol_other by exact Hd; auto.
Qed.

(** Loop invariant: the pairs in [D] are written. *)
Definition step_fun (m : dml P) (ext : ext_arg) (r t : nat) : result (nuis_out * option cluster_args * R * R) :=
  bind (nuis_call C m ext r t) (fun no => bind (cluster_args_of C m r) (fun cl =>
  bind (var_est n (score_val no cl) (no_a no) cl) (fun p => Ok (no, cl, fst p, snd p)))).
Lemma step_fun_iff m ext r t no cl s2 v : step_fun m ext r t = Ok (no, cl, s2, v) <-> step_data m ext r t no cl s2 v.
Proof.
  unfold step_fun, step_data. split.
  - destruct (nuis_call C m ext r t) as [no'|]; [|discriminate]. cbn [bind]. destruct (cluster_args_of C m r) as [cl'|]; [|discriminate]. cbn [bind].
    destruct (var_est n (score_val no' cl') (no_a no') cl') as [[a b]|] eqn:E; [|discriminate]. cbn. intro H. injection H as <- <- <- <-. auto.
  - intros (-> & -> & E). cbn [bind]. rewrite E. reflexivity.
Qed.
Lemma step_fun_cfg m m' ext r t : m_smpls m = m_smpls m' -> m_smpls_cluster m = m_smpls_cluster m' -> m_nfpc m = m_nfpc m' ->
  (forall l d, m_params m l d = m_params m' l d) -> step_fun m ext r t = step_fun m' ext r t.
Proof.
  intros E1 E2 E3 E4. unfold step_fun, nuis_call, cluster_args_of. rewrite E1, E2, E3.
  replace (fun l => nth r (m_params m l (nth t (c_dcols C) EmptyString)) None) with (fun l => nth r (m_params m' l (nth t (c_dcols C) EmptyString)) None); [reflexivity|].
  apply functional_extensionality. intro l. now rewrite E4.
Qed.

Record linv (store : bool) (ext : ext_arg) (w0 : world P) (D : nat -> nat -> Prop) (w : world P) : Prop := {
  li_wf : wf C w;
  li_sh : fit_shapes C store w;
  li_fr : frame store w0 w;
  li_cells : forall r t, D r t -> (r < m_n_rep (w_obj w0))%nat -> (t < nt)%nat ->
     exists no cl s2 v, step_fun (w_obj w0) ext r t = Ok (no, cl, s2, v) /\ cell_written store r t no cl s2 v w }.

Lemma linv_weak store ext w0 (D D' : nat -> nat -> Prop) w : linv store ext w0 D w ->
  (forall r t, D' r t -> (r < m_n_rep (w_obj w0))%nat -> (t < nt)%nat -> D r t) -> linv store ext w0 D' w.
Proof. intros [] H. constructor; auto. Qed.

Lemma linv_step store ext w0 D w r t w' : linv store ext w0 D w -> (r < m_n_rep (w_obj w0))%nat -> (t < nt)%nat ->
  fit_step C store ext r t w = (w', Ok tt) ->
  linv store ext w0 (fun r' t' => D r' t' \/ (r' = r /\ t' = t)) w' /\ exists x, step_fun (w_obj w0) ext r t = Ok x.
Proof.
  intros [W F Fr Cl] Hr Ht H. assert (Hr' : (r < m_n_rep (w_obj w))%nat) by (rewrite (fr_n_rep _ _ _ Fr); exact Hr).
  assert (Ecfg : forall r t, step_fun (w_obj w) ext r t = step_fun (w_obj w0) ext r t).
  { intros. destruct Fr. apply step_fun_cfg; try assumption. intros. congruence. }
  destruct (step_inv _ _ _ _ _ _ W F Hr' Ht H) as (no & cl & s2 & v & Sd). pose proof (proj2 (step_fun_iff _ _ _ _ _ _ _ _) Sd) as Sf.
  destruct (step_ok _ _ _ _ _ _ _ _ _ W F Hr' Ht Sd) as (w'' & E & Ef). assert (w'' = w') as -> by congruence.
  rewrite Ecfg in Sf. split; [|eauto]. constructor.
  - eapply wf_after_step; eauto.
  - eapply shapes_after_step; eauto.
  - eapply frame_trans; [exact Fr|]. eapply step_frame; eauto.
  - intros r' t' Hd Hr'' Ht'. destruct (Nat.eq_dec r' r) as [->|Nr].
    + destruct (Nat.eq_dec t' t) as [->|Nt].
      * exists no, cl, s2, v. split; [exact Sf|]. eapply cell_now; eauto.
      * destruct Hd as [Hd|[_ Hd]]; [|contradiction]. destruct (Cl r t' Hd Hr'' Ht') as (no' & cl' & s2' & v' & E1 & E2).
        exists no', cl', s2', v'. split; [exact E1|]. apply step_fun_iff in E1. destruct E1 as (_ & E3 & E4). rewrite <- Ecfg in Sf. apply step_fun_iff in Sf. destruct Sf as (_ & E5 & E6).
        eapply cell_kept; [exact F|exact Ef|right; exact Nt| |exact E2].
        eapply var_est_vs; [|exact E6|exact E4]. rewrite (cluster_args_vars _ _ _ E3). apply (cluster_args_vars _ _ _ E5).
    + destruct Hd as [Hd|[Hd _]]; [|contradiction]. destruct (Cl r' t' Hd Hr'' Ht') as (no' & cl' & s2' & v' & E1 & E2).
      exists no', cl', s2', v'. split; [exact E1|]. apply step_fun_iff in E1. destruct E1 as (_ & E3 & E4). rewrite <- Ecfg in Sf. apply step_fun_iff in Sf. destruct Sf as (_ & E5 & E6).
      eapply cell_kept; [exact F|exact Ef|left; exact Nr| |exact E2].
      eapply var_est_vs; [|exact E6|exact E4]. rewrite (cluster_args_vars _ _ _ E3). apply (cluster_args_vars _ _ _ E5).
Qed.
Lemma linv_progress store ext w0 D w r t x : linv store ext w0 D w -> (r < m_n_rep (w_obj w0))%nat -> (t < nt)%nat ->
  step_fun (w_obj w0) ext r t = Ok x -> exists w', fit_step C store ext r t w = (w', Ok tt).
Proof.
  intros [W F Fr Cl] Hr Ht H. assert (Hr' : (r < m_n_rep (w_obj w))%nat) by (rewrite (fr_n_rep _ _ _ Fr); exact Hr).
  destruct x as [[[no cl] s2] v]. rewrite <- (step_fun_cfg (w_obj w) (w_obj w0)) in H; [|destruct Fr; assumption|destruct Fr; assumption|destruct Fr; assumption|destruct Fr; intros; congruence].
  apply step_fun_iff in H. destruct (step_ok _ _ _ _ _ _ _ _ _ W F Hr' Ht H) as (w' & E & _). eauto.
Qed.

(** Inner loop over treatments ts = a .. a+k-1. *)
Lemma inner_inv store ext w0 r k : (r < m_n_rep (w_obj w0))%nat -> forall a D w w', (a + k <= nt)%nat ->
  linv store ext w0 D w -> for_ (seq a k) (fun t => fit_step C store ext r t) w = (w', Ok tt) ->
  linv store ext w0 (fun r' t' => D r' t' \/ (r' = r /\ a <= t' < a + k)%nat) w'.
Proof.
  intro Hr. induction k as [|k IH]; intros a D w w' Ha L H.
  - cbn in H. injection H as <-. eapply linv_weak; [exact L|]. intros r' t' [Hd|Hd]; [auto|lia].
  - cbn [seq for_] in H. apply andthen_ok in H. destruct H as (w1 & [] & H1 & H).
    assert (Ha' : (a < nt)%nat) by lia. destruct (linv_step _ _ _ _ _ _ _ _ L Hr Ha' H1) as [L1 _].
    specialize (IH (S a) _ _ _ ltac:(lia) L1 H). eapply linv_weak; [exact IH|]. intros r' t' [Hd|Hd] _ _; [auto|].
    destruct (Nat.eq_dec t' a) as [->|]; [left; right; lia|right; lia].
Qed.
Lemma inner_progress store ext w0 r k : (r < m_n_rep (w_obj w0))%nat -> forall a D w, (a + k <= nt)%nat ->
  linv store ext w0 D w -> (forall t, (t < nt)%nat -> exists x, step_fun (w_obj w0) ext r t = Ok x) ->
  exists w', for_ (seq a k) (fun t => fit_step C store ext r t) w = (w', Ok tt).
Proof.
  intro Hr. induction k as [|k IH]; intros a D w Ha L H; [eexists; reflexivity|].
  cbn [seq for_]. destruct (H a ltac:(lia)) as [x Hx]. assert (Ha' : (a < nt)%nat) by lia. destruct (linv_progress _ _ _ _ _ _ _ _ L Hr Ha' Hx) as [w1 E1].
  destruct (linv_step _ _ _ _ _ _ _ _ L Hr Ha' E1) as [L1 _]. rewrite (andthen_eq _ _ _ _ _ E1). eapply IH; eauto. lia.
Qed.
Lemma inner_calls store ext w0 r k : (r < m_n_rep (w_obj w0))%nat -> forall a D w w', (a + k <= nt)%nat ->
  linv store ext w0 D w -> for_ (seq a k) (fun t => fit_step C store ext r t) w = (w', Ok tt) ->
  forall t, (a <= t < a + k)%nat -> exists x, step_fun (w_obj w0) ext r t = Ok x.
Proof.
  intro Hr. induction k as [|k IH]; intros a D w w' Ha L H t Ht; [lia|].
  cbn [seq for_] in H. apply andthen_ok in H. destruct H as (w1 & [] & H1 & H).
  assert (Ha' : (a < nt)%nat) by lia. destruct (linv_step _ _ _ _ _ _ _ _ L Hr Ha' H1) as [L1 X]. destruct (Nat.eq_dec t a) as [->|]; [exact X|].
  eapply (IH (S a)); eauto; lia.
Qed.

Definition loop (store : bool) (ext : ext_arg) (nr : nat) : act P unit :=
  for_ (seq 0 nr) (fun r => for_ (seq 0 nt) (fun t => fit_step C store ext r t)).
Lemma outer_inv store ext w0 k : forall a D w w', (a + k <= m_n_rep (w_obj w0))%nat ->
  linv store ext w0 D w -> for_ (seq a k) (fun r => for_ (seq 0 nt) (fun t => fit_step C store ext r t)) w = (w', Ok tt) ->
  linv store ext w0 (fun r' t' => D r' t' \/ (a <= r' < a + k)%nat) w' /\
  forall r t, (a <= r < a + k)%nat -> (t < nt)%nat -> exists x, step_fun (w_obj w0) ext r t = Ok x.
Proof.
  induction k as [|k IH]; intros a D w w' Ha L H.
  - cbn in H. injection H as <-. split; [|intros; lia]. eapply linv_weak; [exact L|]. intros r' t' [Hd|Hd]; [auto|lia].
  - cbn [seq for_] in H. apply andthen_ok in H. destruct H as (w1 & [] & H1 & H).
    pose proof (inner_inv store ext w0 a nt ltac:(lia) 0 D w w1 ltac:(lia) L H1) as L1.
    pose proof (inner_calls store ext w0 a nt ltac:(lia) 0 D w w1 ltac:(lia) L H1) as X1.
    destruct (IH (S a) _ _ _ ltac:(lia) L1 H) as [L2 X2]. split.
    + eapply linv_weak; [exact L2|]. intros r' t' [Hd|Hd] _ Ht; [auto|]. destruct (Nat.eq_dec r' a) as [->|]; [left; right; lia|right; lia].
    + intros r t Hr Ht. destruct (Nat.eq_dec r a) as [->|]; [apply X1; lia|apply X2; lia].
Qed.
Lemma outer_progress store ext w0 k : forall a D w, (a + k <= m_n_rep (w_obj w0))%nat -> linv store ext w0 D w ->
  (forall r t, (r < m_n_rep (w_obj w0))%nat -> (t < nt)%nat -> exists x, step_fun (w_obj w0) ext r t = Ok x) ->
  exists w', for_ (seq a k) (fun r => for_ (seq 0 nt) (fun t => fit_step C store ext r t)) w = (w', Ok tt).
Proof.
  induction k as [|k IH]; intros a D w Ha L H; [eexists; reflexivity|].
  cbn [seq for_]. destruct (inner_progress store ext w0 a nt ltac:(lia) 0 D w ltac:(lia) L (fun t => H a t ltac:(lia))) as [w1 E1].
  rewrite (andthen_eq _ _ _ _ _ E1). eapply IH; [lia| |exact H]. exact (inner_inv store ext w0 a nt ltac:(lia) 0 D w w1 ltac:(lia) L E1).
Qed.
End Obj.

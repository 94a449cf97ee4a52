(** Effect heterogeneity methods of fitted objects. *)
From Verif Require Import L_DataOps L_DataProps.
From Verif Require Export L_Cate L_LossEnd L_ModelHist.
From Coq Require Import Lia Lra.
Local Open Scope R_scope.
Local Open Scope res_scope.
Local Open Scope string_scope.

Section Keep.
Context {P : Type}.
Variable C : ctx P.
Definition same_arrays (w w' : world P) : Prop :=
  m_psi_b (w_obj w') = m_psi_b (w_obj w) /\ m_preds (w_obj w') = m_preds (w_obj w) /\ m_n_rep (w_obj w') = m_n_rep (w_obj w) /\ m_coef (w_obj w') = m_coef (w_obj w).
Lemma between_op o w : wf C w -> keeps_results o -> same_arrays w (fst (run_op C o w)).
Proof.
  intros W H. destruct o as [nj st ext sm|g perm|s sc|l t v|wt mt nb|ppf mi a b c d e]; cbn [run_op keeps_results] in *; try contradiction.
  - destruct (draw_inv C g perm w) as [(sm & sc & E & _)|(e & E)]; rewrite E; repeat split.
  - destruct (params_inv C l t v w) as [(ps & E & _)|(e & E & _)]; rewrite E; repeat split.
  - unfold obj_bootstrap. destruct (method_ev C (bootstrap_m wt mt nb) w (boot_keeps wt mt nb) W) as (_ & _ & Eo & _). unfold same_arrays. rewrite Eo. repeat split.
  - unfold obj_sensitivity. destruct (method_ev C (sensitivity_analysis_m ppf mi a b c d e) w (sens_keeps ppf mi a b c d e) W) as (_ & _ & Eo & _). unfold same_arrays. rewrite Eo. repeat split.
Qed.
Lemma between_run ops : forall w, wf C w -> Forall keeps_results ops -> same_arrays w (run C ops w).
Proof.
  induction ops as [|o ops IH]; intros w W H; [repeat split|]. cbn [run]. inversion_clear H as [|? ? H1 H2]. destruct (between_op o w W H1) as (A1 & A2 & A3 & A4).
  destruct (op_step C o w W) as (W1 & _). destruct (IH _ W1 H2) as (B1 & B2 & B3 & B4). repeat split; congruence.
Qed.

(** What a fit leaves in the object. *)
Lemma fit_leaves w nj store ext sm w' : c_dcols C <> [] -> wf C w -> fit C nj store ext sm w = (w', Ok tt) ->
  (forall i r t, (r < m_n_rep (w_obj w))%nat -> (t < length (c_dcols C))%nat -> b_at (m_psi_b (w_obj w')) [i; r; t] = Some (no_b (out_of C (w_obj w) ext r t) i)) /\
  (store = PBool true -> exists p, m_preds (w_obj w') = Some p /\ (forall l, b_shape (p l) = [c_n C; m_n_rep (w_obj w); length (c_dcols C)]) /\
     forall l r t i, In l (c_learners C) -> (r < m_n_rep (w_obj w))%nat -> (t < length (c_dcols C))%nat -> b_at (p l) [i; r; t] = no_preds (out_of C (w_obj w) ext r t) l i) /\
  (store = PBool false -> m_preds (w_obj w') = m_preds (w_obj w)) /\
  m_n_rep (w_obj w') = m_n_rep (w_obj w) /\ nuisance_results C w ext (out_of C (w_obj w) ext) /\ wf C w' /\ (exists th, b_at (m_coef (w_obj w')) [0%nat] = Some th).
Proof.
  intros Hd W H. assert (Hnt := dcols_pos C Hd). destruct (fit_inv _ _ _ _ _ _ _ Hnt W H) as (_ & Ck & Sc & w2 & L & ->).
  pose proof (li_fr _ _ _ _ _ _ L) as Fr. assert (En := fr_n_rep _ _ _ Fr).
  split; [|split; [|split; [|split; [|split; [|split]]]]].
  - intros i r t Hr Ht. destruct (cell C (stored_flag store) ext w w2 L r t Hr Ht) as (s2 & v & _ & K). exact (cw_pb _ _ _ _ _ _ _ _ _ K i).
  - intros ->. destruct (fs_preds _ _ _ (li_sh _ _ _ _ _ _ L) eq_refl) as (p & Ep & Sp). exists p. split; [exact Ep|]. split; [intro l; rewrite Sp, En; reflexivity|].
    intros l r t i Hl Hr Ht. destruct (cell C _ ext w w2 L r t Hr Ht) as (s2 & v & _ & K). exact (cw_preds _ _ _ _ _ _ _ _ _ K eq_refl p l i Ep Hl).
  - intros ->. apply (fr_nostore _ _ _ Fr eq_refl).
  - exact En.
  - apply calls_results; assumption.
  - change (fit_result C w2) with (fst (fit_result C w2, @Ok unit tt)). rewrite <- H. apply (op_step C (OFit nj store ext sm) w W).
  - eexists. reflexivity.
Qed.
End Keep.

Section Rep.
Context {E P : Type}.
Variable L : learner E row P.
Variables (f : E -> row -> R) (g : E -> row -> list R).
Variable mc : machinery E P.
Lemma cate_rep (C : ctx P) w nj store ext smod w' col : c_dcols C = [col] -> c_cluster C <> Some [] -> soundly_reached C w -> sound_learning L f g mc w -> fit C nj store ext smod w = (w', Ok tt) -> m_n_rep (w_obj w) = 1%nat ->
  exists fs e no, let su := setup_of mc (c_n C) 0 0 (fun l => nth 0 (m_params (w_obj w) l col) None) e in
    m_smpls (w_obj w) = Some [fs] /\ ext_matches C ext col 0 e /\ setting L f g su fs /\ c_nuis C 0 0 fs (fun l => nth 0 (m_params (w_obj w) l col) None) e = Ok no /\
    (exists th, b_at (m_coef (w_obj w')) [0%nat] = Some th) /\
    forall ops, Forall keeps_results ops -> let v := run C ops w' in
      m_n_rep (w_obj v) = 1%nat /\ m_coef (w_obj v) = m_coef (w_obj w') /\ (forall i, orth_signal v i = Some (no_b no i)) /\
      (store = PBool true -> exists p, m_preds (w_obj v) = Some p /\ nth 1 (b_shape (p "ml_m")) 0%nat = 1%nat /\ forall l i, In l (c_learners C) -> stored_at p l i = no_preds no l i).
Proof.
  intros Hd Hc Hw HL H Hr. assert (Hd' : c_dcols C <> []) by (rewrite Hd; discriminate). pose proof (reachable_wf C w (reached_reachable C w Hw)) as W.
  destruct (fit_leaves C w nj store ext smod w' Hd' W H) as (Hb & Hp & _ & En & (sm & Es & Ls & Nr) & W' & Co). rewrite Hr in *. rewrite Hd in *. cbn [length] in *.
  destruct sm as [|fs [|fs' sm]]; try discriminate Ls. destruct (Nr 0%nat 0%nat col ltac:(lia) eq_refl) as (e & M & N). cbn [nth] in N. exists fs, e, (out_of C (w_obj w) ext 0 0). cbv zeta. split; [exact Es|]. split; [exact M|].
  split; [eapply (rep_setting L f g mc C w [fs] 0%nat 0%nat); [exact Hc|exact Hw|exact HL|exact Es|reflexivity]|]. split; [exact N|]. split; [exact Co|].
  intros ops Ho. set (v := run C ops w'). destruct (between_run C ops w' W' Ho) as (A1 & A2 & A3 & A4). fold v in A1, A2, A3, A4. split; [congruence|]. split; [exact A4|].
  split; [intro i; unfold orth_signal; rewrite A1; apply Hb; lia|]. intro Q. destruct (Hp Q) as (p & Ep & Sp & Hpp). exists p. split; [congruence|]. split; [rewrite Sp; reflexivity|]. intros l i Hl. apply Hpp; [exact Hl|lia|lia].
Qed.
End Rep.

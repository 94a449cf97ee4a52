(** Effect heterogeneity methods of objects of the model classes. *)
From Verif Require Import L_DataOps L_DataProps.
From Verif Require Export L_CateFit.
From Coq Require Import Lia Lra.
Local Open Scope R_scope.
Local Open Scope res_scope.
Local Open Scope string_scope.

Lemma irm_cate_end : forall (E P X : Type) ols (learn : nat -> vec -> vec -> X -> bool) (L : learner E row P) f g rd fr s ml_g ml_m nf nr wa nm rule thr draw C w0 w nj store ext smod w',
  least_squares_routine ols -> S_Data.reachable fr s -> proper_clusters s -> sound_randomness rd ->
  irm_init L rd fr s ml_g ml_m nf nr (PStr "ATE") wa (PBool nm) rule (PFloat thr) draw = Ok (C, w0) -> later C w0 w -> m_n_rep (w_obj w) = 1%nat ->
  exists dcol mc, binary_treatment fr s dcol /\ mc_order mc = rd_order rd /\ runs_on mc "ml_g" ml_g (ly_classifier ml_g) /\ runs_on mc "ml_m" ml_m true /\
  let n := M_Data.frows fr in let x := covariates fr s dcol in let y := outcome fr s in let d := col fr dcol in
  (sound_learning L f g mc w ->
  labels_everywhere L g mc w n "ml_g" y (fun j => d j = 0) -> labels_everywhere L g mc w n "ml_g" y (fun j => d j = 1) -> labels_everywhere L g mc w n "ml_m" d everyone ->
  fit C nj store ext smod w = (w', Ok tt) ->
  exists fs g0 g1 m0 m, m_smpls (w_obj w) = Some [fs] /\
      used_prediction L f g mc w n ext 0 0 dcol "ml_g0" "ml_g" x y (group_rows n (fun j => d j = 0)) fs g0 /\
      used_prediction L f g mc w n ext 0 0 dcol "ml_g1" "ml_g" x y (group_rows n (fun j => d j = 1)) fs g1 /\
      used_prediction L f g mc w n ext 0 0 dcol "ml_m" "ml_m" x d whole_train fs m0 /\ clipped n true thr m0 m /\
      let W := weights_of wa 0 in
      let ma := ps_adjust n m d nm in
      let s := fun i => wg W i * (g1 i - g0 i) + resid_weights W i * (d i * (y i - g1 i) / ma i - (1 - d i) * (y i - g0 i) / (1 - ma i)) in
      (off_bounds n ma -> forall ops, Forall keeps_results ops -> let v := run C ops w' in
         signal_methods n s (object_cate ols C true v) (object_gate ols C true v) /\ tree_method n s learn (object_tree C learn true v))).
Proof.
  intros until w'. intros Ho Re Pc Rd H La N1. destruct (irm_made L rd fr s Re Rd _ _ _ _ _ _ _ _ _ _ _ _ H) as (c & mc & nm0 & th & bo & st & Bt & Ec & Sr & O & R1 & R2 & Q1 & Q2 & _). injection Q1 as <-. injection Q2 as <-.
  pose proof (reached_later _ _ _ Sr La) as Sw. exists c, mc. split; [exact Bt|]. split; [exact O|]. split; [exact R1|]. split; [exact R2|]. intros n x y d Sl H0 H1 Hm Hf. ctx_facts Ec fr s.
  destruct (cate_rep L f g mc C w nj store ext smod w' c) as (fs & e & no & Es & M & S & N & _ & K); [rewrite A2; reflexivity|rewrite Ec; apply clusters_proper; [exact Re|exact Pc|reflexivity]|exact Sw|exact Sl|exact Hf|exact N1|].
  rewrite A5 in N. rewrite A1 in *. cbv beta in N.
  assert (F0 : fit_ok L g (setup_of mc n 0 0 (fun l => nth 0 (m_params (w_obj w) l c) None) e) "ml_g0" "ml_g" y (fun j => d j = 0) fs) by (intros _; eapply rep_labels; [exact H0|exact Es|reflexivity]).
  assert (F1 : fit_ok L g (setup_of mc n 0 0 (fun l => nth 0 (m_params (w_obj w) l c) None) e) "ml_g1" "ml_g" y (fun j => d j = 1) fs) by (intros _; eapply rep_labels; [exact H1|exact Es|reflexivity]).
  assert (Fm : fit_ok L g (setup_of mc n 0 0 (fun l => nth 0 (m_params (w_obj w) l c) None) e) "ml_m" "ml_m" d everyone fs) by (intros _; eapply rep_labels; [exact Hm|exact Es|reflexivity]).
  edestruct (irm_spec L f g) as (g0 & g1 & m0 & m & U0 & U1 & Um & Tm & _ & _ & _ & Sc); [exact S|exact F0|exact F1|exact Fm|exact N|].
  exists fs, g0, g1, m0, m. split; [exact Es|]. split; [eapply rep_used; [apply M; inl A3|exact U0]|]. split; [eapply rep_used; [apply M; inl A3|exact U1]|]. split; [eapply rep_used; [apply M; inl A3|exact Um]|]. split; [exact Tm|].
  intros W ma s0 _ ops Hk. destruct (K ops Hk) as (K1 & _ & K3 & _). intro v. destruct Sc as (_ & Sb).
  assert (Hs : forall i, (i < c_n C)%nat -> orth_signal v i = Some (s0 i)) by (intros i _; unfold v; rewrite K3, Sb; reflexivity).
  unfold n in *. rewrite <- A1. split; [apply signal_ok; assumption|apply tree_ok; assumption].
Qed.

Lemma apo_cate_end : forall (E P : Type) ols (L : learner E row P) f g rd fr s ml_g ml_m level nf nr score wa nm rule thr draw C w0 w nj store ext smod w',
  least_squares_routine ols -> S_Data.reachable fr s -> proper_clusters s -> sound_randomness rd ->
  apo_init L rd fr s ml_g ml_m level nf nr score wa (PBool nm) rule (PFloat thr) draw = Ok (C, w0) -> later C w0 w -> m_n_rep (w_obj w) = 1%nat ->
  exists dcol mc, M_Data.r_d (M_Data.dd_roles s) = [dcol] /\ mc_order mc = rd_order rd /\ runs_on mc "ml_g" ml_g (ly_classifier ml_g) /\ runs_on mc "ml_m" ml_m true /\
  let n := M_Data.frows fr in let x := covariates fr s dcol in let y := outcome fr s in let lvl := at_level level (col fr dcol) in
  (sound_learning L f g mc w ->
  labels_everywhere L g mc w n "ml_g" y (fun j => lvl j = 0) -> labels_everywhere L g mc w n "ml_g" y (fun j => lvl j = 1) -> labels_everywhere L g mc w n "ml_m" lvl everyone ->
  fit C nj store ext smod w = (w', Ok tt) ->
  exists fs g1 m0 m, m_smpls (w_obj w) = Some [fs] /\
      used_prediction L f g mc w n ext 0 0 dcol "ml_g_d_lvl1" "ml_g" x y (group_rows n (fun j => lvl j = 1)) fs g1 /\
      used_prediction L f g mc w n ext 0 0 dcol "ml_m" "ml_m" x lvl whole_train fs m0 /\ clipped n true thr m0 m /\
      let W := weights_of wa 0 in
      let ma := ps_adjust n m lvl nm in
      let s := fun i => wg W i * g1 i + resid_weights W i * (lvl i * (y i - g1 i) / ma i) in
      ((forall i, (i < n)%nat -> ma i <> 0) -> forall ops, Forall keeps_results ops -> let v := run C ops w' in signal_methods n s (object_cate ols C true v) (object_gate ols C true v))).
Proof.
  intros until w'. intros Ho Re Pc Rd H La N1. destruct (apo_made L rd fr s Re Rd _ _ _ _ _ _ _ _ _ _ _ _ _ H) as (c & mc & nm0 & th & bo & st & Bt & Ec & Sr & Ed & O & R1 & R2 & Q1 & Q2 & _). injection Q1 as <-. injection Q2 as <-.
  pose proof (reached_later _ _ _ Sr La) as Sw. exists c, mc. split; [exact Bt|]. split; [exact O|]. split; [exact R1|]. split; [exact R2|]. intros n x y lvl Sl H0 H1 Hm Hf. ctx_facts Ec fr s.
  assert (El : lvl = treated_at fr s level) by (unfold lvl, at_level, treated_at; rewrite Ed; reflexivity). rewrite <- El in A5.
  destruct (cate_rep L f g mc C w nj store ext smod w' c) as (fs & e & no & Es & M & S & N & _ & K); [rewrite A2; reflexivity|rewrite Ec; apply clusters_proper; [exact Re|exact Pc|reflexivity]|exact Sw|exact Sl|exact Hf|exact N1|].
  rewrite A5 in N. rewrite A1 in *. cbv beta in N.
  assert (F0 : fit_ok L g (setup_of mc n 0 0 (fun l => nth 0 (m_params (w_obj w) l c) None) e) "ml_g_d_lvl0" "ml_g" y (fun j => lvl j = 0) fs) by (intros _; eapply rep_labels; [exact H0|exact Es|reflexivity]).
  assert (F1 : fit_ok L g (setup_of mc n 0 0 (fun l => nth 0 (m_params (w_obj w) l c) None) e) "ml_g_d_lvl1" "ml_g" y (fun j => lvl j = 1) fs) by (intros _; eapply rep_labels; [exact H1|exact Es|reflexivity]).
  assert (Fm : fit_ok L g (setup_of mc n 0 0 (fun l => nth 0 (m_params (w_obj w) l c) None) e) "ml_m" "ml_m" lvl everyone fs) by (intros _; eapply rep_labels; [exact Hm|exact Es|reflexivity]).
  edestruct (apo_spec L f g) as (g0 & g1 & m0 & m & U0 & U1 & Um & Tm & _ & _ & _ & Sc); [exact S|exact F0|exact F1|exact Fm|exact N|].
  exists fs, g1, m0, m. split; [exact Es|]. split; [eapply rep_used; [apply M; inl A3|exact U1]|]. split; [eapply rep_used; [apply M; inl A3|exact Um]|]. split; [exact Tm|].
  intros W ma s0 _ ops Hk. destruct (K ops Hk) as (K1 & _ & K3 & _). intro v. destruct Sc as (_ & Sb).
  assert (Hs : forall i, (i < c_n C)%nat -> orth_signal v i = Some (s0 i)) by (intros i _; unfold v; rewrite K3, Sb; reflexivity).
  unfold n in *. rewrite <- A1. apply signal_ok; assumption.
Qed.

Lemma plr_cate_end : forall (E P : Type) ols (L : learner E row P) f g rd fr s ml_l ml_m ml_g nf nr draw C w0 w nj ext smod w' c,
  least_squares_routine ols -> S_Data.reachable fr s -> proper_clusters s -> sound_randomness rd -> M_Data.r_d (M_Data.dd_roles s) = [c] ->
  plr_init L rd fr s ml_l ml_m ml_g nf nr (PStr "partialling out") draw = Ok (C, w0) -> later C w0 w -> m_n_rep (w_obj w) = 1%nat ->
  exists mc, mc_order mc = rd_order rd /\ runs_on mc "ml_l" ml_l false /\ runs_on mc "ml_m" ml_m (ly_classifier ml_m) /\
  let n := M_Data.frows fr in let x := covariates fr s c in let y := outcome fr s in let d := col fr c in
  (sound_learning L f g mc w -> labels_everywhere L g mc w n "ml_m" d everyone -> fit C nj (PBool true) ext smod w = (w', Ok tt) ->
  exists fs l m, m_smpls (w_obj w) = Some [fs] /\
    used_prediction L f g mc w n ext 0 0 c "ml_l" "ml_l" x y whole_train fs l /\
    used_prediction L f g mc w n ext 0 0 c "ml_m" "ml_m" x d whole_train fs m /\
    forall ops, Forall keeps_results ops -> let v := run C ops w' in
      residual_methods n (fun i => d i - m i) (fun i => y i - l i) (object_plr_cate ols C false y d v) (object_plr_gate ols C false y d v)).
Proof.
  intros until c. intros Ho Re Pc Rd Dc H La N1. destruct (plr_made L rd fr s Re Rd _ _ _ _ _ _ _ _ _ H) as (mc & bin & Ec & Sr & O & R1 & R2 & _).
  pose proof (reached_later _ _ _ Sr La) as Sw. exists mc. split; [exact O|]. split; [exact R1|]. split; [exact R2|]. intros n x y d Sl Hm Hf. change (String.eqb "partialling out" "IV-type") with false in Ec. ctx_facts Ec fr s.
  assert (Hd : c_dcols C = [c]) by (rewrite A2; exact Dc). destruct (x_of_at fr s Re 0%nat c ltac:(rewrite Dc; reflexivity)) as (Ex & Edc).
  destruct (cate_rep L f g mc C w nj (PBool true) ext smod w' c) as (fs & e & no & Es & M & S & N & _ & K); [exact Hd|rewrite Ec; apply clusters_proper; [exact Re|exact Pc|reflexivity]|exact Sw|exact Sl|exact Hf|exact N1|].
  rewrite A5 in N. rewrite A1 in *. cbv beta in N. rewrite Ex, Edc in N.
  assert (Fl : fit_ok L g (setup_of mc n 0 0 (fun l => nth 0 (m_params (w_obj w) l c) None) e) "ml_l" "ml_l" y everyone fs) by (intros _ Hp; cbn [setup_of su_proba] in Hp; destruct R1 as (_ & R1); congruence).
  assert (Fm : fit_ok L g (setup_of mc n 0 0 (fun l => nth 0 (m_params (w_obj w) l c) None) e) "ml_m" "ml_m" d everyone fs) by (intros _; eapply rep_labels; [exact Hm|exact Es|reflexivity]).
  edestruct (plr_partialling_out L f g) as (l & m & U1 & U2 & P1 & P2 & _); [exact S|exact Fl|exact Fm|exact N|].
  exists fs, l, m. split; [exact Es|]. split; [eapply rep_used; [apply M; inl A3|exact U1]|]. split; [eapply rep_used; [apply M; inl A3|exact U2]|].
  intros ops Hk v. destruct (K ops Hk) as (K1 & _ & _ & K4). destruct (K4 eq_refl) as (p & Ep & Sp & Hp). unfold reported in P1, P2. cbn [setup_of su_n] in P1, P2.
  unfold n in *. rewrite <- A1 in *. apply residual_ok with (p := p); [exact Ho|exact K1|rewrite Hd; reflexivity|exact Ep|exact Sp| |].
  - intros i Hi. unfold partial_out_y. rewrite Hp by (inl A3). rewrite P1 by exact Hi. reflexivity.
  - intros i Hi. unfold partial_out_d. rewrite Hp by (inl A3). rewrite P2 by exact Hi. reflexivity.
Qed.

Lemma plr_iv_cate_end : forall (E P : Type) ols (L : learner E row P) f g rd fr s ml_l ml_m ml_g nf nr draw C w0 w nj ext smod w' c,
  least_squares_routine ols -> S_Data.reachable fr s -> proper_clusters s -> sound_randomness rd -> M_Data.r_d (M_Data.dd_roles s) = [c] ->
  plr_init L rd fr s ml_l ml_m ml_g nf nr (PStr "IV-type") draw = Ok (C, w0) -> later C w0 w -> m_n_rep (w_obj w) = 1%nat ->
  exists mc, mc_order mc = rd_order rd /\ runs_on mc "ml_l" ml_l false /\ runs_on mc "ml_m" ml_m (ly_classifier ml_m) /\ mc_learner mc "ml_g" = match ml_g with Some l => ly_obj l | None => ln_clone L (ly_obj ml_l) end /\
  let n := M_Data.frows fr in let x := covariates fr s c in let y := outcome fr s in let d := col fr c in
  (sound_learning L f g mc w -> labels_everywhere L g mc w n "ml_m" d everyone -> fit C nj (PBool true) ext smod w = (w', Ok tt) ->
  exists fs m gg theta, m_smpls (w_obj w) = Some [fs] /\ b_at (m_coef (w_obj w')) [0%nat] = Some theta /\
    used_prediction L f g mc w n ext 0 0 c "ml_m" "ml_m" x d whole_train fs m /\
    ((exists e, supplied ext c "ml_g" 0 e /\ forall i, (i < n)%nat -> gg i = e i) \/
     (exists l th, used_prediction L f g mc w n ext 0 0 c "ml_l" "ml_l" x y whole_train fs l /\
        (sumf n (fun i => (d i - m i) ^ 2) <> 0 -> th = sumf n (fun i => (d i - m i) * (y i - l i)) / sumf n (fun i => (d i - m i) ^ 2)) /\
        used_prediction L f g mc w n ext 0 0 c "ml_g" "ml_g" x (fun i => y i - th * d i) whole_train fs gg)) /\
    forall ops, Forall keeps_results ops -> let v := run C ops w' in
      residual_methods n (fun i => d i - m i) (fun i => y i - theta * m i - gg i) (object_plr_cate ols C true y d v) (object_plr_gate ols C true y d v)).
Proof.
  intros until c. intros Ho Re Pc Rd Dc H La N1. destruct (plr_made L rd fr s Re Rd _ _ _ _ _ _ _ _ _ H) as (mc & bin & Ec & Sr & O & R1 & R2 & R3). destruct (R3 eq_refl) as (Rp & Rl).
  pose proof (reached_later _ _ _ Sr La) as Sw. exists mc. split; [exact O|]. split; [exact R1|]. split; [exact R2|]. split; [exact Rl|]. intros n x y d Sl Hm Hf. change (String.eqb "IV-type" "IV-type") with true in Ec. ctx_facts Ec fr s.
  assert (Hd : c_dcols C = [c]) by (rewrite A2; exact Dc). destruct (x_of_at fr s Re 0%nat c ltac:(rewrite Dc; reflexivity)) as (Ex & Edc).
  destruct (cate_rep L f g mc C w nj (PBool true) ext smod w' c) as (fs & e & no & Es & M & S & N & (theta & Et) & K); [exact Hd|rewrite Ec; apply clusters_proper; [exact Re|exact Pc|reflexivity]|exact Sw|exact Sl|exact Hf|exact N1|].
  rewrite A5 in N. rewrite A1 in *. cbv beta in N. rewrite Ex, Edc in N. set (su := setup_of mc (M_Data.frows fr) 0 0 (fun l => nth 0 (m_params (w_obj w) l c) None) e) in *.
  assert (Fl : fit_ok L g su "ml_l" "ml_l" y everyone fs) by (intros _ Hp; cbn [su setup_of su_proba] in Hp; destruct R1 as (_ & R1); congruence).
  assert (Fm : fit_ok L g su "ml_m" "ml_m" d everyone fs) by (intros _; eapply rep_labels; [exact Hm|exact Es|reflexivity]).
  edestruct (plr_iv_type L f g su) as (m & gg & U1 & P1 & P2 & Z & _); [exact S|exact Fl|exact Fm| |exact N|].
  { intros v _ Hp. cbn [su setup_of su_proba] in Hp. congruence. }
  exists fs, m, gg, theta. split; [exact Es|]. split; [exact Et|]. split; [eapply rep_used; [apply M; inl A3|exact U1]|]. split.
  { assert (Mg : match e "ml_g" with Some v => supplied ext c "ml_g" 0 v | None => forall v, ~ supplied ext c "ml_g" 0 v end) by (apply M; inl A3). cbn [su setup_of su_ext] in Z. destruct (e "ml_g") as [u|] eqn:Ee.
    - left. exists u. split; [exact Mg|]. intros i _. apply Z.
    - right. destruct Z as (l & th & U2 & _ & Sl2 & U3). exists l, th. split; [eapply rep_used; [apply M; inl A3|exact U2]|].
      split. { intro Hs. unfold slope_of in Sl2. cbn [su setup_of su_n] in Sl2. assert (Q2 : sumf (M_Data.frows fr) (fun i => (d i - m i) * (d i - m i)) = sumf n (fun i => (d i - m i) ^ 2)) by (apply sumf_ext; intros; ring).
        rewrite Q2 in Sl2. specialize (Sl2 Hs). apply (Rmult_eq_reg_r (sumf n (fun i => (d i - m i) ^ 2))); [|exact Hs]. etransitivity; [exact Sl2|]. unfold Rdiv. rewrite Rmult_assoc, Rinv_l, Rmult_1_r by exact Hs. reflexivity. }
      eapply rep_used with (e := e); [rewrite Ee; exact Mg|]. unfold nuisance. cbn [setup_of su_ext]. rewrite Ee. exact U3. }
  intros ops Hk v. destruct (K ops Hk) as (K1 & K2 & _ & K4). destruct (K4 eq_refl) as (p & Ep & Sp & Hp). unfold reported in P1, P2. cbn [su setup_of su_n] in P1, P2.
  unfold n in *. rewrite <- A1 in *. apply residual_ok with (p := p); [exact Ho|exact K1|rewrite Hd; reflexivity|exact Ep|exact Sp| |].
  - intros i Hi. unfold partial_out_y, v. rewrite K2, Et. rewrite !Hp by (inl A3). rewrite P1, P2 by exact Hi. reflexivity.
  - intros i Hi. unfold partial_out_d. rewrite Hp by (inl A3). rewrite P1 by exact Hi. reflexivity.
Qed.

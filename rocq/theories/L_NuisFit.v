(** Complete fits of the partially linear and the interactive model. *)
From Verif Require Export S_NuisFit L_NuisTargets L_ModelValid L_Scores.
From Coq Require Import Lia Lra FunctionalExtensionality.
Local Open Scope R_scope.
Local Open Scope res_scope.
Local Open Scope string_scope.

Lemma sq_mean_nonneg n (v : vec) : 0 <= meanf n (fun i => v i ^ 2).
Proof. unfold meanf. apply div_nonneg; [apply sumf_nonneg; intros; apply pow2_ge_0|apply pos_INR]. Qed.
Lemma var_ok_cond {P} (C : ctx P) m ext : sens_var_ok C -> sens_cond C m ext.
Proof. intros H est E r t no cl s2 v _ _ _. unfold sens_var_ok in H. rewrite E in H. apply H. Qed.
Section Fit.
Context {E P : Type}.
Variable L : learner E row P.
Variables (f : E -> row -> R) (g : E -> row -> list R).
Variable mc : machinery E P.

Lemma rep_setting (C : ctx P) w sm r t fs prm ext : c_cluster C <> Some [] -> soundly_reached C w -> sound_learning L f g mc w -> m_smpls (w_obj w) = Some sm -> nth_error sm r = Some fs ->
  setting L f g (setup_of mc (c_n C) r t prm ext) fs.
Proof.
  intros Hc (nf & nr & dr & gen & perm & w0 & ops & A & B & D & F & ->) [S1 S2 S3] Es Er.
  destruct (splits_valid C Hc nf nr dr gen perm w0 ops A B D F sm Es) as (_ & V). destruct (V fs (nth_error_In _ _ Er)) as ((V1 & V2) & _).
  constructor; [exact S1|exact S2|exact V1| |].
  - intros h i Hh Hi. cbn [setup_of su_n]. destruct V2 as [(tr & te & -> & Pm)|V2].
    + destruct Hh as [<-|[]]. apply (Permutation_in _ Pm) in Hi. apply in_seq in Hi. lia.
    + apply (V2 h Hh), Hi.
  - intro l. cbn [setup_of su_order]. eapply S3; eassumption.
Qed.
Lemma rep_labels w sm r t fs n prm ext lrn y G : labels_everywhere L g mc w n lrn y G -> m_smpls (w_obj w) = Some sm -> nth_error sm r = Some fs ->
  labels_ok L g (setup_of mc n r t prm ext) lrn y G fs.
Proof. intros H Es Er Hp. destruct (H Hp) as (C1 & C2). split; [exact C1|]. intros h i Hh Hi. apply (C2 sm fs h i Es (nth_error_In _ _ Er) Hh Hi). Qed.
Lemma rep_used w n ext r t col name lrn x y sel fs v e :
  (match e name with Some v => supplied ext col name r v | None => forall v, ~ supplied ext col name r v end) ->
  nuisance L f g (setup_of mc n r t (fun l => nth r (m_params (w_obj w) l col) None) e) name lrn x y sel fs v ->
  used_prediction L f g mc w n ext r t col name lrn x y sel fs v.
Proof.
  intros M N. unfold nuisance in N. cbn [setup_of su_ext] in N. destruct (e name) as [u|].
  - split; [|intro X; exfalso; exact (X _ M)]. intros e' Se i. rewrite N. destruct M as (el & il & a & -> & M1 & M2 & M3), Se as (el' & il' & a' & Q & Q1 & Q2 & Q3).
    rewrite M3, Q3. injection Q as <-. rewrite M1 in Q1. injection Q1 as <-. rewrite M2 in Q2. injection Q2 as <-. reflexivity.
  - split; [intros e' Se; exfalso; exact (M _ Se)|]. intros _. exact N.
Qed.
(** Estimate and standard error without clusters. *)
Lemma rep_results (C : ctx P) w out F r t : (0 < c_n C)%nat -> c_cluster C = None -> reports C w out F -> (r < fw_n_rep F)%nat -> (t < fw_n_thetas F)%nat -> sumf (c_n C) (no_a (out r t)) <> 0 ->
  let th := - sumf (c_n C) (no_b (out r t)) / sumf (c_n C) (no_a (out r t)) in
  at_ (fw_all_thetas F) [t; r] = th /\
  at_ (fw_all_ses F) [t; r] = sqrt (sumf (c_n C) (fun i => (no_a (out r t) i * th + no_b (out r t) i) ^ 2)) / Rabs (sumf (c_n C) (no_a (out r t))).
Proof.
  intros Hn Ec Rp Hr Ht Ha th. assert (Hi : INR (c_n C) <> 0) by (apply not_0_INR; lia). assert (Es : split_cluster C w r = None) by (unfold split_cluster; now rewrite Ec).
  assert (Et : theta_of C None (out r t) = th) by (unfold theta_of, th, aggregate_obs, meanf; field; split; assumption).
  split; [rewrite (rp_theta _ _ _ _ Rp r t Hr Ht), Es; exact Et|].
  destruct (rp_se _ _ _ _ Rp r t Hr Ht) as (s2 & V & ->). rewrite Es in V. apply var_est_framework in V; [|unfold meanf; intro Z; apply Ha; apply (Rmult_eq_compat_r (INR (c_n C))) in Z; unfold Rdiv in Z; rewrite Rmult_assoc, Rinv_l, Rmult_0_l, Rmult_1_r in Z by exact Hi; exact Z|exact Hn].
  destruct V as (-> & _). rewrite (meanf_ext _ _ (fun i => (INR (c_n C)) ^ 2 / (sumf (c_n C) (no_a (out r t))) ^ 2 * (no_a (out r t) i * th + no_b (out r t) i) ^ 2)).
  2: { intros i _. unfold psi_of. rewrite Et. unfold meanf. field. split; assumption. }
  rewrite meanf_scal. unfold meanf. set (Q := sumf _ (fun i => (no_a _ i * th + _) ^ 2)). set (A := sumf _ (no_a _)) in *.
  replace (INR (c_n C) ^ 2 / A ^ 2 * (Q / INR (c_n C)) / INR (c_n C)) with (Q / A ^ 2) by (field; split; assumption).
  assert (HQ : 0 <= Q) by (apply sumf_nonneg; intros; apply pow2_ge_0). assert (HA : 0 < A ^ 2) by (rewrite <- Rsqr_pow2; apply Rsqr_pos_lt; exact Ha).
  rewrite sqrt_div by assumption. f_equal. rewrite <- Rsqr_pow2. apply sqrt_Rsqr_abs.
Qed.

Lemma reached_reachable (C : ctx P) w : soundly_reached C w -> reachable C w.
Proof. intros (nf & nr & dr & gen & perm & w0 & ops & A & B & D & F & ->). exists nf, nr, dr, gen, perm, w0, ops. split; [exact D|reflexivity]. Qed.

Lemma plr_var_ok n dcols iv bin x y d : sens_var_ok (plr_ctx L mc n dcols iv bin x y d).
Proof. intros r t no th. cbn [so_of so_sigma2 plr_sens sl_sigma2]. destruct iv; apply sq_mean_nonneg. Qed.
Lemma irm_var_ok n dcol atte norm bo tr thr w x y d strata : sens_var_ok (irm_ctx L mc n dcol atte norm bo tr thr w x y d strata).
Proof. intros r t no th. cbn [so_of so_sigma2 irm_sens centred sl_sigma2]. apply sq_mean_nonneg. Qed.

Lemma plr_fit n dcols bin x y d w nj store ext smod w' : let C := plr_ctx L mc n dcols false bin x y d in
  (0 < n)%nat -> dcols <> [] -> soundly_reached C w -> sound_learning L f g mc w ->
  labels_everywhere L g mc w n "ml_l" y everyone -> (forall t, labels_everywhere L g mc w n "ml_m" (d t) everyone) ->
  fit C nj store ext smod w = (w', Ok tt) ->
  exists F sm, current_fw w' F /\ fw_wf F /\ fw_aggregated F /\ m_smpls (w_obj w) = Some sm /\ fw_n_rep F = length sm /\ fw_n_thetas F = length dcols /\
    forall r t fs col, nth_error sm r = Some fs -> nth_error dcols t = Some col -> exists l m,
      used_prediction L f g mc w n ext r t col "ml_l" "ml_l" (x t) y whole_train fs l /\
      used_prediction L f g mc w n ext r t col "ml_m" "ml_m" (x t) (d t) whole_train fs m /\
      (sumf n (fun i => (d t i - m i) ^ 2) <> 0 ->
       let theta := sumf n (fun i => (d t i - m i) * (y i - l i)) / sumf n (fun i => (d t i - m i) ^ 2) in
       at_ (fw_all_thetas F) [t; r] = theta /\
       at_ (fw_all_ses F) [t; r] = sqrt (sumf n (fun i => ((d t i - m i) * (y i - l i - theta * (d t i - m i))) ^ 2)) / sumf n (fun i => (d t i - m i) ^ 2)).
Proof.
  intros C Hn Hd Hw HL Hl Hm H. destruct (fit_reports C w nj store ext smod w' Hd (reached_reachable C w Hw) H) as (out & F & (sm & Es & Ls & Nr) & Cf & Rp & _).
  exists F, sm. split; [exact Cf|]. split; [apply (rp_wf _ _ _ _ Rp)|]. split; [apply (rp_agg _ _ _ _ Rp)|]. split; [exact Es|].
  assert (Er : fw_n_rep F = length sm) by (rewrite (rp_n_rep _ _ _ _ Rp); symmetry; exact Ls). split; [exact Er|]. split; [apply (rp_n_thetas _ _ _ _ Rp)|].
  intros r t fs col Hr Ht. assert (Hr' : (r < length sm)%nat) by (apply nth_error_Some; congruence). assert (Ht' : (t < length dcols)%nat) by (apply nth_error_Some; congruence).
  destruct (Nr r t col) as (e & M & N); [lia|exact Ht|]. rewrite (nth_error_nth _ _ _ Hr) in N. cbn [C plr_ctx c_nuis] in N.
  pose proof (rep_setting C w sm r t fs (fun l => nth r (m_params (w_obj w) l col) None) e (fun Z => ltac:(discriminate Z)) Hw HL Es Hr) as S.
  edestruct (plr_partialling_out L f g) as (l & m & N1 & N2 & _ & _ & Sc); [exact S| | |exact N|].
  { intros _. eapply rep_labels; [exact Hl|exact Es|exact Hr]. }
  { intros _. eapply rep_labels; [exact (Hm t)|exact Es|exact Hr]. }
  exists l, m. split; [eapply rep_used; [|exact N1]; apply M; cbn; auto|]. split; [eapply rep_used; [|exact N2]; apply M; cbn; auto|].
  intros HS theta. cbn [setup_of su_n] in Sc.
  assert (Ea : sumf n (no_a (out r t)) = - sumf n (fun i => (d t i - m i) ^ 2)) by (rewrite <- sumf_opp; apply sumf_ext; intros i Hi; apply (Sc i Hi)).
  assert (Eb : sumf n (no_b (out r t)) = sumf n (fun i => (d t i - m i) * (y i - l i))) by (apply sumf_ext; intros i Hi; apply (Sc i Hi)).
  destruct (rep_results C w out F r t Hn eq_refl Rp) as (R1 & R2); [lia|rewrite (rp_n_thetas _ _ _ _ Rp); exact Ht'|cbn [C plr_ctx c_n]; rewrite Ea; lra|].
  cbn [C plr_ctx c_n] in R1, R2. rewrite Ea, Eb in R1, R2.
  assert (Et : - sumf n (fun i => (d t i - m i) * (y i - l i)) / - sumf n (fun i => (d t i - m i) ^ 2) = theta) by (unfold theta; field; exact HS).
  rewrite Et in R1, R2. split; [exact R1|]. rewrite R2. rewrite Rabs_Ropp, Rabs_pos_eq by (apply sumf_nonneg; intros; apply pow2_ge_0).
  do 2 f_equal. apply sumf_ext. intros i Hi. destruct (Sc i Hi) as (-> & ->). f_equal. ring.
Qed.

Lemma irm_fit n dcol norm bo tr thr w_ x y d strata w nj store ext smod w' : let C := irm_ctx L mc n dcol false norm bo tr thr w_ x y d strata in
  (0 < n)%nat -> (forall r, w_ r = unit_weights) -> soundly_reached C w -> sound_learning L f g mc w ->
  labels_everywhere L g mc w n "ml_g" y (fun j => d j = 0) -> labels_everywhere L g mc w n "ml_g" y (fun j => d j = 1) -> labels_everywhere L g mc w n "ml_m" d everyone ->
  fit C nj store ext smod w = (w', Ok tt) ->
  exists F sm, current_fw w' F /\ fw_wf F /\ fw_aggregated F /\ m_smpls (w_obj w) = Some sm /\ fw_n_rep F = length sm /\ fw_n_thetas F = 1%nat /\
    forall r fs, nth_error sm r = Some fs -> exists g0 g1 m0 m,
      used_prediction L f g mc w n ext r 0 dcol "ml_g0" "ml_g" x y (group_rows n (fun j => d j = 0)) fs g0 /\
      used_prediction L f g mc w n ext r 0 dcol "ml_g1" "ml_g" x y (group_rows n (fun j => d j = 1)) fs g1 /\
      used_prediction L f g mc w n ext r 0 dcol "ml_m" "ml_m" x d whole_train fs m0 /\
      (forall i, (i < n)%nat -> m i = if tr then Rmin (Rmax (m0 i) thr) (1 - thr) else m0 i) /\
      let s := dr_signal y d g0 g1 (ps_adjust n m d norm) in
      at_ (fw_all_thetas F) [0%nat; r] = meanf n s /\
      at_ (fw_all_ses F) [0%nat; r] = sqrt (sumf n (fun i => (s i - meanf n s) ^ 2)) / INR n.
Proof.
  intros C Hn Hu Hw HL H0 H1 Hm H. destruct (fit_reports C w nj store ext smod w' ltac:(discriminate) (reached_reachable C w Hw) H) as (out & F & (sm & Es & Ls & Nr) & Cf & Rp & _).
  exists F, sm. split; [exact Cf|]. split; [apply (rp_wf _ _ _ _ Rp)|]. split; [apply (rp_agg _ _ _ _ Rp)|]. split; [exact Es|].
  assert (Er : fw_n_rep F = length sm) by (rewrite (rp_n_rep _ _ _ _ Rp); symmetry; exact Ls). split; [exact Er|]. split; [apply (rp_n_thetas _ _ _ _ Rp)|].
  intros r fs Hr. assert (Hr' : (r < length sm)%nat) by (apply nth_error_Some; congruence).
  destruct (Nr r 0%nat dcol) as (e & M & N); [lia|reflexivity|]. rewrite (nth_error_nth _ _ _ Hr) in N. cbn [C irm_ctx c_nuis] in N.
  pose proof (rep_setting C w sm r 0 fs (fun l => nth r (m_params (w_obj w) l dcol) None) e (fun Z => ltac:(discriminate Z)) Hw HL Es Hr) as S.
  edestruct (irm_spec L f g) as (g0 & g1 & m0 & m & N1 & N2 & N3 & Tm & _ & _ & _ & Sc); [exact S| | | |exact N|].
  { intros _. eapply rep_labels; [exact H0|exact Es|exact Hr]. }
  { intros _. eapply rep_labels; [exact H1|exact Es|exact Hr]. }
  { intros _. eapply rep_labels; [exact Hm|exact Es|exact Hr]. }
  exists g0, g1, m0, m. split; [eapply rep_used; [|exact N1]; apply M; cbn; auto|]. split; [eapply rep_used; [|exact N2]; apply M; cbn; auto|]. split; [eapply rep_used; [|exact N3]; apply M; cbn; auto|].
  split; [exact Tm|]. intro s. cbn [setup_of su_n] in Sc. rewrite Hu in Sc. destruct Sc as (Sa & Sb).
  assert (Ea : no_a (out r 0%nat) = fun _ => -1) by (rewrite Sa; apply functional_extensionality; intro i; unfold irm_score, irm_weights, unit_weights; cbn; rewrite mean_one by exact Hn; lra).
  assert (Eb : no_b (out r 0%nat) = s) by (rewrite Sb; apply functional_extensionality; intro i; unfold s, irm_score, irm_weights, unit_weights, dr_signal, dr_level, compl; cbn; unfold Rdiv; ring).
  assert (Hi : INR n <> 0) by (apply not_0_INR; lia). assert (S1 : sumf n (fun _ => -1) = - INR n) by (rewrite sumf_const; lra).
  destruct (rep_results C w out F r 0 Hn eq_refl Rp) as (R1 & R2); [lia|rewrite (rp_n_thetas _ _ _ _ Rp); cbn; lia|cbn [C irm_ctx c_n]; rewrite Ea, S1; lra|].
  cbn [C irm_ctx c_n] in R1, R2. rewrite Ea, Eb, S1 in R1, R2. assert (Et : - sumf n s / - INR n = meanf n s) by (unfold meanf; field; exact Hi).
  rewrite Et in R1, R2. split; [exact R1|]. rewrite R2. rewrite Rabs_Ropp, Rabs_pos_eq by apply pos_INR. do 2 f_equal. apply sumf_ext. intros i _. f_equal. ring.
Qed.
End Fit.

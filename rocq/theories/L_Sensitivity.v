(** Sensitivity analysis. *)
From Verif Require Export L_FwRefute.
Local Open Scope R_scope.

Lemma check01_inv v (i0 i1 : bool) x : check_in_zero_one v i0 i1 = Ok x ->
  v = PFloat x /\ (if i0 then 0 <= x else 0 < x) /\ (if i1 then x <= 1 else x < 1).
Proof.
  unfold check_in_zero_one. destruct v; try discriminate. intro H. apply require_ok in H. destruct H as [H E]. injection E as ->.
  split; [reflexivity|]. apply negb_true_iff, orb_false_iff in H. destruct H as [A B].
  destruct i0, i1; rewrite ?rltb_false, ?rleb_false in *; split; lra.
Qed.
Lemma check01_ok (i0 i1 : bool) (x : R) : (if i0 then 0 <= x else 0 < x) -> (if i1 then x <= 1 else x < 1) -> check_in_zero_one (PFloat x) i0 i1 = Ok x.
Proof.
  intros A B. unfold check_in_zero_one. replace (negb _) with true; [reflexivity|]. symmetry. apply negb_true_iff, orb_false_iff.
  destruct i0, i1; rewrite ?rltb_false, ?rleb_false; split; lra.
Qed.

(** What a successful call computed. *)
Record sens_values (ppf : R -> R) (f : framework) (s : sens_elems) (cs lv : R) (res : sens_res) : Prop := {
  sv_lower : forall t, at_ (sr_theta_lower res) [t] = medianf (fw_n_rep f) (fun r => at_ (fw_all_thetas f) [t; r] - cs * at_ (se_max_bias s) [0%nat; t; r]);
  sv_upper : forall t, at_ (sr_theta_upper res) [t] = medianf (fw_n_rep f) (fun r => at_ (fw_all_thetas f) [t; r] + cs * at_ (se_max_bias s) [0%nat; t; r]);
  sv_ci_lower : forall t, at_ (sr_ci_lower res) [t] = medianf (fw_n_rep f) (fun r => at_ (fw_all_thetas f) [t; r] - cs * at_ (se_max_bias s) [0%nat; t; r]
      - ppf lv * sens_all_sigma f (se_psi_max_bias s) cs (-1) t r);
  sv_ci_upper : forall t, at_ (sr_ci_upper res) [t] = medianf (fw_n_rep f) (fun r => at_ (fw_all_thetas f) [t; r] + cs * at_ (se_max_bias s) [0%nat; t; r]
      + ppf lv * sens_all_sigma f (se_psi_max_bias s) cs 1 t r);
  sv_se_lower : forall t, at_ (sr_se_lower res) [t] = sqrt (medianf (fw_n_rep f) (fun r => (sens_all_sigma f (se_psi_max_bias s) cs (-1) t r) ^ 2 +
       (at_ (fw_all_thetas f) [t; r] - cs * at_ (se_max_bias s) [0%nat; t; r] - at_ (sr_theta_lower res) [t]) ^ 2 / at_ (fw_vs f) [t]));
  sv_se_upper : forall t, at_ (sr_se_upper res) [t] = sqrt (medianf (fw_n_rep f) (fun r => (sens_all_sigma f (se_psi_max_bias s) cs 1 t r) ^ 2 +
       (at_ (fw_all_thetas f) [t; r] + cs * at_ (se_max_bias s) [0%nat; t; r] - at_ (sr_theta_upper res) [t]) ^ 2 / at_ (fw_vs f) [t])) }.

Lemma calc_inv ppf f cf_y cf_d rho level res : fw_wf f -> calc_sensitivity ppf f cf_y cf_d rho level = Ok res ->
  exists s cy cd rh lv, fw_sens f = Some s /\ cf_y = PFloat cy /\ cf_d = PFloat cd /\ rho = PFloat rh /\ level = PFloat lv /\
    conf_ok cy cd rh /\ 0 < lv < 1 /\ sens_values ppf f s (conf_strength cy cd rh) lv res.
Proof.
  intros Hf H. unfold calc_sensitivity in H. destruct (fw_sens f) as [s|] eqn:Es; [|discriminate].
  apply bind_ok in H. destruct H as (cy & H1 & H). apply bind_ok in H. destruct H as (cd & H2 & H).
  destruct rho as [rh| | | | | |]; try discriminate.
  apply bind_ok in H. destruct H as (ar & H3 & H). apply bind_ok in H. destruct H as (lv & H4 & H).
  apply require_ok in H. destruct H as [_ H]. apply check01_inv in H1, H2, H3, H4.
  destruct H1 as (-> & A1 & A2). destruct H2 as (-> & B1 & B2). destruct H3 as (E3 & C1 & C2). destruct H4 as (-> & D1 & D2).
  injection E3 as E3. exists s, cy, cd, rh, lv. repeat (split; [reflexivity|]).
  split. { unfold conf_ok. repeat split; try assumption; unfold Rabs in E3; destruct (Rcase_abs rh); lra. }
  split; [lra|].
  set (cs := conf_strength cy cd rh) in *.
  match type of H with (let '(_, _) := aggregate_coefs_and_ses ?a ?b ?c in _) = _ =>
    pose proof (agg_spec a b c (fw_n_thetas f) (fw_n_rep f) eq_refl (wf_vs f Hf)) as P;
    destruct (aggregate_coefs_and_ses a b c) as [tl sl] eqn:E1 end.
  match type of H with (let '(_, _) := aggregate_coefs_and_ses ?a ?b ?c in _) = _ =>
    pose proof (agg_spec a b c (fw_n_thetas f) (fw_n_rep f) eq_refl (wf_vs f Hf)) as Q;
    destruct (aggregate_coefs_and_ses a b c) as [tu su] eqn:E2 end.
  injection H as <-. cbv zeta in P, Q. cbn [fst snd] in P, Q. destruct P as (_ & _ & P1 & P2). destruct Q as (_ & _ & Q1 & Q2).
  unfold sens_theta in *.
  constructor; intro t; cbn [sr_theta_lower sr_theta_upper sr_ci_lower sr_ci_upper sr_se_lower sr_se_upper].
  - rewrite P1. apply medianf_ext. intros r _. cbn. lra.
  - rewrite Q1. apply medianf_ext. intros r _. cbn. lra.
  - cbn. apply medianf_ext. intros r _. lra.
  - cbn. apply medianf_ext. intros r _. lra.
  - rewrite P2, <- P1. f_equal. apply medianf_ext. intros r _. cbn [mk2 at_ nth]. f_equal. f_equal. f_equal. lra.
  - rewrite Q2, <- Q1. f_equal. apply medianf_ext. intros r _. cbn [mk2 at_ nth]. f_equal. f_equal. f_equal. lra.
Qed.
Lemma conf_strength_nonneg cy cd rh : 0 <= conf_strength cy cd rh.
Proof. unfold conf_strength. apply Rmult_le_pos; [apply Rabs_pos|apply sqrt_pos]. Qed.
Lemma conf_strength_zero cy cd rh : cy = 0 \/ cd = 0 \/ rh = 0 -> conf_strength cy cd rh = 0.
Proof.
  unfold conf_strength. intros [-> | [-> | ->]].
  - rewrite Rmult_0_l, sqrt_0. ring.
  - unfold Rdiv. rewrite Rmult_0_l, Rmult_0_r, sqrt_0. ring.
  - rewrite Rabs_R0. ring.
Qed.
Lemma conf_strength_mono cy cd rh cy' cd' rh' : conf_ok cy cd rh -> conf_ok cy' cd' rh' -> cy <= cy' -> cd <= cd' -> Rabs rh <= Rabs rh' ->
  conf_strength cy cd rh <= conf_strength cy' cd' rh'.
Proof.
  intros (A & B & _) (A' & B' & _) H1 H2 H3. unfold conf_strength. apply Rmult_le_compat; [apply Rabs_pos|apply sqrt_pos|exact H3|].
  apply sqrt_le_1_alt. apply Rmult_le_compat; [lra| |exact H1|].
  - apply div_nonneg; lra.
  - apply (Rmult_le_reg_r (1 - cd)); [lra|]. replace (cd / (1 - cd) * (1 - cd)) with cd by (field; lra).
    apply (Rmult_le_reg_r (1 - cd')); [lra|]. replace (cd' / (1 - cd') * (1 - cd) * (1 - cd')) with (cd' * (1 - cd)) by (field; lra). nra.
Qed.
Lemma conf_strength_sign cy cd rh : conf_strength cy cd (- rh) = conf_strength cy cd rh.
Proof. unfold conf_strength. rewrite Rabs_Ropp. reflexivity. Qed.

Lemma sens_enclose ppf f cf_y cf_d rho level res t : fw_wf f -> fw_aggregated f -> bias_nonneg f ->
  calc_sensitivity ppf f cf_y cf_d rho level = Ok res -> (t < fw_n_thetas f)%nat ->
  at_ (sr_theta_lower res) [t] <= at_ (fw_thetas f) [t] <= at_ (sr_theta_upper res) [t].
Proof.
  intros Hf Ha Hb H Ht. apply calc_inv in H; [|exact Hf]. destruct H as (s & cy & cd & rh & lv & Es & _ & _ & _ & _ & _ & _ & V).
  rewrite (sv_lower _ _ _ _ _ _ V), (sv_upper _ _ _ _ _ _ V). destruct (Ha t Ht) as [-> _].
  split; apply medianf_mono; intros r Hr; pose proof (Rmult_le_pos _ _ (conf_strength_nonneg cy cd rh) (Hb s t r Es Ht Hr)); lra.
Qed.
Lemma sens_zero ppf f cy cd rh lv res t : fw_wf f -> fw_aggregated f -> (cy = 0 \/ cd = 0 \/ rh = 0) ->
  calc_sensitivity ppf f (PFloat cy) (PFloat cd) (PFloat rh) (PFloat lv) = Ok res -> (t < fw_n_thetas f)%nat ->
  at_ (sr_theta_lower res) [t] = at_ (fw_thetas f) [t] /\ at_ (sr_theta_upper res) [t] = at_ (fw_thetas f) [t].
Proof.
  intros Hf Ha Hz H Ht. apply calc_inv in H; [|exact Hf]. destruct H as (s & cy' & cd' & rh' & lv' & Es & E1 & E2 & E3 & E4 & _ & _ & V).
  injection E1 as <-. injection E2 as <-. injection E3 as <-. rewrite conf_strength_zero in V by exact Hz.
  rewrite (sv_lower _ _ _ _ _ _ V), (sv_upper _ _ _ _ _ _ V). destruct (Ha t Ht) as [-> _].
  split; apply medianf_ext; intros; ring.
Qed.
(** With the estimator's own standard errors, the standard errors at zero
    confounding are the reported ones. *)
Lemma sens_zero_se ppf f cy cd rh lv res t : fw_wf f -> fw_aggregated f -> fw_ses_robust f -> (cy = 0 \/ cd = 0 \/ rh = 0) ->
  calc_sensitivity ppf f (PFloat cy) (PFloat cd) (PFloat rh) (PFloat lv) = Ok res -> (t < fw_n_thetas f)%nat ->
  at_ (sr_se_lower res) [t] = at_ (fw_ses f) [t] /\ at_ (sr_se_upper res) [t] = at_ (fw_ses f) [t].
Proof.
  intros Hf Ha Hs Hz H Ht. pose proof (sens_zero ppf f cy cd rh lv res t Hf Ha Hz H Ht) as [El Eu].
  apply calc_inv in H; [|exact Hf]. destruct H as (s & cy' & cd' & rh' & lv' & Es & E1 & E2 & E3 & E4 & _ & _ & V).
  injection E1 as <-. injection E2 as <-. injection E3 as <-. rewrite conf_strength_zero in V by exact Hz.
  rewrite (sv_se_lower _ _ _ _ _ _ V), (sv_se_upper _ _ _ _ _ _ V), El, Eu. destruct (Ha t Ht) as [_ ->].
  assert (G : forall sg r, (r < fw_n_rep f)%nat -> sens_all_sigma f (se_psi_max_bias s) 0 sg t r = at_ (fw_all_ses f) [t; r]).
  { intros sg r Hr. destruct (Hs t r Ht Hr) as (s2 & v & H1 & H2). unfold sens_all_sigma, sens_sigma.
    rewrite (var_est_ext _ (sens_psi f (se_psi_max_bias s) 0 sg t r) (fun _ => 1) (fun i => at_ (fw_scaled_psi f) [i; t; r]) (fun _ => 1)).
    - rewrite H1, H2. reflexivity.
    - intro i. unfold sens_psi. ring.
    - reflexivity. }
  split; f_equal; apply medianf_ext; intros r Hr; rewrite G by exact Hr; f_equal; f_equal; f_equal; ring.
Qed.
Lemma sens_mono ppf f cy cd rh lv cy' cd' rh' lv' res res' t : fw_wf f -> bias_nonneg f -> cy <= cy' -> cd <= cd' -> Rabs rh <= Rabs rh' ->
  calc_sensitivity ppf f (PFloat cy) (PFloat cd) (PFloat rh) (PFloat lv) = Ok res ->
  calc_sensitivity ppf f (PFloat cy') (PFloat cd') (PFloat rh') (PFloat lv') = Ok res' -> (t < fw_n_thetas f)%nat ->
  at_ (sr_theta_lower res') [t] <= at_ (sr_theta_lower res) [t] /\ at_ (sr_theta_upper res) [t] <= at_ (sr_theta_upper res') [t].
Proof.
  intros Hf Hb H1 H2 H3 H H' Ht. apply calc_inv in H; [|exact Hf]. apply calc_inv in H'; [|exact Hf].
  destruct H as (s & a & b & c & d & Es & E1 & E2 & E3 & E4 & C & _ & V). destruct H' as (s' & a' & b' & c' & d' & Es' & E1' & E2' & E3' & E4' & C' & _ & V').
  injection E1 as <-. injection E2 as <-. injection E3 as <-. injection E1' as <-. injection E2' as <-. injection E3' as <-.
  rewrite Es in Es'. injection Es' as <-.
  rewrite (sv_lower _ _ _ _ _ _ V), (sv_upper _ _ _ _ _ _ V), (sv_lower _ _ _ _ _ _ V'), (sv_upper _ _ _ _ _ _ V').
  pose proof (conf_strength_mono cy cd rh cy' cd' rh' C C' H1 H2 H3) as M.
  split; apply medianf_mono; intros r Hr; pose proof (Rmult_le_compat_r _ _ _ (Hb s t r Es Ht Hr) M); lra.
Qed.
Lemma sens_sign ppf f cf_y cf_d rh level : calc_sensitivity ppf f cf_y cf_d (PFloat (- rh)) level = calc_sensitivity ppf f cf_y cf_d (PFloat rh) level.
Proof.
  unfold calc_sensitivity. destruct (fw_sens f); [|reflexivity]. destruct (check_in_zero_one cf_y true false); [|reflexivity].
  destruct (check_in_zero_one cf_d true false); [|reflexivity]. cbn [bind]. rewrite Rabs_Ropp. rewrite conf_strength_sign. reflexivity.
Qed.
Lemma sens_sigma_nonneg n psi cl : 0 <= sens_sigma n psi cl.
Proof. unfold sens_sigma. destruct (var_est n psi (fun _ => 1) cl) as [[s v]|]; [apply sqrt_pos|lra]. Qed.
Lemma sens_ci ppf f cf_y cf_d rho lv res t : fw_wf f -> ppf_ok ppf -> 1 / 2 <= lv ->
  calc_sensitivity ppf f cf_y cf_d rho (PFloat lv) = Ok res ->
  at_ (sr_ci_lower res) [t] <= at_ (sr_theta_lower res) [t] /\ at_ (sr_theta_upper res) [t] <= at_ (sr_ci_upper res) [t].
Proof.
  intros Hf [_ Hp] Hl H. apply calc_inv in H; [|exact Hf].
  destruct H as (s & a & b & c & d & Es & E1 & E2 & E3 & E4 & C & L & V). injection E4 as <-.
  rewrite (sv_lower _ _ _ _ _ _ V), (sv_upper _ _ _ _ _ _ V), (sv_ci_lower _ _ _ _ _ _ V), (sv_ci_upper _ _ _ _ _ _ V).
  assert (0 <= ppf lv) by (apply Hp; lra).
  split; apply medianf_mono; intros r _;
   [pose proof (Rmult_le_pos _ _ H (sens_sigma_nonneg (fw_n_obs f) (sens_psi f (se_psi_max_bias s) (conf_strength a b c) (-1) t r) (cluster_args_rep (fw_cluster f) r)))
   |pose proof (Rmult_le_pos _ _ H (sens_sigma_nonneg (fw_n_obs f) (sens_psi f (se_psi_max_bias s) (conf_strength a b c) 1 t r) (cluster_args_rep (fw_cluster f) r)))];
   unfold sens_all_sigma; lra.
Qed.

(** ** Acceptance and atomicity *)
Lemma calc_ok_iff ppf f cf_y cf_d rho level : (0 < fw_n_rep f * fw_n_thetas f)%nat ->
  is_ok (calc_sensitivity ppf f cf_y cf_d rho level) = true <->
  (exists s, fw_sens f = Some s) /\ var_est_ok (fw_cluster f) = true /\
  (exists cy cd rh lv, cf_y = PFloat cy /\ cf_d = PFloat cd /\ rho = PFloat rh /\ level = PFloat lv /\ conf_ok cy cd rh /\ 0 < lv < 1).
Proof.
  intro Hn. apply Nat.lt_neq, Nat.neq_sym, Nat.eqb_neq in Hn. unfold calc_sensitivity. destruct (fw_sens f) as [s|]; [|split; [discriminate|intros ((s & H) & _); discriminate]].
  split.
  - destruct (check_in_zero_one cf_y true false) as [cy|] eqn:H1; [|discriminate]. destruct (check_in_zero_one cf_d true false) as [cd|] eqn:H2; [|discriminate].
    destruct rho as [rh| | | | | |]; try discriminate. cbn [bind].
    destruct (check_in_zero_one (PFloat (Rabs rh)) true true) as [ar|] eqn:H3; [|discriminate]. cbn [bind].
    destruct (check_in_zero_one level false false) as [lv|] eqn:H4; [|discriminate]. cbn [bind]. rewrite Hn, orb_false_r.
    destruct (var_est_ok (fw_cluster f)); [|discriminate]. intros _.
    apply check01_inv in H1, H2, H3, H4.
    destruct H1 as (-> & A1 & A2). destruct H2 as (-> & B1 & B2). destruct H3 as (E3 & C1 & C2). destruct H4 as (-> & D1 & D2).
    injection E3 as E3. split; [eauto|]. split; [reflexivity|]. exists cy, cd, rh, lv. repeat (split; [reflexivity|]).
    split; [|lra]. unfold conf_ok. repeat split; try assumption; unfold Rabs in E3; destruct (Rcase_abs rh); lra.
  - intros (_ & Hv & cy & cd & rh & lv & -> & -> & -> & -> & (A & B & C) & L).
    rewrite !check01_ok by (cbn; first [lra|apply Rabs_pos|unfold Rabs; destruct (Rcase_abs rh); lra]). cbn [bind]. rewrite Hv.
    cbn [orb require]. cbv zeta. destruct (aggregate_coefs_and_ses _ _ _). destruct (aggregate_coefs_and_ses _ _ _). reflexivity.
Qed.
Lemma null_ok_iff n v : is_ok (null_vec n v) = true <-> (exists x, v = PFloat x) \/ (exists a, v = PArr a /\ shape a = [n]).
Proof.
  unfold null_vec. destruct v; try (split; [discriminate|intros [(x & H)|(a & H & _)]; discriminate]).
  - split; [eauto|reflexivity].
  - split.
    + intro H. right. exists a. split; [reflexivity|]. unfold require in H. destruct (shape_eqb (shape a) [n]) eqn:E; [|discriminate]. apply shape_eqb_eq. exact E.
    + intros [(x & H)|(b & H & S)]; [discriminate|]. injection H as <-. rewrite S, shape_eqb_refl. reflexivity.
Qed.
Lemma sensitivity_m_spec ppf mz a b c d e f :
  match sensitivity_analysis ppf mz f a b c d e with
  | Err ex => sensitivity_analysis_m ppf mz a b c d e f = (f, Err ex)
  | Ok g => exists g', sensitivity_analysis_m ppf mz a b c d e f = (g', Ok tt) /\
      exists p p', fw_sens_params g = Some p /\ fw_sens_params g' = Some p' /\ set_sens_params g None = set_sens_params g' None /\
      sp_res p = sp_res p' /\ sp_null p = sp_null p' /\ (sp_cf_y p, sp_cf_d p, sp_rho p, sp_level p) = (sp_cf_y p', sp_cf_d p', sp_rho p', sp_level p') /\
      forall t, (t < fw_n_thetas f)%nat -> at_ (sp_rv p) [t] = at_ (sp_rv p') [t] /\ at_ (sp_rva p) [t] = at_ (sp_rva p') [t]
  end.
Proof.
  unfold sensitivity_analysis, sensitivity_analysis_m, m_bind, m_lift, m_set.
  destruct (null_vec (fw_n_thetas f) e) as [nv|]; [|reflexivity]. cbn [bind]. destruct (calc_sensitivity ppf f a b c d) as [res|]; [|reflexivity]. cbn [bind].
  eexists. split; [reflexivity|]. eexists _, _. split; [reflexivity|]. split; [reflexivity|]. split; [reflexivity|]. repeat (split; [reflexivity|]).
  intros t Ht. cbn [sp_rv sp_rva mk1 at_ nth].
  set (g := fun t => robustness ppf mz f (at_ nv [t]) (float_or0 d) (float_or0 c) t).
  assert (E : nth t (map g (seq 0 (fw_n_thetas f))) (0, 0) = g t).
  { rewrite (nth_indep _ (0, 0) (g 0%nat)) by (rewrite map_length, seq_length; exact Ht). rewrite map_nth, seq_nth by exact Ht. reflexivity. }
  fold g. change (fw_n_thetas (set_sens_params f None)) with (fw_n_thetas f). rewrite E. auto.
Qed.
Lemma sensitivity_atomic ppf mz a b c d e f f' ex : sensitivity_analysis_m ppf mz a b c d e f = (f', Err ex) -> f' = f.
Proof.
  unfold sensitivity_analysis_m, m_bind, m_lift, m_set. destruct (null_vec (fw_n_thetas f) e); [|intro H; injection H; auto].
  destruct (calc_sensitivity ppf f a b c d); [discriminate|]. intro H; injection H; auto.
Qed.
Lemma sensitivity_m_ok_iff ppf mz a b c d e f : (0 < fw_n_rep f * fw_n_thetas f)%nat ->
  (exists f', sensitivity_analysis_m ppf mz a b c d e f = (f', Ok tt)) <->
  (exists s, fw_sens f = Some s) /\ var_est_ok (fw_cluster f) = true /\ sens_inputs_ok (fw_n_thetas f) a b c d e.
Proof.
  intro Hn. unfold sens_inputs_ok. rewrite <- null_ok_iff. pose proof (calc_ok_iff ppf f a b c d Hn) as I.
  unfold sensitivity_analysis_m, m_bind, m_lift, m_set. destruct (null_vec (fw_n_thetas f) e); cbn [is_ok].
  2:{ split; [intros (f' & H); discriminate|intros (_ & _ & _ & H); discriminate]. }
  destruct (calc_sensitivity ppf f a b c d); cbn [is_ok] in I.
  - destruct I as [I _]. destruct (I eq_refl) as (I1 & I2 & I3). split; [auto|]. intros _. eexists; reflexivity.
  - destruct I as [_ I]. split; [intros (f' & H); discriminate|]. intros (I1 & I2 & I3 & _). discriminate I. auto.
Qed.
Lemma sensitivity_rv ppf mz a b c d e f f' t : minimize_bounded mz -> sensitivity_analysis_m ppf mz a b c d e f = (f', Ok tt) -> (t < fw_n_thetas f)%nat ->
  exists p, fw_sens_params f' = Some p /\ 0 <= at_ (sp_rv p) [t] < 1 /\ 0 <= at_ (sp_rva p) [t] < 1.
Proof.
  intros Hm H Ht. unfold sensitivity_analysis_m, m_bind, m_lift, m_set in H. destruct (null_vec (fw_n_thetas f) e) as [nv|]; [|discriminate].
  destruct (calc_sensitivity ppf f a b c d); [|discriminate]. injection H as <-. eexists. split; [reflexivity|].
  cbn [sp_rv sp_rva mk1 at_ nth]. set (g := fun t => robustness ppf mz f (at_ nv [t]) (float_or0 d) (float_or0 c) t).
  assert (E : nth t (map g (seq 0 (fw_n_thetas f))) (0, 0) = g t).
  { rewrite (nth_indep _ (0, 0) (g 0%nat)) by (rewrite map_length, seq_length; exact Ht). rewrite map_nth, seq_nth by exact Ht. reflexivity. }
  rewrite E. unfold g, robustness. cbn [fst snd]. split; (match goal with |- 0 <= mz ?x < 1 => pose proof (Hm x) end; lra).
Qed.
Lemma bootstrap_atomic w m k f f' ex : bootstrap_m w m k f = (f', Err ex) -> f' = f.
Proof.
  unfold bootstrap_m, m_bind, m_lift, m_set. destruct (check_bootstrap m k); [|intro H; injection H; auto].
  destruct (fw_cluster f); cbn; [intro H; injection H; auto|discriminate].
Qed.
Lemma bootstrap_m_spec w m k f : bootstrap_m w m k f = match bootstrap w f m k with Ok g => (g, Ok tt) | Err ex => (f, Err ex) end.
Proof.
  unfold bootstrap_m, bootstrap, m_bind, m_lift, m_set. destruct (check_bootstrap m k) as [[s nb]|]; [|reflexivity].
  cbn [bind]. destruct (fw_cluster f); reflexivity.
Qed.

(** ** Combined effects *)
Lemma sens_comb op f g h : fw_wf f -> fw_wf g -> combine_fw op f (OpFw g) = Ok h ->
  match fw_sens f, fw_sens g with
  | Some a, Some b => exists c, fw_sens h = Some c /\ (forall t r, at_ (se_max_bias c) [0%nat; t; r] = at_ (se_max_bias a) [0%nat; t; r] + at_ (se_max_bias b) [0%nat; t; r]) /\
       (forall i t r, at_ (se_psi_max_bias c) [i; t; r] = at_ (se_psi_max_bias a) [i; t; r] + at_ (se_psi_max_bias b) [i; t; r])
  | _, _ => fw_sens h = None
  end.
Proof.
  intros Hf Hg H. apply combine_fw_inv in H. destruct H as (g' & E & _ & _ & _ & ->). injection E as <-.
  cbn [comb_result fw_sens]. unfold sens_add. destruct (fw_sens f) as [a|], (fw_sens g) as [b|]; try reflexivity.
  eexists. split; [reflexivity|]. split; reflexivity.
Qed.
Lemma sens_mul f v c h : fw_wf f -> scalar_val v = Some c -> fw_mul f v = Ok h ->
  match fw_sens f with
  | Some a => exists b, fw_sens h = Some b /\ (forall t r, at_ (se_max_bias b) [0%nat; t; r] = Rabs c * at_ (se_max_bias a) [0%nat; t; r])
       /\ (forall i t r, at_ (se_psi_max_bias b) [i; t; r] = Rabs c * at_ (se_psi_max_bias a) [i; t; r])
  | None => fw_sens h = None
  end.
Proof.
  intros Hf Hv H. rewrite (fw_mul_ok f v c Hf Hv) in H. injection H as <-. cbn [mul_result fw_sens]. unfold sens_scale.
  destruct (fw_sens f) as [a|]; [|reflexivity]. eexists. split; [reflexivity|]. split; reflexivity.
Qed.
Lemma medianf_plus2 n g h : (0 < n <= 2)%nat -> medianf n (fun r => g r + h r) = medianf n g + medianf n h.
Proof. intro H. assert (E : n = 1%nat \/ n = 2%nat) by lia. destruct E as [-> | ->]; [rewrite !medianf_one|rewrite !medianf_two]; lra. Qed.
Lemma medianf_minus2 n g h : (0 < n <= 2)%nat -> medianf n (fun r => g r - h r) = medianf n g - medianf n h.
Proof. intro H. assert (E : n = 1%nat \/ n = 2%nat) by lia. destruct E as [-> | ->]; [rewrite !medianf_one|rewrite !medianf_two]; lra. Qed.
Lemma calc_has_sens ppf f a b c d res : calc_sensitivity ppf f a b c d = Ok res -> exists s, fw_sens f = Some s.
Proof. unfold calc_sensitivity. destruct (fw_sens f); [eauto|discriminate]. Qed.
Lemma calc_bounds ppf f cy cd rh lv res s : fw_wf f -> calc_sensitivity ppf f (PFloat cy) (PFloat cd) (PFloat rh) (PFloat lv) = Ok res -> fw_sens f = Some s ->
  (forall t, at_ (sr_theta_lower res) [t] = medianf (fw_n_rep f) (fun r => at_ (fw_all_thetas f) [t; r] - conf_strength cy cd rh * at_ (se_max_bias s) [0%nat; t; r])) /\
  (forall t, at_ (sr_theta_upper res) [t] = medianf (fw_n_rep f) (fun r => at_ (fw_all_thetas f) [t; r] + conf_strength cy cd rh * at_ (se_max_bias s) [0%nat; t; r])).
Proof.
  intros Hf H Hs. apply calc_inv in H; [|exact Hf]. destruct H as (s' & a & b & c & d & Es & E1 & E2 & E3 & E4 & _ & _ & V).
  injection E1 as <-. injection E2 as <-. injection E3 as <-. rewrite Hs in Es. injection Es as <-.
  split; intro t; [apply (sv_lower _ _ _ _ _ _ V)|apply (sv_upper _ _ _ _ _ _ V)].
Qed.
Lemma sens_add_contains ppf f g h cy cd rh lv lv1 lv2 rf rg rh' t x y : fw_wf f -> fw_wf g -> (0 < fw_n_rep f <= 2)%nat ->
  fw_add f (OpFw g) = Ok h ->
  calc_sensitivity ppf f (PFloat cy) (PFloat cd) (PFloat rh) (PFloat lv1) = Ok rf ->
  calc_sensitivity ppf g (PFloat cy) (PFloat cd) (PFloat rh) (PFloat lv2) = Ok rg ->
  calc_sensitivity ppf h (PFloat cy) (PFloat cd) (PFloat rh) (PFloat lv) = Ok rh' ->
  sens_bounds_contain rf t x -> sens_bounds_contain rg t y -> sens_bounds_contain rh' t (x + y).
Proof.
  intros Hf Hg Hn H H1 H2 H3. pose proof (sens_comb Rplus f g h Hf Hg H) as S.
  assert (W : fw_wf h /\ fw_n_rep h = fw_n_rep f /\ fw_n_rep g = fw_n_rep f /\ forall t r, at_ (fw_all_thetas h) [t; r] = at_ (fw_all_thetas f) [t; r] + at_ (fw_all_thetas g) [t; r]).
  { pose proof H as Hi. apply combine_fw_inv in Hi. destruct Hi as (g' & E & _ & _ & (Ho & Hr & _) & ->). injection E as <-.
    split; [apply comb_wf; assumption|]. split; [reflexivity|]. split; [symmetry; exact Hr|reflexivity]. }
  destruct W as (Wh & Nh & Ng & Th).
  assert (Sf : exists a, fw_sens f = Some a) by (eapply calc_has_sens; exact H1).
  assert (Sg : exists a, fw_sens g = Some a) by (eapply calc_has_sens; exact H2).
  destruct Sf as [a Ea]. destruct Sg as [b Eb]. rewrite Ea, Eb in S. destruct S as (c & Ec & Sb & _).
  destruct (calc_bounds _ _ _ _ _ _ _ _ Hf H1 Ea) as [L1 U1]. destruct (calc_bounds _ _ _ _ _ _ _ _ Hg H2 Eb) as [L2 U2].
  destruct (calc_bounds _ _ _ _ _ _ _ _ Wh H3 Ec) as [L3 U3]. unfold sens_bounds_contain. rewrite L1, U1, L2, U2, L3, U3, Nh, Ng.
  set (cs := conf_strength cy cd rh).
  rewrite (medianf_ext _ (fun r => at_ (fw_all_thetas h) [t; r] - _) (fun r => (at_ (fw_all_thetas f) [t; r] - cs * at_ (se_max_bias a) [0%nat; t; r]) + (at_ (fw_all_thetas g) [t; r] - cs * at_ (se_max_bias b) [0%nat; t; r]))) by (intros; rewrite Th, Sb; ring).
  rewrite (medianf_ext _ (fun r => at_ (fw_all_thetas h) [t; r] + _) (fun r => (at_ (fw_all_thetas f) [t; r] + cs * at_ (se_max_bias a) [0%nat; t; r]) + (at_ (fw_all_thetas g) [t; r] + cs * at_ (se_max_bias b) [0%nat; t; r]))) by (intros; rewrite Th, Sb; ring).
  rewrite !medianf_plus2 by exact Hn. lra.
Qed.
Lemma sens_sub_contains ppf f g h cy cd rh lv lv1 lv2 rf rg rh' t x y : fw_wf f -> fw_wf g -> (0 < fw_n_rep f <= 2)%nat ->
  fw_sub f (OpFw g) = Ok h ->
  calc_sensitivity ppf f (PFloat cy) (PFloat cd) (PFloat rh) (PFloat lv1) = Ok rf ->
  calc_sensitivity ppf g (PFloat cy) (PFloat cd) (PFloat rh) (PFloat lv2) = Ok rg ->
  calc_sensitivity ppf h (PFloat cy) (PFloat cd) (PFloat rh) (PFloat lv) = Ok rh' ->
  sens_bounds_contain rf t x -> sens_bounds_contain rg t y -> sens_bounds_contain rh' t (x - y).
Proof.
  intros Hf Hg Hn H H1 H2 H3. pose proof (sens_comb Rminus f g h Hf Hg H) as S.
  assert (W : fw_wf h /\ fw_n_rep h = fw_n_rep f /\ fw_n_rep g = fw_n_rep f /\ forall t r, at_ (fw_all_thetas h) [t; r] = at_ (fw_all_thetas f) [t; r] - at_ (fw_all_thetas g) [t; r]).
  { pose proof H as Hi. apply combine_fw_inv in Hi. destruct Hi as (g' & E & _ & _ & (Ho & Hr & _) & ->). injection E as <-.
    split; [apply comb_wf; assumption|]. split; [reflexivity|]. split; [symmetry; exact Hr|reflexivity]. }
  destruct W as (Wh & Nh & Ng & Th).
  assert (Sf : exists a, fw_sens f = Some a) by (eapply calc_has_sens; exact H1).
  assert (Sg : exists a, fw_sens g = Some a) by (eapply calc_has_sens; exact H2).
  destruct Sf as [a Ea]. destruct Sg as [b Eb]. rewrite Ea, Eb in S. destruct S as (c & Ec & Sb & _).
  destruct (calc_bounds _ _ _ _ _ _ _ _ Hf H1 Ea) as [L1 U1]. destruct (calc_bounds _ _ _ _ _ _ _ _ Hg H2 Eb) as [L2 U2].
  destruct (calc_bounds _ _ _ _ _ _ _ _ Wh H3 Ec) as [L3 U3]. unfold sens_bounds_contain. rewrite L1, U1, L2, U2, L3, U3, Nh, Ng.
  set (cs := conf_strength cy cd rh).
  rewrite (medianf_ext _ (fun r => at_ (fw_all_thetas h) [t; r] - _) (fun r => (at_ (fw_all_thetas f) [t; r] - cs * at_ (se_max_bias a) [0%nat; t; r]) - (at_ (fw_all_thetas g) [t; r] + cs * at_ (se_max_bias b) [0%nat; t; r]))) by (intros; rewrite Th, Sb; ring).
  rewrite (medianf_ext _ (fun r => at_ (fw_all_thetas h) [t; r] + _) (fun r => (at_ (fw_all_thetas f) [t; r] + cs * at_ (se_max_bias a) [0%nat; t; r]) - (at_ (fw_all_thetas g) [t; r] - cs * at_ (se_max_bias b) [0%nat; t; r]))) by (intros; rewrite Th, Sb; ring).
  rewrite !medianf_minus2 by exact Hn. lra.
Qed.
Lemma sens_mul_contains ppf f v c h cy cd rh lv lv1 rf rh' t x : fw_wf f -> scalar_val v = Some c -> (0 < fw_n_rep f)%nat ->
  fw_mul f v = Ok h ->
  calc_sensitivity ppf f (PFloat cy) (PFloat cd) (PFloat rh) (PFloat lv1) = Ok rf ->
  calc_sensitivity ppf h (PFloat cy) (PFloat cd) (PFloat rh) (PFloat lv) = Ok rh' ->
  sens_bounds_contain rf t x -> sens_bounds_contain rh' t (c * x).
Proof.
  intros Hf Hv Hn H H1 H3. pose proof (sens_mul f v c h Hf Hv H) as S.
  assert (Sf : exists a, fw_sens f = Some a) by (eapply calc_has_sens; exact H1).
  destruct Sf as [a Ea]. rewrite Ea in S. destruct S as (b & Eb & Sb & _).
  rewrite (fw_mul_ok f v c Hf Hv) in H. injection H as <-.
  destruct (calc_bounds _ _ _ _ _ _ _ _ Hf H1 Ea) as [L1 U1]. destruct (calc_bounds _ _ _ _ _ _ _ _ (mul_wf c f Hf) H3 Eb) as [L3 U3].
  unfold sens_bounds_contain. rewrite L1, U1, L3, U3. cbn [mul_result fw_n_rep fw_all_thetas nd_map at_].
  set (cs := conf_strength cy cd rh). destruct (Rle_dec 0 c) as [Hc|Hc].
  - rewrite (medianf_ext _ (fun r => c * _ - _) (fun r => c * (at_ (fw_all_thetas f) [t; r] - cs * at_ (se_max_bias a) [0%nat; t; r]))) by (intros; rewrite Sb, (Rabs_pos_eq c) by lra; ring).
    rewrite (medianf_ext _ (fun r => c * _ + _) (fun r => c * (at_ (fw_all_thetas f) [t; r] + cs * at_ (se_max_bias a) [0%nat; t; r]))) by (intros; rewrite Sb, (Rabs_pos_eq c) by lra; ring).
    rewrite !medianf_scale by assumption. intros [X Y]. split; apply Rmult_le_compat_l; assumption.
  - rewrite (medianf_ext _ (fun r => c * _ - _) (fun r => - ((- c) * (at_ (fw_all_thetas f) [t; r] + cs * at_ (se_max_bias a) [0%nat; t; r])))) by (intros; rewrite Sb, (Rabs_left c) by lra; ring).
    rewrite (medianf_ext _ (fun r => c * _ + _) (fun r => - ((- c) * (at_ (fw_all_thetas f) [t; r] - cs * at_ (se_max_bias a) [0%nat; t; r])))) by (intros; rewrite Sb, (Rabs_left c) by lra; ring).
    rewrite !medianf_opp, !medianf_scale by (assumption || lra). intros [X Y]. split; nra.
Qed.

(** C22-C24: sensitivity analysis. *)
From Verif Require Import L_FwProps.
Local Open Scope R_scope.

(** ** C22 *)
Theorem C22_enclose : forall ppf f cf_y cf_d rho level res t,
  fw_wf f -> fw_aggregated f -> bias_nonneg f ->
  calc_sensitivity ppf f cf_y cf_d rho level = Ok res -> (t < fw_n_thetas f)%nat ->
  at_ (sr_theta_lower res) [t] <= at_ (fw_thetas f) [t] <= at_ (sr_theta_upper res) [t].
Proof. exact sens_enclose. Qed.
Print Assumptions C22_enclose.

Theorem C22_no_confounding : forall ppf f cy cd rh lv res t,
  fw_wf f -> fw_aggregated f -> (cy = 0 \/ cd = 0 \/ rh = 0) ->
  calc_sensitivity ppf f (PFloat cy) (PFloat cd) (PFloat rh) (PFloat lv) = Ok res -> (t < fw_n_thetas f)%nat ->
  at_ (sr_theta_lower res) [t] = at_ (fw_thetas f) [t] /\ at_ (sr_theta_upper res) [t] = at_ (fw_thetas f) [t].
Proof. exact sens_zero. Qed.
Print Assumptions C22_no_confounding.

Theorem C22_no_confounding_se : forall ppf f cy cd rh lv res t,
  fw_wf f -> fw_aggregated f -> fw_ses_robust f -> (cy = 0 \/ cd = 0 \/ rh = 0) ->
  calc_sensitivity ppf f (PFloat cy) (PFloat cd) (PFloat rh) (PFloat lv) = Ok res -> (t < fw_n_thetas f)%nat ->
  at_ (sr_se_lower res) [t] = at_ (fw_ses f) [t] /\ at_ (sr_se_upper res) [t] = at_ (fw_ses f) [t].
Proof. exact sens_zero_se. Qed.
Print Assumptions C22_no_confounding_se.

Theorem C22_monotone : forall ppf f cy cd rh lv cy' cd' rh' lv' res res' t,
  fw_wf f -> bias_nonneg f -> cy <= cy' -> cd <= cd' -> Rabs rh <= Rabs rh' ->
  calc_sensitivity ppf f (PFloat cy) (PFloat cd) (PFloat rh) (PFloat lv) = Ok res ->
  calc_sensitivity ppf f (PFloat cy') (PFloat cd') (PFloat rh') (PFloat lv') = Ok res' -> (t < fw_n_thetas f)%nat ->
  at_ (sr_theta_lower res') [t] <= at_ (sr_theta_lower res) [t] /\ at_ (sr_theta_upper res) [t] <= at_ (sr_theta_upper res') [t].
Proof. exact sens_mono. Qed.
Print Assumptions C22_monotone.

Theorem C22_rho_sign : forall ppf f cf_y cf_d rh level,
  calc_sensitivity ppf f cf_y cf_d (PFloat (- rh)) level = calc_sensitivity ppf f cf_y cf_d (PFloat rh) level.
Proof. exact sens_sign. Qed.
Print Assumptions C22_rho_sign.

Theorem C22_confidence_bounds : forall ppf f cf_y cf_d rho lv res t, fw_wf f -> ppf_ok ppf -> 1 / 2 <= lv ->
  calc_sensitivity ppf f cf_y cf_d rho (PFloat lv) = Ok res ->
  at_ (sr_ci_lower res) [t] <= at_ (sr_theta_lower res) [t] /\ at_ (sr_theta_upper res) [t] <= at_ (sr_ci_upper res) [t].
Proof. exact sens_ci. Qed.
Print Assumptions C22_confidence_bounds.

Example C22_case : fw_wf ex_f /\ fw_aggregated ex_f /\ bias_nonneg ex_f /\ fw_ses_robust ex_f /\ ppf_ok ex_ppf /\
  (exists res, calc_sensitivity ex_ppf ex_f (PFloat (1 / 10)) (PFloat (2 / 10)) (PFloat 1) (PFloat (9 / 10)) = Ok res) /\
  (exists res, calc_sensitivity ex_ppf ex_f (PFloat 0) (PFloat (2 / 10)) (PFloat 1) (PFloat (9 / 10)) = Ok res).
Proof.
  split; [apply built_wf|]. split; [apply built_aggregated|]. split; [apply built_bias; intros; apply pos_INR|].
  split; [apply built_robust; lia|]. split; [exact ex_ppf_ok|].
  split; (apply calc_exists; [cbn; lia|discriminate|reflexivity|unfold conf_ok; lra|lra]).
Qed.

(** ** C23 *)
Theorem C23_accepts : forall ppf mz cf_y cf_d rho level null f, (0 < fw_n_rep f * fw_n_thetas f)%nat ->
  (exists f', sensitivity_analysis_m ppf mz cf_y cf_d rho level null f = (f', Ok tt)) <->
  (exists s, fw_sens f = Some s) /\ var_est_ok (fw_cluster f) = true /\ sens_inputs_ok (fw_n_thetas f) cf_y cf_d rho level null.
Proof. exact sensitivity_m_ok_iff. Qed.
Print Assumptions C23_accepts.

Theorem C23_rejected_without_effect : forall ppf mz cf_y cf_d rho level null f f' ex,
  sensitivity_analysis_m ppf mz cf_y cf_d rho level null f = (f', Err ex) -> f' = f.
Proof. exact sensitivity_atomic. Qed.
Print Assumptions C23_rejected_without_effect.

Theorem C23_robustness_values : forall ppf mz cf_y cf_d rho level null f f' t, minimize_bounded mz ->
  sensitivity_analysis_m ppf mz cf_y cf_d rho level null f = (f', Ok tt) -> (t < fw_n_thetas f)%nat ->
  exists p, fw_sens_params f' = Some p /\ 0 <= at_ (sp_rv p) [t] < 1 /\ 0 <= at_ (sp_rva p) [t] < 1.
Proof. exact sensitivity_rv. Qed.
Print Assumptions C23_robustness_values.

Example C23_case : (0 < fw_n_rep ex_f * fw_n_thetas ex_f)%nat /\ (exists s, fw_sens ex_f = Some s) /\ var_est_ok (fw_cluster ex_f) = true /\
  sens_inputs_ok (fw_n_thetas ex_f) (PFloat (1 / 10)) (PFloat 0) (PFloat (-1)) (PFloat (1 / 2)) (PFloat 3) /\ minimize_bounded (fun _ => 1 / 3) /\
  (exists f' ex, sensitivity_analysis_m ex_ppf (fun _ => 0) (PInt 1) (PFloat 0) (PFloat 1) (PFloat (1 / 2)) (PFloat 0) ex_f = (f', Err ex)).
Proof.
  split; [cbn; lia|]. split; [eexists; reflexivity|]. split; [reflexivity|]. split; [|split].
  - split; [|left; eexists; reflexivity]. do 4 eexists. repeat (split; [reflexivity|]). unfold conf_ok. lra.
  - intro g. lra.
  - do 2 eexists. reflexivity.
Qed.

(** ** C24 *)
Theorem C24_sum_bias : forall op f g h, fw_wf f -> fw_wf g -> combine_fw op f (OpFw g) = Ok h ->
  match fw_sens f, fw_sens g with
  | Some a, Some b => exists c, fw_sens h = Some c /\
      (forall t r, at_ (se_max_bias c) [0%nat; t; r] = at_ (se_max_bias a) [0%nat; t; r] + at_ (se_max_bias b) [0%nat; t; r]) /\
      (forall i t r, at_ (se_psi_max_bias c) [i; t; r] = at_ (se_psi_max_bias a) [i; t; r] + at_ (se_psi_max_bias b) [i; t; r])
  | _, _ => fw_sens h = None
  end.
Proof. exact sens_comb. Qed.
Print Assumptions C24_sum_bias.

Theorem C24_multiple_bias : forall f v c h, fw_wf f -> scalar_val v = Some c -> fw_mul f v = Ok h ->
  match fw_sens f with
  | Some a => exists b, fw_sens h = Some b /\
      (forall t r, at_ (se_max_bias b) [0%nat; t; r] = Rabs c * at_ (se_max_bias a) [0%nat; t; r]) /\
      (forall i t r, at_ (se_psi_max_bias b) [i; t; r] = Rabs c * at_ (se_psi_max_bias a) [i; t; r])
  | None => fw_sens h = None
  end.
Proof. exact sens_mul. Qed.
Print Assumptions C24_multiple_bias.

(** Missing from the full property: three or more repetitions (see the refutation). *)
Theorem C24_sum_contains_partial : forall ppf f g h cy cd rh lv lv1 lv2 rf rg rh' t x y,
  fw_wf f -> fw_wf g -> (0 < fw_n_rep f <= 2)%nat -> fw_add f (OpFw g) = Ok h ->
  calc_sensitivity ppf f (PFloat cy) (PFloat cd) (PFloat rh) (PFloat lv1) = Ok rf ->
  calc_sensitivity ppf g (PFloat cy) (PFloat cd) (PFloat rh) (PFloat lv2) = Ok rg ->
  calc_sensitivity ppf h (PFloat cy) (PFloat cd) (PFloat rh) (PFloat lv) = Ok rh' ->
  sens_bounds_contain rf t x -> sens_bounds_contain rg t y -> sens_bounds_contain rh' t (x + y).
Proof. exact sens_add_contains. Qed.
Print Assumptions C24_sum_contains_partial.

Theorem C24_difference_contains_partial : forall ppf f g h cy cd rh lv lv1 lv2 rf rg rh' t x y,
  fw_wf f -> fw_wf g -> (0 < fw_n_rep f <= 2)%nat -> fw_sub f (OpFw g) = Ok h ->
  calc_sensitivity ppf f (PFloat cy) (PFloat cd) (PFloat rh) (PFloat lv1) = Ok rf ->
  calc_sensitivity ppf g (PFloat cy) (PFloat cd) (PFloat rh) (PFloat lv2) = Ok rg ->
  calc_sensitivity ppf h (PFloat cy) (PFloat cd) (PFloat rh) (PFloat lv) = Ok rh' ->
  sens_bounds_contain rf t x -> sens_bounds_contain rg t y -> sens_bounds_contain rh' t (x - y).
Proof. exact sens_sub_contains. Qed.
Print Assumptions C24_difference_contains_partial.

Theorem C24_multiple_contains : forall ppf f v c h cy cd rh lv lv1 rf rh' t x,
  fw_wf f -> scalar_val v = Some c -> (0 < fw_n_rep f)%nat -> fw_mul f v = Ok h ->
  calc_sensitivity ppf f (PFloat cy) (PFloat cd) (PFloat rh) (PFloat lv1) = Ok rf ->
  calc_sensitivity ppf h (PFloat cy) (PFloat cd) (PFloat rh) (PFloat lv) = Ok rh' ->
  sens_bounds_contain rf t x -> sens_bounds_contain rh' t (c * x).
Proof. exact sens_mul_contains. Qed.
Print Assumptions C24_multiple_contains.

(** With three repetitions the aggregated bounds of a sum may exclude a sum of
    values inside the individual bounds. *)
Theorem C24_sum_contains_refuted : forall ppf, exists f g h rf rg rh x y,
  fw_wf f /\ fw_wf g /\ compatible f g /\ bias_nonneg f /\ bias_nonneg g /\ fw_add f (OpFw g) = Ok h /\
  calc_sensitivity ppf f (PFloat (1/10)) (PFloat (1/10)) (PFloat 1) (PFloat (19/20)) = Ok rf /\
  calc_sensitivity ppf g (PFloat (1/10)) (PFloat (1/10)) (PFloat 1) (PFloat (19/20)) = Ok rg /\
  calc_sensitivity ppf h (PFloat (1/10)) (PFloat (1/10)) (PFloat 1) (PFloat (19/20)) = Ok rh /\
  sens_bounds_contain rf 0 x /\ sens_bounds_contain rg 0 y /\ ~ sens_bounds_contain rh 0 (x + y).
Proof. exact sens_median_refuted. Qed.
Print Assumptions C24_sum_contains_refuted.

Example C24_case : exists h rf rg rh, fw_wf ex_f /\ fw_wf ex_g /\ (0 < fw_n_rep ex_f <= 2)%nat /\ fw_add ex_f (OpFw ex_g) = Ok h /\
  calc_sensitivity ex_ppf ex_f (PFloat (1/10)) (PFloat (1/10)) (PFloat 1) (PFloat (9/10)) = Ok rf /\
  calc_sensitivity ex_ppf ex_g (PFloat (1/10)) (PFloat (1/10)) (PFloat 1) (PFloat (9/10)) = Ok rg /\
  calc_sensitivity ex_ppf h (PFloat (1/10)) (PFloat (1/10)) (PFloat 1) (PFloat (9/10)) = Ok rh.
Proof. exact ex_sum_sens. Qed.

{
 "claims": [
  {
   "property": "C01",
   "status": "proved",
   "theorems": [
    "C01_rejected_split_changes_nothing",
    "C01_accepted_split_is_partition",
    "C01_partition_is_accepted"
   ],
   "note": ""
  },
  {
   "property": "C02",
   "status": "proved",
   "theorems": [
    "C02_drawn_split_is_partition",
    "C02_drawing_succeeds_iff",
    "C02_strata_are_balanced",
    "C02_train_sets_see_every_stratum"
   ],
   "note": ""
  },
  {
   "property": "C03",
   "status": "proved",
   "theorems": [
    "C03_cells_partition_and_share_no_cluster",
    "C03_drawing_succeeds_iff"
   ],
   "note": ""
  },
  {
   "property": "C04",
   "status": "proved",
   "theorems": [
    "C04_prediction_from_own_fold",
    "C04_probability_from_own_fold",
    "C04_no_leakage",
    "C04_no_leakage_probability",
    "C04_exported_models_made_the_predictions"
   ],
   "note": ""
  },
  {
   "property": "C05",
   "status": "partial",
   "theorems": [
    "C05_same_predictions_on_every_path_and_schedule",
    "C05_targets_of_predict",
    "C05_missing_train_label_refuted",
    "C05_targets_of_probabilities_refuted"
   ],
   "note": "Predictions: proved for every path and schedule; for predict_proba under the condition that every train part contains all labels, and refuted without it. Returned targets: equal for predict; refuted for predict_proba (original labels on the fast path, codes on the manual path)."
  },
  {
   "property": "C06",
   "status": "proved",
   "theorems": [
    "C06_subgroup_training_rows",
    "C06_subgroups_partition_training_rows",
    "C06_two_way_subgroup_training_rows",
    "C06_two_way_subgroups_partition_training_rows"
   ],
   "note": ""
  },
  {
   "property": "C07",
   "status": "proved",
   "theorems": [
    "C07_coefficient_is_unique_root",
    "C07_variance_uses_same_weights"
   ],
   "note": ""
  },
  {
   "property": "C08",
   "status": "proved",
   "theorems": [
    "C08_clustered_formula",
    "C08_nonnegative",
    "C08_defined",
    "C08_scale_invariant",
    "C08_framework_expression",
    "C08_singleton_clusters"
   ],
   "note": ""
  },
  {
   "property": "C09",
   "status": "proved",
   "theorems": [
    "C09_median_rule",
    "C09_order_of_repetitions",
    "C09_one_repetition",
    "C09_equivariant"
   ],
   "note": ""
  },
  {
   "property": "C10",
   "status": "proved",
   "theorems": [
    "C10_bracket_search",
    "C10_midpoint_search_covers_bounds",
    "C10_estimate"
   ],
   "note": ""
  },
  {
   "property": "C11",
   "status": "proved",
   "theorems": [
    "C11_sum_estimates",
    "C11_difference_estimates",
    "C11_sum_commutes",
    "C11_difference_antisymmetric",
    "C11_self_difference"
   ],
   "note": ""
  },
  {
   "property": "C12",
   "status": "proved",
   "theorems": [
    "C12_double",
    "C12_distributes"
   ],
   "note": ""
  },
  {
   "property": "C13",
   "status": "partial",
   "theorems": [
    "C13_scalar_multiple_refuted",
    "C13_scalar_multiple_partial"
   ],
   "note": "False of the code for negative scalars: DoubleMLFramework.__mul__ multiplies the standard errors by the signed scalar. Proved for scalars >= 0."
  },
  {
   "property": "C14",
   "status": "partial",
   "theorems": [
    "C14_cluster_sum_refuted",
    "C14_cluster_multiple_partial"
   ],
   "note": "False of the code for sums and differences: __add__/__sub__ use the unclustered variance formula. Proved for non-negative multiples."
  },
  {
   "property": "C15",
   "status": "proved",
   "theorems": [
    "C15_components",
    "C15_associative",
    "C15_rejected"
   ],
   "note": ""
  },
  {
   "property": "C16",
   "status": "proved",
   "theorems": [
    "C16_constructor",
    "C16_closed",
    "C16_sum_incompatible"
   ],
   "note": ""
  },
  {
   "property": "C17",
   "status": "proved",
   "theorems": [
    "C17_confint",
    "C17_confint_accepts"
   ],
   "note": ""
  },
  {
   "property": "C18",
   "status": "proved",
   "theorems": [
    "C18_joint_refused",
    "C18_joint_maximal"
   ],
   "note": ""
  },
  {
   "property": "C19",
   "status": "proved",
   "theorems": [
    "C19_frame",
    "C19_scale_free",
    "C19_linear",
    "C19_accepts",
    "C19_rejected_without_effect"
   ],
   "note": ""
  },
  {
   "property": "C20",
   "status": "proved",
   "theorems": [
    "C20_romano_wolf",
    "C20_refused",
    "C20_accepted"
   ],
   "note": ""
  },
  {
   "property": "C21",
   "status": "partial",
   "theorems": [
    "C21_duality",
    "C21_model_pval_partial",
    "C21_model_pval_refuted"
   ],
   "note": "First sentence proved. Second sentence false of the code for several repetitions: the framework reports the median of repetition-wise p-values, the model the p-value of the aggregated estimate. Proved for one repetition."
  },
  {
   "property": "C22",
   "status": "proved",
   "theorems": [
    "C22_enclose",
    "C22_no_confounding",
    "C22_no_confounding_se",
    "C22_monotone",
    "C22_rho_sign",
    "C22_confidence_bounds"
   ],
   "note": ""
  },
  {
   "property": "C23",
   "status": "proved",
   "theorems": [
    "C23_accepts",
    "C23_rejected_without_effect",
    "C23_robustness_values"
   ],
   "note": ""
  },
  {
   "property": "C24",
   "status": "partial",
   "theorems": [
    "C24_sum_bias",
    "C24_multiple_bias",
    "C24_sum_contains_partial",
    "C24_difference_contains_partial",
    "C24_multiple_contains",
    "C24_sum_contains_refuted"
   ],
   "note": "Bias additivity and scaling proved for all repetitions; containment proved for multiples with any number of repetitions and for sums and differences with one or two; false from three repetitions on because medians are not additive."
  },
  {
   "property": "C25",
   "status": "partial",
   "theorems": [
    "C25_accepted",
    "C25_range",
    "C25_values",
    "C25_rho",
    "C25_sign",
    "C25_sign_agreeing_repetitions",
    "C25_same_model_partial",
    "C25_outcome_unit",
    "C25_perfect_fit_refuted"
   ],
   "note": "Ranges, signs, exact values and unit invariance proved. Coinciding models give zeros when no variance is zero; refuted for a perfect outcome fit, where cf_y is nan."
  },
  {
   "property": "C26",
   "status": "proved",
   "theorems": [
    "C26_plr_consistent",
    "C26_max_bias",
    "C26_irm_influence_centred",
    "C26_apo_influence_centred",
    "C26_did_influence_centred",
    "C26_cs_influence_centred",
    "C26_did_experimental",
    "C26_cs_experimental"
   ],
   "note": ""
  },
  {
   "property": "C27",
   "status": "partial",
   "theorems": [
    "C27_nu2_repaired_in_every_repetition_partial",
    "C27_repaired_component_centered_refuted"
   ],
   "note": "Proved: non-negative nu2 for every repetition, repair of all repetitions of a treatment exactly when one of them is not positive, other treatments untouched, max_bias = sqrt(sigma2*nu2) with the reported values. Refuted: the repaired influence component is the squared Riesz representer without subtracting nu2, so it is not mean-zero."
  },
  {
   "property": "C28",
   "status": "proved",
   "theorems": [
    "C28_accepted_thresholds",
    "C28_range",
    "C28_inside_unchanged",
    "C28_nearest",
    "C28_idempotent",
    "C28_monotone",
    "C28_symmetric",
    "C28_inverse_weights_bounded"
   ],
   "note": ""
  },
  {
   "property": "C29",
   "status": "partial",
   "theorems": [
    "C29_interactive_partial",
    "C29_potential_outcome_partial",
    "C29_full_compliance_partial",
    "C29_instrument_refuted",
    "C29_selection_partial",
    "C29_selection_refuted"
   ],
   "note": "Proved for IRM/APO (and IIVM under full compliance). Refuted: IIVM normalises with the treatment instead of the instrument; SSM's normalised weights average to the share of the arm."
  },
  {
   "property": "C30",
   "status": "partial",
   "theorems": [
    "C30_accepted_usable",
    "C30_roles_stay_disjoint",
    "C30_each_role_any_history",
    "C30_success_restores",
    "C30_usable_roles_accepted",
    "C30_shared_list_refuted"
   ],
   "note": "Proved for construction and all histories of successful assignments; every success also restores disjointness after rejected ones. Refuted when the caller changes the list object passed as x_cols, which stays shared."
  },
  {
   "property": "C31",
   "status": "partial",
   "theorems": [
    "C31_bad_argument",
    "C31_active_treatment",
    "C31_overlap_refuted",
    "C31_empty_treatments_refuted",
    "C31_recovery"
   ],
   "note": "Refuted for rejections by overlap (the new value stays). Proved for unusable arguments and for set_x_d, and assigning the old value again repairs the object."
  },
  {
   "property": "C32",
   "status": "partial",
   "theorems": [
    "C32_default_covariates",
    "C32_default_assigned",
    "C32_not_refreshed_refuted"
   ],
   "note": "Proved for the constructor and for assigning None. The default is not recomputed when another role changes (refuted)."
  },
  {
   "property": "C33",
   "status": "partial",
   "theorems": [
    "C33_features",
    "C33_features_clean",
    "C33_features_distinct",
    "C33_activate",
    "C33_after_rejection_refuted"
   ],
   "note": "Proved for all histories of successful assignments. After a rejected assignment the outcome can become a feature without an exception (refuted in every reachable state)."
  },
  {
   "property": "C34",
   "status": "partial",
   "theorems": [
    "C34_constructed",
    "C34_other_assignments_partial",
    "C34_treatment_refuted",
    "C34_outcome_refuted"
   ],
   "note": "Proved at construction and while outcome and treatments are not assigned; refuted otherwise, the indicators are not refreshed."
  },
  {
   "property": "C35",
   "status": "proved",
   "theorems": [
    "C35_round_trip",
    "C35_distinct_names",
    "C35_accepts",
    "C35_cluster_round_trip",
    "C35_cluster_accepts"
   ],
   "note": ""
  },
  {
   "property": "C36",
   "status": "proved",
   "theorems": [
    "C36_refused_until_fit_succeeds",
    "C36_inference_uses_the_last_fit"
   ],
   "note": ""
  },
  {
   "property": "C37",
   "status": "proved",
   "theorems": [
    "C37_same_configuration_same_results",
    "C37_success_depends_on_configuration_only"
   ],
   "note": ""
  },
  {
   "property": "C38",
   "status": "partial",
   "theorems": [
    "C38_values_kept_by_the_framework_partial",
    "C38_snapshot_without_refit_partial",
    "C38_snapshot_after_new_split_set_partial",
    "C38_snapshot_refuted"
   ],
   "note": "Refuted as stated: the per-repetition arrays are shared with the model, so draw_sample_splitting followed by fit rewrites them inside an already obtained framework. Proved: aggregated estimates, standard errors, scores and sensitivity elements never change; everything is frozen without a further fit or once set_sample_splitting has been called."
  },
  {
   "property": "C39",
   "status": "partial",
   "theorems": [
    "C39_set_split_clears_estimates_partial",
    "C39_after_draw_refuted",
    "C39_after_set_refuted",
    "C39_predictions_refuted"
   ],
   "note": "Refuted as stated: draw_sample_splitting keeps all estimates, set_sample_splitting keeps the framework (so confint still answers with the old split), and fit(store_predictions=False) keeps old stored predictions. Proved: set_sample_splitting clears coef, se, psi and the summary; after the next successful fit everything belongs to the current split (C57)."
  },
  {
   "property": "C40",
   "status": "partial",
   "theorems": [
    "C40_new_number_of_folds_used_refuted",
    "C40_first_fold_is_validated_partial",
    "C40_later_folds_validated_refuted",
    "C40_drawn_cluster_splits_are_accepted"
   ],
   "note": "Only the first fold of the first repetition is validated (proved); refuted for later folds. After a new split, the variance uses the number of folds of the old one (refuted)."
  },
  {
   "property": "C41",
   "status": "proved",
   "theorems": [
    "C41_parameters_set",
    "C41_error_is_justified",
    "C41_invalid_is_rejected"
   ],
   "note": ""
  },
  {
   "property": "C42",
   "status": "partial",
   "theorems": [
    "C42_full_sample_results",
    "C42_fold_results_partial",
    "C42_unequal_dimensions_refuted",
    "C42_mixed_repetitions_refuted"
   ],
   "note": "Full-sample tuning results proved. Fold-wise: refuted. The result table is built from aliased rows and indexed repetition-first, so every repetition's entry is the last repetition's result, and every call with a different number of repetitions and treatments raises IndexError."
  },
  {
   "property": "C43",
   "status": "partial",
   "theorems": [
    "C43_local_quantile_refuted",
    "C43_supplied_predictions_reach_estimation_partial",
    "C43_accepted_dictionary_never_fails_refuted",
    "C43_projected_instruments_refuted",
    "C43_takers_refuted"
   ],
   "note": "Proved: exactly the supplied arrays reach the nuisance estimation whose results are reported. Refuted: a dictionary covering only some treatments passes validation and then fails with a missing key. Further refuted: PLIV partialZ/partialXZ ignore accepted external predictions; IIVM ignores external ml_r0/ml_r1 when always/never-takers are excluded. For PLR and IRM, C75 shows that supplied predictions are used verbatim. The local quantile model ignores an incomplete set of supplied predictions without error (refuted)."
  },
  {
   "property": "C44",
   "status": "partial",
   "theorems": [
    "C44_quantile_effects_split",
    "C44_quantile_effects_fit",
    "C44_quantile_effects_values",
    "C44_potential_outcomes_fit_partial",
    "C44_potential_outcomes_common_split",
    "C44_potential_outcomes_redraw_refuted",
    "C44_potential_outcomes_late_draw_refuted"
   ],
   "note": "Quantile-effect model: full. Potential-outcome model: proved for histories without a redraw after construction, and one common split in every history; refuted after draw_sample_splitting (sub-models keep the old split; without initial split they never exist). Here set_sample_splitting succeeds; that it fails for a split without cross-fitting is in C93."
  },
  {
   "property": "C45",
   "status": "partial",
   "theorems": [
    "C45_contrasts",
    "C45_rejections",
    "C45_unfitted_level",
    "C45_distinct_levels_refuted",
    "C45_no_reference_refuted"
   ],
   "note": "Proved for distinct levels and a non-empty set of distinct references; repeated treatment levels give self-contrasts and an empty reference list raises TypeError (refuted parts)."
  },
  {
   "property": "C46",
   "status": "partial",
   "theorems": [
    "C46_mean_of_signal",
    "C46_difference_of_potential_outcomes",
    "C46_label_swap",
    "C46_subgroup_mean_partial",
    "C46_subgroup_mean_refuted",
    "C46_effect_on_treated"
   ],
   "note": "Subgroup mean proved for weights scaled by the group share; refuted for raw 0/1 weights, which are accepted and scale the effect by the share of the group."
  },
  {
   "property": "C47",
   "status": "proved",
   "theorems": [
    "C47_initial_estimate",
    "C47_own_instrument",
    "C47_exact_recovery"
   ],
   "note": ""
  },
  {
   "property": "C48",
   "status": "proved",
   "theorems": [
    "C48_full_compliance"
   ],
   "note": ""
  },
  {
   "property": "C49",
   "status": "proved",
   "theorems": [
    "C49_panel_weights",
    "C49_panel_level_invariant",
    "C49_cross_section_weights",
    "C49_cross_section_level_invariant"
   ],
   "note": ""
  },
  {
   "property": "C50",
   "status": "partial",
   "theorems": [
    "C50_accepted_quantiles",
    "C50_step",
    "C50_monotone",
    "C50_label_swap",
    "C50_normalised_weights",
    "C50_preliminary_ends",
    "C50_preliminary_root",
    "C50_ends_partial",
    "C50_ends_refuted",
    "C50_unnormalised_refuted",
    "C50_cvar_target",
    "C50_cvar_dominates_partial",
    "C50_cvar_dominates_refuted",
    "C50_cvar_estimate",
    "C50_tail_minimal",
    "C50_tail_mean",
    "C50_local_monotone_refuted"
   ],
   "note": "Monotonicity, step structure, CVaR target laws, the preliminary (inverse probability weighted) score's sign change at a weighted quantile and the optimality of the tail mean are proved. The sign of the final score at the ends and the dominance of the CVaR estimate hold for predictions constant over rows and are refuted in general; without normalisation the preliminary score may have no root; the local quantile score is not monotone."
  },
  {
   "property": "C51",
   "status": "partial",
   "theorems": [
    "C51_pointwise_partial",
    "C51_group_intervals_partial",
    "C51_coefficients_refuted",
    "C51_joint_level_ignored_refuted",
    "C51_joint_too_wide_refuted",
    "C51_joint_too_narrow_refuted",
    "C51_rejects"
   ],
   "note": "Pointwise intervals on a basis and for groups have the requested level. The default coefficient intervals have level (1+level)/2 instead (alpha is halved twice). Joint intervals maximise over draws and take the quantile over basis rows: for one row the level is ignored, and bands can be too wide or too narrow."
  },
  {
   "property": "C52",
   "status": "partial",
   "theorems": [
    "C52_accepted_frames_partial",
    "C52_boolean_dummies",
    "C52_labels",
    "C52_integer_dummies_refuted"
   ],
   "note": "Exactly the one-column frames and the all-boolean frames are accepted; two or more integer dummy columns raise TypeError although documented (operator precedence of not/or)."
  },
  {
   "property": "C53",
   "status": "partial",
   "theorems": [
    "C53_kernel_range",
    "C53_kernel_outside",
    "C53_kernel_symmetric",
    "C53_kernel_decreasing",
    "C53_kernel_at_cutoff",
    "C53_kernel_argument",
    "C53_negative_bandwidth_refuted",
    "C53_adjustment_partial",
    "C53_every_row_adjusted",
    "C53_integer_column_refuted",
    "C53_boolean_column_refuted"
   ],
   "note": "Kernel laws proved for positive bandwidths (negative ones pass the type check: refuted). The adjustment is proved for float columns; integer columns truncate every prediction towards zero (no adjustment at all for probabilities below one) and boolean ones always give one half, because the prediction arrays inherit the column's type."
  },
  {
   "property": "C54",
   "status": "partial",
   "theorems": [
    "C54_weighted_error",
    "C54_ranking",
    "C54_targets_partial",
    "C54_zero_signal_refuted"
   ],
   "note": "The error identity holds for all signals; labels are binary exactly if no signal is zero. A zero signal gives label 1/2, which scikit-learn's classifier rejects."
  },
  {
   "property": "C55",
   "status": "partial",
   "theorems": [
    "C55_accepted_exactly",
    "C55_derivative_minus_one_partial",
    "C55_treated_derivative_partial",
    "C55_empty_subgroup_refuted",
    "C55_weighted_average_refuted"
   ],
   "note": "Acceptance characterised exactly; derivative minus one proved for the ATE and for the ATTE when a treated row has weight one. Refuted: accepted weights need not average to one, so the ATE estimate is not a weighted average of signals; ATTE weights without a treated row are accepted and divide by zero."
  },
  {
   "property": "C56",
   "status": "partial",
   "theorems": [
    "C56_evaluation_of_the_last_fit_partial",
    "C56_unstored_refit_refuted"
   ],
   "note": "Proved: losses always belong to the last fit; evaluate_learners scores the last fit's predictions if that fit stored them. Refuted: after fit(store_predictions=False) evaluate_learners still scores the previous fit's predictions."
  },
  {
   "property": "C57",
   "status": "proved",
   "theorems": [
    "C57_fit_reports_the_scores_of_the_current_split",
    "C57_standard_errors_belong_to_the_scores"
   ],
   "note": ""
  },
  {
   "property": "C58",
   "status": "proved",
   "theorems": [
    "C58_every_split_held_is_valid"
   ],
   "note": ""
  },
  {
   "property": "C59",
   "status": "partial",
   "theorems": [
    "C59_plr",
    "C59_irm",
    "C59_apo",
    "C59_did_partial",
    "C59_cs_partial",
    "C59_cs_refuted"
   ],
   "note": "Proved for PLR, IRM and APO; DID and DIDCS when the training folds have the sample shares. Refuted for the observational DIDCS score without in-sample normalisation, whose representer drops the signs."
  },
  {
   "property": "C60",
   "status": "partial",
   "theorems": [
    "C60_equal_residual_variance_partial",
    "C60_influence",
    "C60_sharper_refuted"
   ],
   "note": "Proved for equal residual variances of the two levels; refuted in general (averaging sigma2 and adding nu2 can exceed the sum of the two bounds)."
  },
  {
   "property": "C61",
   "status": "proved",
   "theorems": [
    "C61_interactive",
    "C61_potential_outcome",
    "C61_difference_in_differences",
    "C61_repeated_cross_sections",
    "C61_max_bias",
    "C61_partially_linear"
   ],
   "note": ""
  },
  {
   "property": "C62",
   "status": "proved",
   "theorems": [
    "C62_fold_share"
   ],
   "note": ""
  },
  {
   "property": "C63",
   "status": "proved",
   "theorems": [
    "C63_group_means",
    "C63_gate_call",
    "C63_gate_call_partially_linear",
    "C63_aggregate_interactive",
    "C63_partially_linear",
    "C63_aggregate_partially_linear"
   ],
   "note": ""
  },
  {
   "property": "C64",
   "status": "partial",
   "theorems": [
    "C64_repetition",
    "C64_estimate",
    "C64_standard_error",
    "C64_one_repetition",
    "C64_standard_error_bound",
    "C64_last_fit",
    "C64_interval_contains",
    "C64_interval_nested",
    "C64_unfitted_interval_refuted",
    "C64_bandwidth_refuted"
   ],
   "note": "All parts proved except: intervals before a fit are reported as nan instead of refused, and the bandwidth reported after a single-iteration fit is nan."
  },
  {
   "property": "C65",
   "status": "proved",
   "theorems": [
    "C65_full_compliance",
    "C65_complier_share",
    "C65_preliminary",
    "C65_relabelling",
    "C65_compliers",
    "C65_ratio",
    "C65_preliminary_ratio"
   ],
   "note": ""
  },
  {
   "property": "C66",
   "status": "partial",
   "theorems": [
    "C66_local_no_leakage_partial",
    "C66_local_bounds_refuted",
    "C66_no_leakage_partial",
    "C66_bounds_refuted",
    "C66_external_rows_refuted"
   ],
   "note": "Proved for all three quantile models for given start value and bounds (missing: these are taken from all rows in the constructor, which is refuted as a leak for the quantile and the local quantile model). Supplied propensities are read at the wrong rows in the preliminary step (refuted)."
  },
  {
   "property": "C67",
   "status": "partial",
   "theorems": [
    "C67_local_external_partial",
    "C67_local_refit_refuted",
    "C67_external_predictions_partial",
    "C67_cvar",
    "C67_quantile_refit_refuted"
   ],
   "note": "Proved for CVaR and for quantile and local quantile models with all predictions supplied; refuted for both quantile models, whose fit overwrites its own start value."
  },
  {
   "property": "C68",
   "status": "partial",
   "theorems": [
    "C68_arrays_current",
    "C68_after_rejection_refuted"
   ],
   "note": "Proved for successful assignments; refuted after a rejected one."
  },
  {
   "property": "C69",
   "status": "proved",
   "theorems": [
    "C69_numbers"
   ],
   "note": ""
  },
  {
   "property": "C70",
   "status": "partial",
   "theorems": [
    "C70_fold_parameters",
    "C70_full_sample_parameters",
    "C70_only_on_request",
    "C70_nothing_but_parameters",
    "C70_next_fit_uses_them",
    "C70_failed_call_refuted",
    "C70_arguments",
    "C70_folds_accepted",
    "C70_later_state"
   ],
   "note": "Proved for successful calls, including the next fit. The last clause is refuted: a call that raises may already have replaced parameters of earlier treatments. Fold-wise tuning with a tuner that returns succeeds exactly if the numbers of repetitions and treatments are equal."
  },
  {
   "property": "C71",
   "status": "partial",
   "theorems": [
    "C71_interactive",
    "C71_partialling_out",
    "C71_tuned_prediction",
    "C71_iv_type_refuted",
    "C71_quantile_refuted",
    "C71_full_sample_refuted",
    "C71_redraw_refuted",
    "C71_group_problem",
    "C71_whole_problem"
   ],
   "note": "Proved for the learning problem of every nuisance function without preliminary quantities (group and whole training sets), in full for the interactive model, the partialling-out score and the predictions of a tuned cross-fit. Refuted for the IV-type score (preliminary estimate over all rows), for quantile models (full-sample quantile as target), for full-sample tuning and after a redraw of the split."
  },
  {
   "property": "C72",
   "status": "proved",
   "theorems": [
    "C72_partially_linear",
    "C72_partially_linear_iv_type",
    "C72_interactive",
    "C72_potential_outcome",
    "C72_local_effect",
    "C72_did",
    "C72_did_experimental",
    "C72_did_cross_sections",
    "C72_did_cross_sections_experimental",
    "C72_instrument",
    "C72_instrument_iv_type",
    "C72_several_instruments",
    "C72_instruments_partialled_into_treatment",
    "C72_projected_instruments",
    "C72_sample_selection",
    "C72_nested_sample_selection"
   ],
   "note": "All linear-score model classes with string scores; learners are oracles that predict row by row; check_X_y conversions are not modelled; scores that are functions of the user are in C95."
  },
  {
   "property": "C73",
   "status": "partial",
   "theorems": [
    "C73_partially_linear",
    "C73_interactive",
    "C73_potential_outcome",
    "C73_local_effect",
    "C73_did",
    "C73_did_cross_sections",
    "C73_instrument",
    "C73_projected_instruments",
    "C73_sample_selection",
    "C73_nested_sample_selection",
    "C73_partially_linear_iv_type_refuted",
    "C73_instrument_iv_type_refuted"
   ],
   "note": "Proved for every model class and score except the IV-type scores of PLR and PLIV, which are refuted: the initial estimate used to build ml_g's target averages over all rows, and a two-row example reproduces the held-out outcome exactly."
  },
  {
   "property": "C74",
   "status": "partial",
   "theorems": [
    "C74_quantile",
    "C74_local_quantile",
    "C74_partially_linear",
    "C74_interactive",
    "C74_did",
    "C74_potential_outcome",
    "C74_sample_selection_all_rows",
    "C74_sample_selection_refuted"
   ],
   "note": "Proved for PLR, IRM, DID, APO, PQ, CVaR and LPQ. Refuted for the sample selection model, whose ml_g targets cover all rows, including those without an observed outcome."
  },
  {
   "property": "C75",
   "status": "proved",
   "theorems": [
    "C75_partially_linear_iv_type_fit",
    "C75_instrument_fit",
    "C75_instrument_iv_type_fit",
    "C75_several_instruments_fit",
    "C75_instruments_partialled_fit",
    "C75_projected_instruments_fit",
    "C75_weighted_ate_fit",
    "C75_atte_fit",
    "C75_potential_outcome_fit",
    "C75_local_effect_fit",
    "C75_did_observational_fit",
    "C75_did_experimental_fit",
    "C75_did_cross_sections_observational_fit",
    "C75_did_cross_sections_experimental_fit",
    "C75_selection_fit",
    "C75_nested_selection_fit",
    "C75_clustered_partially_linear_fit",
    "C75_clustered_instrument_fit",
    "C75_partially_linear_fit",
    "C75_interactive_fit"
   ],
   "note": "End-to-end composition of the object life cycle, the cross-fitting engine and the scores for all classes with linear scores: PLR (both scores), PLIV (both scores, several instruments, partialZ, partialXZ), IRM (ATE with admissible weights, ATTE), APO, IIVM, DID and DIDCS (both scores), SSM (both scores); clustered data for PLR and PLIV with partialling-out scores here and for all classes in C82. Denominators are assumed non-zero. Scores that are functions of the user are in C95."
  },
  {
   "property": "C76",
   "status": "proved",
   "theorems": [
    "C76_potential_quantile",
    "C76_quantile_root",
    "C76_cvar",
    "C76_local_quantile",
    "C76_local_root"
   ],
   "note": "Classifier predictions are assumed to be row-wise and to list the classes in order; inner train parts must contain both labels. External ml_m is excluded from the description of the preliminary step (see C66_external_rows_refuted)."
  },
  {
   "property": "C77",
   "status": "partial",
   "theorems": [
    "C77_binary_treatment",
    "C77_binary_outcome_partial",
    "C77_potential_outcome",
    "C77_local_effect",
    "C77_nothing_else_refused",
    "C77_nothing_else_refused_interactive",
    "C77_external_control_refuted"
   ],
   "note": "Proved for PLR, APO and IIVM and for fitted predictions of IRM. Refuted corner: IRM does not check an external ml_g0, although it checks an external ml_g1."
  },
  {
   "property": "C78",
   "status": "proved",
   "theorems": [
    "C78_plr",
    "C78_plr_iv_type",
    "C78_interactive",
    "C78_potential_outcome",
    "C78_local_effect",
    "C78_did",
    "C78_did_cross_sections",
    "C78_instrument",
    "C78_several_instruments"
   ],
   "note": "All models with linear scores that take external predictions. PLIV with partialled-out instruments ignores external predictions (C43_projected_instruments_refuted); the sample selection model refuses them."
  },
  {
   "property": "C79",
   "status": "proved",
   "theorems": [
    "C79_plr",
    "C79_interactive",
    "C79_potential_outcome",
    "C79_local_effect",
    "C79_did",
    "C79_did_cross_sections",
    "C79_instrument",
    "C79_several_instruments",
    "C79_instrument_first_stage",
    "C79_selection",
    "C79_fit_plr",
    "C79_fit_interactive",
    "C79_fit_potential_outcome",
    "C79_fit_local_effect",
    "C79_fit_differences",
    "C79_fit_cross_sections",
    "C79_fit_pliv",
    "C79_fit_pliv_several",
    "C79_fit_pliv_partialled_instruments",
    "C79_fit_pliv_partialled_both",
    "C79_fit_selection",
    "C79_fit_selection_nonignorable",
    "C79_fit_plr_clustered",
    "C79_fit_pliv_clustered",
    "C79_fit_irm_clustered",
    "C79_fit_apo_clustered",
    "C79_fit_iivm_clustered",
    "C79_fit_did_clustered",
    "C79_fit_cs_clustered",
    "C79_fit_pliv_several_clustered",
    "C79_fit_pliv_z_clustered",
    "C79_fit_ssm_clustered"
   ],
   "note": "Nuisance estimation and complete fit() of all classes with linear scores (PLR, PLIV in four variants, IRM, APO, IIVM, DID, DIDCS, SSM with both scores), without and (except partialXZ and the nonignorable score) with clusters. Not covered: quantile models (C91)."
  },
  {
   "property": "C80",
   "status": "proved",
   "theorems": [
    "C80_partially_linear",
    "C80_partially_linear_iv_type",
    "C80_interactive",
    "C80_potential_outcome",
    "C80_did_observational",
    "C80_did_experimental",
    "C80_did_cross_sections_observational",
    "C80_did_cross_sections_experimental"
   ],
   "note": "PLR (both scores), IRM (ATE and ATTE), APO, DID and DIDCS (all score and normalisation variants), without clustering; denominators assumed non-zero."
  },
  {
   "property": "C81",
   "status": "proved",
   "theorems": [
    "C81_plr",
    "C81_pliv",
    "C81_pliv_partialled_instruments",
    "C81_pliv_partialled_both",
    "C81_interactive",
    "C81_potential_outcome",
    "C81_local_effect",
    "C81_differences",
    "C81_cross_sections",
    "C81_selection",
    "C81_split_plr",
    "C81_split_pliv",
    "C81_split_interactive",
    "C81_split_potential_outcome",
    "C81_split_local_effect",
    "C81_split_differences",
    "C81_split_cross_sections",
    "C81_split_selection",
    "C81_cells_plr",
    "C81_cells_pliv",
    "C81_cells_interactive",
    "C81_cells_potential_outcome",
    "C81_cells_local_effect",
    "C81_cells_differences",
    "C81_cells_cross_sections",
    "C81_cells_selection"
   ],
   "note": "Linear-score classes, string scores, data with or without cluster columns; sklearn reads a column as a class label iff its values are whole numbers. Warnings are not modelled. Accepting a column of zeros only as binary treatment is what the code does (zero_one_column)."
  },
  {
   "property": "C82",
   "status": "proved",
   "theorems": [
    "C82_columns",
    "C82_features",
    "C82_rows",
    "C82_values",
    "C82_plr",
    "C82_plr_iv",
    "C82_pliv",
    "C82_pliv_iv",
    "C82_pliv_several",
    "C82_pliv_partialled_instruments",
    "C82_pliv_partialled_both",
    "C82_interactive",
    "C82_treated",
    "C82_potential_outcome",
    "C82_local_effect",
    "C82_differences",
    "C82_differences_experimental",
    "C82_cross_sections",
    "C82_cross_sections_experimental",
    "C82_selection",
    "C82_selection_nonignorable",
    "C82_plr_clustered",
    "C82_pliv_clustered",
    "C82_plr_iv_clustered",
    "C82_pliv_iv_clustered",
    "C82_pliv_several_clustered",
    "C82_pliv_partialled_instruments_clustered",
    "C82_pliv_partialled_both_clustered",
    "C82_interactive_clustered",
    "C82_treated_clustered",
    "C82_potential_outcome_clustered",
    "C82_local_effect_clustered",
    "C82_differences_clustered",
    "C82_differences_experimental_clustered",
    "C82_cross_sections_clustered",
    "C82_cross_sections_experimental_clustered",
    "C82_selection_clustered",
    "C82_selection_nonignorable_clustered"
   ],
   "note": "All linear-score classes and scores, with and without cluster columns; what the data object hands to the learners is stated separately (C82_columns/features/rows/values). Denominators are assumed non-zero."
  },
  {
   "property": "C83",
   "status": "partial",
   "theorems": [
    "C83_plr",
    "C83_pliv",
    "C83_pliv_partialled_instruments",
    "C83_pliv_partialled_both",
    "C83_interactive_partial",
    "C83_potential_outcome_partial",
    "C83_local_effect",
    "C83_differences",
    "C83_cross_sections",
    "C83_selection_partial",
    "C83_many_clusters_plr",
    "C83_many_clusters_pliv",
    "C83_many_clusters_interactive",
    "C83_many_clusters_potential_outcome",
    "C83_many_clusters_local_effect",
    "C83_many_clusters_differences",
    "C83_many_clusters_cross_sections",
    "C83_many_clusters_selection",
    "C83_many_clusters_pliv_partialled_instruments",
    "C83_many_clusters_pliv_partialled_both",
    "C83_weights_refuted",
    "C83_selection_refuted",
    "C83_treatment_refuted",
    "C83_instrument_name_refuted"
   ],
   "note": "For at most two cluster columns (more are refused with NotImplementedError, also proved): proved for PLR, PLIV, IIVM, DID, DIDCS without restriction; for IRM and APO if weight entries are arrays, for SSM if the data have a selection indicator. Refuted corners: AttributeError for non-array weights and for a missing selection indicator; SSM accepts non-binary treatments; an instrument called like a learner is accepted, but fit never returns."
  },
  {
   "property": "C84",
   "status": "partial",
   "theorems": [
    "C84_plr",
    "C84_interactive",
    "C84_quantile",
    "C84_potential_outcome",
    "C84_local_effect",
    "C84_differences",
    "C84_cross_sections",
    "C84_selection",
    "C84_local_quantile",
    "C84_cvar",
    "C84_pliv",
    "C84_pliv_several",
    "C84_pliv_partialled_instruments",
    "C84_pliv_partialled_both",
    "C84_fit_after_tuning",
    "C84_interactive_end_to_end",
    "C84_plr_end_to_end",
    "C84_nonignorable_selection_refuted"
   ],
   "note": "Learning problems of every class and the composition with fit() for PLR and IRM from constructor to estimate. Refuted for nonignorable selection: ml_g and ml_m are tuned without the predicted selection probability they are later fitted with, so a call of fit() after tune() can raise."
  },
  {
   "property": "C85",
   "status": "partial",
   "theorems": [
    "C85_framework",
    "C85_contrasts",
    "C85_model",
    "C85_no_estimates",
    "C85_new_split",
    "C85_wrappers",
    "C85_repeated_levels_refuted",
    "C85_repeated_names_refuted"
   ],
   "note": "Proved for distinct labels (treatment columns are checked to be distinct by DoubleMLData). Refuted for repeated labels, which the name setter, QTE and APOS accept: the join on labels gives more rows than parameters and rows that pair one parameter's estimate with another's interval."
  },
  {
   "property": "C86",
   "status": "proved",
   "theorems": [
    "C86_short_model",
    "C86_separate_model",
    "C86_success",
    "C86_values",
    "C86_rejections",
    "C86_unknown_argument",
    "C86_no_features",
    "C86_unfitted"
   ],
   "note": "Data objects as constructed (not after later role changes). C86_separate_model assumes that no reported estimate is nan. That the long model is unchanged is not a theorem: the deep copy is modelled as a value."
  },
  {
   "property": "C87",
   "status": "proved",
   "theorems": [
    "C87_partially_linear",
    "C87_partially_linear_iv",
    "C87_instrumental",
    "C87_instrumental_iv",
    "C87_several_instruments",
    "C87_instruments_partialled",
    "C87_projected_instruments",
    "C87_interactive",
    "C87_potential_outcome",
    "C87_local_effect",
    "C87_differences_observational",
    "C87_differences_experimental",
    "C87_cross_sections_observational",
    "C87_cross_sections_experimental",
    "C87_selection",
    "C87_selection_nonignorable"
   ],
   "note": "PLR and PLIV (both scores, one and several instruments, partialled-out and projected instruments), IRM, APO, IIVM, DID, DIDCS and SSM (both scores). Classifiers fitted through the common cross-fitting routine are assumed to see the labels 0 and 1, of which 0 occurs; data sets with an empty list of cluster variables are excluded."
  },
  {
   "property": "C88",
   "status": "partial",
   "theorems": [
    "C88_interactive",
    "C88_potential_outcome",
    "C88_partially_linear",
    "C88_partially_linear_iv",
    "C88_refusals",
    "C88_refusals_linear",
    "C88_not_stored",
    "C88_unfitted_refuted",
    "C88_resplit_refuted",
    "C88_stale_predictions_refuted",
    "C88_stale_split_refuted"
   ],
   "note": "IRM (score ATE), APO and PLR (both scores). Denominators of the signal are assumed non-zero; the regression routine is any function returning a least-squares solution with HC0 covariance (one exists: C88_case_routine). Refuted: an unfitted or re-split object returns nan results instead of refusing; for PLR the results belong to the last fit that stored predictions, not to the last fit."
  },
  {
   "property": "C89",
   "status": "partial",
   "theorems": [
    "C89_partially_linear",
    "C89_partially_linear_iv",
    "C89_instrumental",
    "C89_instrumental_iv",
    "C89_several_instruments",
    "C89_interactive",
    "C89_interactive_treated",
    "C89_potential_outcome",
    "C89_local_effect",
    "C89_differences",
    "C89_differences_experimental",
    "C89_cross_sections",
    "C89_cross_sections_experimental",
    "C89_incomplete_partially_linear",
    "C89_incomplete_instrumental",
    "C89_incomplete_several_instruments",
    "C89_incomplete_interactive",
    "C89_incomplete_potential_outcome",
    "C89_incomplete_local_effect",
    "C89_incomplete_differences",
    "C89_incomplete_cross_sections",
    "C89_dummy_learners",
    "C89_ignored_instruments_refuted",
    "C89_ignored_both_refuted"
   ],
   "note": "PLR, PLIV (one and several instruments), IRM, APO, IIVM, DID, DIDCS without clusters. Two exceptions are part of the statements: 0/1 predictions of a 0/1 treatment or outcome are refused. Refuted for PLIV with partialled-out instruments, which accept predictions and do not use them. Quantile models: C91; sample-selection models: C43."
  },
  {
   "property": "C90",
   "status": "proved",
   "theorems": [
    "C90_quantile",
    "C90_local_quantile",
    "C90_cvar",
    "C90_quantile_split",
    "C90_local_quantile_split",
    "C90_cvar_split",
    "C90_quantile_refused",
    "C90_local_quantile_refused",
    "C90_cvar_refused"
   ],
   "note": "Data without cluster variables. If a treatment value does not occur, the constructor raises an IndexError when it computes the start value; the statements assume that both occur."
  },
  {
   "property": "C91",
   "status": "partial",
   "theorems": [
    "C91_quantile",
    "C91_local_quantile",
    "C91_cvar",
    "C91_quantile_success",
    "C91_local_quantile_success",
    "C91_cvar_success",
    "C91_quantile_given",
    "C91_local_quantile_given",
    "C91_quantile_storing_refuted",
    "C91_local_quantile_storing_refuted"
   ],
   "note": "Data without cluster variables. Division by a zero adjusted propensity, a zero complier share or a zero density is excluded by hypothesis (nan in numpy). Refuted: with store_models=True a fit that uses external predictions raises (KeyError for PQ, UnboundLocalError for LPQ)."
  },
  {
   "property": "C92",
   "status": "partial",
   "theorems": [
    "C92_quantile_effects",
    "C92_potential_outcomes",
    "C92_quantile_effects_unsplit",
    "C92_potential_outcomes_unsplit",
    "C92_quantile_effects_split",
    "C92_potential_outcomes_split",
    "C92_quantile_effects_refused",
    "C92_potential_outcomes_refused",
    "C92_default_learner_refuted",
    "C92_quantile_effects_unusable_refuted",
    "C92_potential_outcomes_unusable_refuted"
   ],
   "note": "Data without cluster variables, at least one row and one quantile (level); for quantile effects both treatment values occur. Refuted: the default ml_m=None is never accepted; without a partition objects are accepted for which no sub-model can ever be created (wrong score for the instruments, level with fewer than five rows, several treatments)."
  },
  {
   "property": "C93",
   "status": "partial",
   "theorems": [
    "C93_quantile_effects_split",
    "C93_potential_outcomes_split",
    "C93_quantile_effects_reported_partial",
    "C93_potential_outcomes_reported_partial",
    "C93_quantile_effects_no_split_refuted",
    "C93_potential_outcomes_no_split_refuted",
    "C93_redraw_refuted",
    "C93_quantile_effects",
    "C93_potential_outcomes",
    "C93_missing_levels_refuted",
    "C93_quantile_effects_success",
    "C93_potential_outcomes_success"
   ],
   "note": "One common split and the results of fit: full. The common split is the reported one unless no sample splitting is asked for (raises, but replaces the reported split: refuted), and for potential outcomes unless a split is drawn anew (refuted) or weights are given per repetition. External predictions for some levels only raise a KeyError (refuted)."
  },
  {
   "property": "C94",
   "status": "partial",
   "theorems": [
    "C94_accepts",
    "C94_weight_left",
    "C94_weight_right",
    "C94_errors",
    "C94_division_error",
    "C94_cutoff_in_range_refuted",
    "C94_object",
    "C94_distance_only",
    "C94_sharp_ignores_treatment",
    "C94_global_learners",
    "C94_global_rule",
    "C94_global_weightless",
    "C94_wrong_base_refuted",
    "C94_estimation",
    "C94_clusters_split_refuted",
    "C94_clusters_ignored"
   ],
   "note": "Acceptance, contents of the object, invariances and estimation: full. Refuted: a cutoff equal to the smallest or largest score passes the range check but raises ZeroDivisionError; clusters of cluster data are accepted and ignored, so a cluster is spread over training and test rows; a global learner around an estimator of the wrong kind is accepted by the constructor and raises in fit."
  },
  {
   "property": "C95",
   "status": "partial",
   "theorems": [
    "C95_plr_accepts",
    "C95_pliv_accepts",
    "C95_pliv_partialled_instruments_accepts",
    "C95_pliv_partialled_both_accepts",
    "C95_interactive_accepts",
    "C95_local_effect_accepts",
    "C95_plr",
    "C95_pliv",
    "C95_interactive",
    "C95_local_effect",
    "C95_own_partialling_out",
    "C95_function_raises",
    "C95_several_instruments_refuted",
    "C95_partialled_instruments_refuted",
    "C95_partialled_both_refuted",
    "C95_weights_used_refuted"
   ],
   "note": "Fits: data without cluster variables. The function is an oracle that returns two arrays or raises; sensitivity methods of these objects are not modelled. Refuted: with several instruments or partialled-out instruments PLIV accepts a function as score but can never be fitted; IRM checks the weights and then ignores them."
  },
  {
   "property": "C96",
   "status": "partial",
   "theorems": [
    "C96_plr",
    "C96_turrell",
    "C96_irm",
    "C96_iivm",
    "C96_pliv",
    "C96_multiway",
    "C96_did",
    "C96_sample_selection",
    "C96_sample_selection_refuted",
    "C96_heterogeneous",
    "C96_confounded_irm",
    "C96_confounded_irm_refuted",
    "C96_confounded_plr",
    "C96_levels",
    "C96_level_effect_refuted",
    "C96_levels_range",
    "C96_levels_refuted",
    "C96_levels_ordered",
    "C96_rdd",
    "C96_centred",
    "C96_scaled"
   ],
   "note": "Random draws are arguments; a feature without variation (division by zero) is excluded by hypothesis for make_did_SZ2020, elsewhere quotients by zero are those of Coq. Refuted: in make_ssm_data the covariates are not multiplied by the treatment; in make_confounded_irm_data with linear=True the effect uses the standardised Z5; in make_irm_data_discrete_treatments the effect function differs from the documented one and applies to all treated rows, and n_levels levels give n_levels + 1 treatments."
  },
  {
   "property": "C97",
   "status": "partial",
   "theorems": [
    "C97_plr",
    "C97_plr_error",
    "C97_turrell",
    "C97_turrell_error",
    "C97_irm",
    "C97_irm_error",
    "C97_iivm",
    "C97_iivm_error",
    "C97_pliv",
    "C97_pliv_error",
    "C97_multiway",
    "C97_multiway_error",
    "C97_did",
    "C97_did_error",
    "C97_ssm",
    "C97_ssm_error",
    "C97_heterogeneous",
    "C97_heterogeneous_error",
    "C97_panel_arrays_refuted",
    "C97_confounded_irm",
    "C97_confounded_plr",
    "C97_levels"
   ],
   "note": "make_irm_data, make_iivm_data, make_pliv_CHS2015, multiway, DID, SSM, PLR and Turrell generators and the dictionaries of the others; _make_pliv_data and fetch_* are not modelled. Refuted: panel data of make_did_SZ2020 as arrays have a fourth entry None."
  },
  {
   "property": "C98",
   "status": "partial",
   "theorems": [
    "C98_confounded_irm_effect",
    "C98_confounded_irm_propensity",
    "C98_confounded_irm_short",
    "C98_confounded_irm_strength",
    "C98_confounded_plr_short",
    "C98_confounded_plr_outcome",
    "C98_confounded_plr_treatment",
    "C98_confounded_plr_residual",
    "C98_short_regression_correlated",
    "C98_short_regression_refuted",
    "C98_did_effect",
    "C98_rdd_effect",
    "C98_rdd_effect_refuted"
   ],
   "note": "minimize_scalar is an oracle. Refuted: the returned short regression of make_confounded_plr_data is not the conditional expectation of the outcome given treatment and covariates (its residual is correlated with the treatment residual in samples with the documented moments); tau is the effect at the cutoff only for cutoff zero."
  },
  {
   "property": "C99",
   "status": "proved",
   "theorems": [
    "C99_plr",
    "C99_plr_true_nuisances",
    "C99_turrell",
    "C99_pliv",
    "C99_irm",
    "C99_irm_exact",
    "C99_did"
   ],
   "note": "Any learners; the sums in the denominators are non-zero by hypothesis. PLIV with one instrument, IRM with score ATE and no weights, DID panel data with the observational score."
  },
  {
   "property": "C100",
   "status": "proved",
   "theorems": [
    "C100_plr",
    "C100_pliv",
    "C100_irm_ate",
    "C100_irm_atte",
    "C100_apo",
    "C100_did",
    "C100_iivm"
   ],
   "note": "Unclustered data. The divisions of the closed forms are defined by hypothesis. IRM, APO, IIVM and DID for changes of the outcome only, since treatments (and the instrument of IIVM) are 0/1."
  },
  {
   "property": "C101",
   "status": "proved",
   "theorems": [
    "C101_labels_swapped",
    "C101_potential_outcomes",
    "C101_difference_object",
    "C101_full_compliance",
    "C101_own_instrument"
   ],
   "note": "Unclustered data. The divisions of the closed forms are defined by hypothesis (used propensities off 0 and 1, non-zero residual variation of the treatment). (1) and (2) need a classifier that is symmetric in its labels, or supplied propensities m and 1 - m."
  },
  {
   "property": "C102",
   "status": "proved",
   "theorems": [
    "C102_plr",
    "C102_pliv",
    "C102_irm_ate",
    "C102_irm_atte",
    "C102_apo",
    "C102_did",
    "C102_iivm"
   ],
   "note": "Unclustered data. The divisions of the closed forms are defined by hypothesis. A split drawn by the package depends on row positions, so the folds must be set or moved along."
  },
  {
   "property": "C103",
   "status": "proved",
   "theorems": [
    "C103_plr",
    "C103_pliv"
   ],
   "note": "Unclustered data, partialling out. The divisions of the closed forms are defined by hypothesis."
  },
  {
   "property": "C104",
   "status": "partial",
   "theorems": [
    "C104_independent",
    "C104_plr",
    "C104_pliv",
    "C104_irm",
    "C104_apo",
    "C104_iivm",
    "C104_did",
    "C104_did_cross_section",
    "C104_selection",
    "C104_all_treatments_usable",
    "C104_usable_treatments",
    "C104_after_fit",
    "C104_fit_keeps_data_refuted",
    "C104_reassigned_treatments_refuted",
    "C104_selection_strata",
    "C104_selection_strata_refuted"
   ],
   "note": "Independence is proved for all interleavings. Refuted: that fit leaves the data object unchanged (the last treatment stays active), that every accepted model can be fitted (treatments reassigned after construction), and that the split of DoubleMLSSM does not depend on the active treatment. Tuning is not in the histories; changes of covariates are the subject of C105."
  },
  {
   "property": "C105",
   "status": "partial",
   "theorems": [
    "C105_history",
    "C105_plr",
    "C105_pliv",
    "C105_irm",
    "C105_apo",
    "C105_iivm",
    "C105_did",
    "C105_did_cross_section",
    "C105_selection",
    "C105_checks_repeated_refuted"
   ],
   "note": "Proved for covariates and activations. Refuted: that the checks of the constructor are repeated. Assignments to y_col, d_cols, z_cols, t_col, s_col and cluster_cols after the creation are not covered otherwise."
  },
  {
   "property": "C106",
   "status": "proved",
   "theorems": [
    "C106_data_object",
    "C106_plr",
    "C106_pliv",
    "C106_irm",
    "C106_apo",
    "C106_iivm",
    "C106_did",
    "C106_did_cross_section",
    "C106_selection",
    "C106_cvar",
    "C106_quantile",
    "C106_local_quantile",
    "C106_quantile_effects",
    "C106_potential_outcomes"
   ],
   "note": "The object is the state after the constructor together with the description of class and data (C) that all later methods are functions of; equality of both covers every history. x_cols has to be given: by default all remaining columns are covariates (C32)."
  },
  {
   "property": "C107",
   "status": "partial",
   "theorems": [
    "C107_interactive",
    "C107_interactive_normalised",
    "C107_effect_on_treated",
    "C107_potential_outcome",
    "C107_selection_refuted"
   ],
   "note": "Proved for DoubleMLIRM (unit weights; score ATE, and score ATTE without normalisation, where the bound depends on the number of controls per treated observation) and DoubleMLAPO (unit weights); refuted for DoubleMLSSM, whose selection probabilities are used untrimmed. The normalised case assumes that the adjusted propensities are neither 0 nor 1, where the code divides 0 by 0. IIVM and the difference-in-differences classes are not covered."
  }
 ]
}
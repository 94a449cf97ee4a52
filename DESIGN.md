# Formal model of DoubleML-for-py: design

Target: `/repo/doubleml` (Python). Tool: Coq 8.16.1, standard library only.

## 1. Architecture

Files in `rocq/theories/` come in four layers.

| layer | contents |
|---|---|
| `Base*.v` | result type (exceptions as values), numpy-like arrays, sums/means/medians/quantiles. Definitions only. |
| `M_*.v` | the model: one definition per Python function, with `file:lines` citations. No proofs. |
| `S_*.v` | small specifications written independently of the model (what a partition is, what a median is, ...). |
| `L_*.v` | lemmas and proofs. |
| `P_*.v` | property theorems only: `Theorem ... Proof. exact lemma. Qed. Print Assumptions ...` plus the `Example`s showing that hypotheses are satisfiable. |

### 1.1 Conventions

* Exceptions are values: `Ok x` or `Err e` with `e` one of `TypeError`, `ValueError`, `KeyError`, `IndexError`, `NotImplementedError`, `AttributeError`, `AssertionError`, ...
* numpy arrays are records of a shape and an index function (`arr1`, `arr2`, `arr3`). They are rectangular by construction. Two arrays are "equal" when shapes agree and entries agree at all valid indices.
* Numbers are Coq's real numbers `R`. Rounding, overflow, NaN and infinities are not modelled. Where the code would produce NaN/inf (division by zero) the theorem carries an explicit nonzero hypothesis.
* NaN used as "not yet written" is modelled by `option`.
* Learners, random generators, `norm.cdf`, `norm.ppf`, `brentq`, ... are function arguments (oracles). Theorems quantify over them. Hypotheses on them are visible in the statement.
* Mutation through an attribute becomes a state-passing function. Where two Python objects share one numpy buffer (aliasing) an explicit heap is used.
* Negative results: a property that is false of the code is proved as `..._refuted` with a concrete witness, and the part that does hold as `..._partial`.

## 2. Plan per property

| id | modelled code | proof plan |
|---|---|---|
| C01 | `_check_sample_splitting` and helpers on nested lists of Python values | boolean checks reflected into `Permutation (concat tests) (seq 0 n)`; soundness and completeness; state frame for rejects |
| C02 | `DoubleMLResampling` + sklearn KFold rule with an arbitrary permutation | slices of a permutation; induction on folds |
| C03 | `DoubleMLClusterResampling.split_samples` | membership reasoning over arbitrary per-dimension partitions |
| C04, C05 | `_dml_cv_predict`, both paths, with learner oracle | prediction of row i is determined by fold; permutation invariance by unique writer |
| C06 | `_get_cond_smpls`, `_get_cond_smpls_2d` | filters |
| C07 | `LinearScoreMixin`, `_est_causal_pars` | field arithmetic on finite sums |
| C08 | `_var_est` | sums of squares; singleton clusters |
| C09 | `_aggregate_coefs_and_ses` | order statistics of insertion sort |
| C10 | `_get_bracket_guess`, `_est_coef` of the nonlinear mixin | fuel-free recursion on the number of deltas |
| C11-C16 | `DoubleMLFramework` constructor, `+ - *`, `concat` | pointwise algebra; induction over expressions |
| C17-C21 | `confint`, `bootstrap`, `p_adjust`, `pvals` | monotonicity of medians; quantile lemmas; permutations |
| C22-C27 | sensitivity code | monotonicity of sqrt; case analysis |
| C28-C29 | propensity utilities and their call sites | algebra; refutation for the IIVM and SSM call sites |
| C30-C35 | data backend as state machine | invariants by induction over setter sequences |
| C36-C44 | `DoubleML` object as state machine with heap | invariants and refutations with explicit histories |
| C45 | `causal_contrast` | induction over reference levels |
| C46-C50 | `_score_elements` of all estimators | algebra |
| C51-C56 | BLP, gate, RDD, policy tree, weights, evaluation | mixed |
| C57-C58 | the object state machine (`M_Model`) with the split checks | invariants over all histories; inversion of `fit` |
| C59-C61 | `_sensitivity_element_est` of PLR, IRM, APO, DID, DIDCS; contrast sensitivity | algebra on means; an independent definition of the weight of the outcome in the score |
| C62 | `fold_share` (the `p_hat`, `lambda_hat` loops of DID and DIDCS) | unique writer per row |
| C63 | `gate`/`cate` with OLS as an oracle satisfying the normal equations | group indicators diagonalise the Gram matrix |
| C64 | `RDFlex.fit`, `confint`, aggregation | medians; state machine |
| C65-C67 | quantile models: scores, nested cross-fitting, refits | identities; two-run agreement relation; witnesses |
| C68-C69 | data container arrays | invariant over assignment histories |
| C70-C71 | `tune` on the object state machine, per-model `_nuisance_tuning` | inversion of loops; two-run agreement on training parts |
| C72-C74 | `_nuisance_est` of all linear-score classes on top of `_dml_cv_predict` | inversion of the monadic code; `own_fold`/`no_leak` lemmas of the engine |
| C76 | complete PQ, LPQ and CVaR fits: nested splits, preliminary estimate, root search with tolerance | inversion of the fold loop, `own_fold_proba` for the inner cross-fitting, monotonicity of weighted shares |
| C75 | composition for every class with a linear score (`M_Classes`): object life cycle + nuisance estimation + score + estimation | `fit_rep` (C57 + C72 for one repetition), then the score algebra of C04/C07 per class |
| C77 | `_check_binary_predictions` in the nuisance steps of PLR, IRM, APO, IIVM | inversion of the nuisance step; converse with external predictions |
| C78 | nuisance steps with all predictions external, for two arbitrary learners | both sides reduce to the same term |
| C79 | nuisance steps and fit() with trainable learners | totality of both paths of cross-fitting (`fast_def`, `manual_def`), loop progress of fit |
| C80 | sensitivity elements after complete fits | `sens_fit` (cell-wise content of the sensitivity arrays after the loop and the repair), elements depend on predictions of rows only (`*_same`), finite choice over repetitions |
| C81 | constructors of the linear-score classes on a data object with any cluster columns (`M_Init`) | inversion and reconstruction of every check (`*_accepts_all`); counting lemma for stratified folds (`*_drawn`); with cluster columns the folds of every column exist exactly when it has enough distinct values (`base_all`, `redrawn_cells`) |
| C82 | constructor, later method calls, fit, with and without cluster columns | data invariants (`arrays_reachable`), constructor output (`*_made`) and C75 composed (`*_end`, `*_cl_end`) |
| C83 | errors of the constructors, with at most two cluster columns and with more | structural lemma per check (`td_*`), corners by witness; more than two columns always end in `NotImplementedError`, whatever the other arguments (`*_many`) |
| C84 | `_nuisance_tuning` of all classes (`M_TuneClasses`), `tune`, then `fit` | inversion of the searches to `tuned_for`; rows of a fold are unique (`by_rows_once`), so search and fit see the same data; composed with C82 |
| C85 | `generate_summary`, `summary` of framework, model, APOS, QTE (`M_Summary`) | join on labels as all pairs of equal labels; unique labels give one match per row (induction over the table); composed with C17, C45, C57 |
| C86 | `sensitivity_benchmark` for objects of PLR, IRM, APO, DID, DIDCS on a data object (`M_Bench`) | the setter of the covariates on a constructed data object equals a fresh construction (`sub_assign`, `constructed_form`); constructors read nothing from the covariates (`make_without`); fit depends on the split and parameters only (as C37); cell-wise comparison of the inputs of `gain_statistics` |
| C87 | `_calc_nuisance_loss` and the targets returned by `_nuisance_est` of the classes, from constructor to fitted object | targets per class (`*_evaluated`), kind of the learner stored by the constructor (`*_kinds`), combined with the loop of C37/C38 (`loss_rep`) |
| C88 | `cate`, `gate`, `policy_tree` of IRM and PLR, `capo`, `gapo` of APO on fitted objects (`M_Cate`), from the constructor | signal identified in the fitted object (`fit_leaves`), kept by calls in between (`between_run`), then the least-squares results of C51/C52 |
| C89 | `fit` with external predictions, for an arbitrary learner and for the dummy learners (`M_Dummy`) | `_nuisance_est` of each class evaluated on complete predictions; for untrainable learners, inversion of every branch that trains |
| C90 | constructors of PQ, LPQ, CVaR with their checks (`M_QObject`) | inversion of each check, as for C81 |
| C91 | objects of PQ, LPQ (`nl_obj`: splits, parameters, start value, results) and CVaR; `fit` with non-linear scores | invariant over method calls (start value among the outcomes), then the nested cross-fitting results of C62-C66 and the root search of C35; success by evaluating every branch |
| C92 | constructors of QTE and APOS with their checks and the sub-models they create (`M_WrapObject`) | inversion of each check; the sub-models by C81 and C90 |
| C93 | objects of QTE and APOS: split, list of sub-models, framework; `draw_sample_splitting`, `set_sample_splitting`, `fit` | invariant over calls for a generic wrapper, instantiated twice; every sub-model is a public-API model of C82 or C91 |
| C94 | `RDFlex.__init__` with all its checks, stratified folds, the warnings; `GlobalRegressor`, `GlobalClassifier` | equivalence with a specification of the arguments; inversion of the constructor; composition with C63, C64 |
| C95 | the constructors and fits of PLR, PLIV, IRM and IIVM with a function as score, the function an oracle | as C81 and C82: equivalence with a specification of the arguments, inversion of the constructor, composition with the cross-fitting and aggregation lemmas |
| C96 | all generators of `datasets.py` and `rdd/datasets/simple_dgp.py` with the random draws as arguments | row equations written from the documentation; unfolding of the generator, algebra of sums, `nth` of repeated and tiled vectors |
| C97 | the same with the `return_type` dispatch and the constructors of the data objects | case analysis of the argument; the data object by the constructor theorem of C01 on the simulated frame, names distinct by injectivity of decimal numerals |
| C98 | oracle values of the confounded, difference-in-differences and discontinuity generators; the scalar search as an oracle | sample moments; the correlation of the short residual in closed form, non-zero unless a coefficient vanishes |
| C99 | data generators (C96) composed with the constructors and fits of the matching classes (C82) | the columns of the object satisfy the model equations; the closed form of the estimate, rearranged around the true parameter |
| C100 | pairs of constructor calls and fits (C82) on data in different units | cross-fitted predictions of equivariant learners are carried over row by row (same folds, same parameters, models fitted on converted targets); then the closed forms of estimate and standard error |
| C101 | pairs and triples of constructor calls and fits (C82) that describe one problem in two ways | cross-fitted predictions agree row by row, those of a symmetric classifier are mirrored when the labels are exchanged, clipping and normalisation commute with the mirror; then the closed forms. The theorem on potential outcomes is carried through the operator `-` of the fitted objects (C11): the difference object reports the estimate and the standard error of the interactive model. Writing the case of full compliance showed that the fit theorems of the interactive IV model asked for labels in both instrument groups even when `subgroups` excludes always and never takers, which no such data meet; the hypothesis is now needed only for groups in which `ml_r` is fitted |
| C102 | pairs of constructor calls and fits (C82) on the same observations listed in two orders, with the folds moved along; folds and repetitions may be listed in other orders too | training sets of corresponding folds are permutations of each other (also after the selection of a subgroup, which the code sorts), so order-free learners predict the same for the same observation; sums and means are invariant, and so is the median over rearranged repetitions |
| C103 | pairs of constructor calls and fits (C82): a data object with several treatments, and one that names a single one of them and lists the others (or none of them) as covariates | the feature columns the code selects for a treatment coincide, so the learners are given the same rows (or the same predictions are supplied); equal estimates, standard errors and aggregates follow from the closed forms |
| C104 | `M_Shared`: the model object reads the data object at every use and `fit` activates the treatments in it (double_ml.py:513-514), several model objects and the user take turns | a simulation: as every loop iteration activates its treatment before it reads the data, each object behaves as in the model of the other properties, where the arrays are fixed at the creation; per class, the arrays read while treatment t is active are those of that model |
| C105 | as C104, where the user may also assign to `x_cols`, `use_other_treat_as_covariate`, `force_all_x_finite` between the calls | the constructors do not look at the covariates, so they accept the changed data object and build the same object; the reads of the methods are those of the new object; induction over the history |
| C106 | pairs of data frames that agree in the columns with a role (cluster columns up to labels in the same order), data objects (C30-C35) and constructor calls (C81, C90) on both | everything the constructors hand to the later methods is a function of these columns; cluster labels enter through the numbers of the clusters only. The description of class and data that results is equal, so every history of calls is |
| C107 | complete fits (C75) of IRM (unit weights), APO and SSM with trimming, bounded outcomes and bounded outcome predictions, any propensity learner or supplied propensities | the estimator of C75 is a mean of signals whose weights are bounded by the threshold; normalised weights are nonnegative and average to one. On the treated the odds of the trimmed propensities are bounded. For SSM a fit with constant predictions exceeds every bound |

## 3. Trusted base

* Coq's kernel (8.16.1).
* The axioms printed by `Print Assumptions`: only axioms of the standard library, namely those of its real numbers (`ClassicalDedekindReals.sig_forall_dec`, `ClassicalDedekindReals.sig_not_dec`, `FunctionalExtensionality.functional_extensionality_dep`), and `Classical_Prop.classic` where standard lemmas on reals use it. The table in 3.3 lists them per theorem.
* The reading of the Python code. Nothing is executed.
* Behaviour of numpy/pandas/sklearn/scipy/statsmodels as stated in the comments next to each definition.

### 3.1 Modelled code

| source | model |
|---|---|
| `double_ml_framework.py`: constructor and its checks, `+ - *`, `concat`, `confint`, `bootstrap`, `p_adjust`, `pvals`, `sensitivity_analysis`, `_calc_sensitivity_analysis`, `_calc_robustness_value` | `M_Framework` |
| `utils/_estimation.py`: `_dml_cv_predict` (both paths), `_get_cond_smpls*`, `_var_est`, `_aggregate_coefs_and_ses`, `_get_bracket_guess`, `_cond_targets`, `_set_external_predictions`, `_dml_tune` | `M_Estimation`, `M_CrossFit`, `M_Model`, `M_Tune` |
| `double_ml_score_mixins.py` | `M_Estimation`, `M_Quantile` |
| `utils/_checks.py`: sample-splitting checks, cluster-splitting check, weights, quantile, finite/binary predictions, external predictions | `M_Splitting`, `M_Model`, `M_Scores`, `M_Nuis` |
| `utils/resampling.py` | `M_Splitting` |
| `double_ml.py`: construction, `fit`, `draw_sample_splitting`, `set_sample_splitting`, `set_ml_nuisance_params`, `bootstrap`, `confint`, `evaluate_learners`, `construct_framework`, `tune`, sensitivity methods | `M_Model`, `M_Tune`, `M_Gain` |
| `double_ml_data.py`: both classes, constructors, setters, `from_arrays`, cached arrays | `M_Data` |
| score elements and sensitivity elements of all model classes | `M_Scores`, `M_Quantile` |
| `_nuisance_est` of PLR, PLIV (four variants), IRM, APO, IIVM, DID, DIDCS, SSM (both scores), PQ, CVaR, LPQ | `M_Nuis`, `M_Quantile`, `M_Local` |
| `_nuisance_tuning` of all classes except RDD | `M_Tune`, `M_TuneClasses` |
| summary tables | `M_Summary` |
| constructors of PLR, PLIV (incl. `_partialZ`, `_partialXZ`), IRM, APO, IIVM, DID, DIDCS, SSM with their checks | `M_Init` |
| constructors of PQ, LPQ, CVaR; `fit` of objects with non-linear scores | `M_QObject` |
| `irm/apos.py`, `irm/qte.py`: splits, fit, contrasts | `M_Multi` |
| `irm/apos.py`, `irm/qte.py` as objects, from the constructor on | `M_WrapObject` (the check of weights compares with `n_rep` as a natural number) |
| `utils/blp.py`, `utils/policytree.py`, `cate`/`gate`/`capo`/`gapo`/`policy_tree` methods | `M_Blp`, `M_Cate` |
| `utils/dummy_learners.py` | `M_Dummy` |
| `utils/gain_statistics.py`, `sensitivity_benchmark` | `M_Gain`, `M_Bench` (an empty feature matrix is refused by `check_X_y`: modelled here only) |
| `rdd/rdd.py` | `M_Rdd`, `M_RddInit` |
| `utils/global_learner.py` | `M_RddInit` |
| `datasets.py` (except `fetch_401K`, `fetch_bonus`, `_make_pliv_data`), `rdd/datasets/simple_dgp.py` | `M_Datasets` (random draws are arguments; the covariance matrices only shape the draws and are absent) |
| callable scores of `plm/plr.py`, `plm/pliv.py`, `irm/irm.py`, `irm/iivm.py` | `M_Callable` |

### 3.2 Not modelled

* Floating point: numbers are real numbers. Rounding, overflow, NaN propagation and infinities are absent. Where a NaN means "not written", it is `None`.
* Learners, random generators, optimisers, kernel density estimates, `norm`, OLS, decision trees and `rdrobust` are oracles.
* Printing, summaries as text, plots, most warnings; `fetch_401K`, `fetch_bonus` and `_make_pliv_data` of `datasets.py`.
* Callable scores (user supplied Python functions): impure functions, functions that return anything but two arrays, and the sensitivity methods of such objects. Functions themselves are oracles (`M_Callable`).
* Parallelism is reduced to an arbitrary order of the fold tasks.

### 3.3 What `Print Assumptions` lists

<!-- assumptions begin -->

* **Closed under the global context** (43 theorems): C31_bad_argument, C31_active_treatment, C32_default_assigned, C89_dummy_learners, C01_rejected_split_changes_nothing, C41_error_is_justified, C41_invalid_is_rejected, C44_quantile_effects_split, C44_quantile_effects_fit, C44_potential_outcomes_fit_partial, C44_potential_outcomes_common_split, C44_potential_outcomes_late_draw_refuted, C53_every_row_adjusted, C94_global_rule, C94_global_weightless, C01_accepted_split_is_partition, C01_partition_is_accepted, C02_drawn_split_is_partition, C02_drawing_succeeds_iff, C02_strata_are_balanced, C02_train_sets_see_every_stratum, C03_cells_partition_and_share_no_cluster, C03_drawing_succeeds_iff, C06_subgroup_training_rows, C06_subgroups_partition_training_rows, C06_two_way_subgroup_training_rows, C06_two_way_subgroups_partition_training_rows, C40_first_fold_is_validated_partial, C40_later_folds_validated_refuted, C40_drawn_cluster_splits_are_accepted, C42_full_sample_results, C42_fold_results_partial, C42_unequal_dimensions_refuted, C70_fold_parameters, C70_full_sample_parameters, C70_only_on_request, C70_nothing_but_parameters, C70_arguments, C84_pliv_several, C84_pliv_partialled_instruments, C84_pliv_partialled_both, C71_group_problem, C71_whole_problem

* `ClassicalDedekindReals.sig_forall_dec` (13 theorems): C52_accepted_frames_partial, C52_boolean_dummies, C52_integer_dummies_refuted, C63_gate_call, C63_gate_call_partially_linear, C88_refusals, C88_refusals_linear, C88_unfitted_refuted, C88_resplit_refuted, C88_stale_split_refuted, C82_columns, C94_wrong_base_refuted, C84_fit_after_tuning

* `ClassicalDedekindReals.sig_forall_dec`, `FunctionalExtensionality.functional_extensionality_dep` (378 theorems): C86_short_model, C30_accepted_usable, C52_labels, C54_weighted_error, C54_ranking, C54_targets_partial, C54_zero_signal_refuted, C63_group_means, C63_aggregate_interactive, C63_partially_linear, C63_aggregate_partially_linear, C95_plr_accepts, C95_pliv_accepts, C95_pliv_partialled_instruments_accepts, C95_pliv_partialled_both_accepts, C95_local_effect_accepts, C95_weights_used_refuted, C77_binary_treatment, C77_binary_outcome_partial, C77_potential_outcome, C77_local_effect, C77_nothing_else_refused, C77_nothing_else_refused_interactive, C77_external_control_refuted, C78_plr, C78_plr_iv_type, C78_interactive, C78_potential_outcome, C78_local_effect, C78_did, C78_did_cross_sections, C78_instrument, C78_several_instruments, C79_plr, C79_interactive, C79_potential_outcome, C79_local_effect, C79_did, C79_did_cross_sections, C79_instrument, C79_several_instruments, C79_instrument_first_stage, C79_selection, C08_clustered_formula, C04_prediction_from_own_fold, C04_probability_from_own_fold, C04_no_leakage, C04_no_leakage_probability, C04_exported_models_made_the_predictions, C05_same_predictions_on_every_path_and_schedule, C05_targets_of_predict, C05_missing_train_label_refuted, C05_targets_of_probabilities_refuted, C30_roles_stay_disjoint, C30_each_role_any_history, C30_success_restores, C30_usable_roles_accepted, C30_shared_list_refuted, C31_overlap_refuted, C31_empty_treatments_refuted, C31_recovery, C32_default_covariates, C32_not_refreshed_refuted, C33_features, C33_features_clean, C33_features_distinct, C33_activate, C33_after_rejection_refuted, C34_constructed, C34_other_assignments_partial, C34_treatment_refuted, C34_outcome_refuted, C35_round_trip, C35_distinct_names, C35_accepts, C35_cluster_round_trip, C35_cluster_accepts, C68_arrays_current, C68_after_rejection_refuted, C69_numbers, C96_iivm, C96_pliv, C96_multiway, C96_sample_selection, C96_sample_selection_refuted, C97_iivm, C97_iivm_error, C97_pliv, C97_pliv_error, C97_multiway, C97_multiway_error, C97_ssm, C97_ssm_error, C99_irm_exact, C61_interactive, C61_potential_outcome, C61_difference_in_differences, C61_repeated_cross_sections, C61_partially_linear, C62_fold_share, C47_initial_estimate, C07_coefficient_is_unique_root, C07_variance_uses_same_weights, C08_nonnegative, C08_defined, C08_scale_invariant, C08_framework_expression, C08_singleton_clusters, C10_bracket_search, C10_midpoint_search_covers_bounds, C10_estimate, C15_associative, C15_rejected, C16_constructor, C17_confint_accepts, C18_joint_refused, C18_joint_maximal, C19_frame, C19_scale_free, C19_linear, C19_accepts, C19_rejected_without_effect, C20_romano_wolf, C20_refused, C20_accepted, C21_duality, C81_plr, C81_pliv, C81_pliv_partialled_instruments, C81_pliv_partialled_both, C81_local_effect, C81_differences, C81_cross_sections, C81_selection, C81_split_plr, C81_split_pliv, C81_split_interactive, C81_split_local_effect, C81_split_differences, C81_split_cross_sections, C81_split_selection, C81_cells_plr, C81_cells_pliv, C81_cells_interactive, C81_cells_potential_outcome, C81_cells_local_effect, C81_cells_differences, C81_cells_cross_sections, C81_cells_selection, C83_plr, C83_pliv, C83_pliv_partialled_instruments, C83_pliv_partialled_both, C83_interactive_partial, C83_potential_outcome_partial, C83_local_effect, C83_differences, C83_cross_sections, C83_selection_partial, C83_many_clusters_plr, C83_many_clusters_pliv, C83_many_clusters_interactive, C83_many_clusters_potential_outcome, C83_many_clusters_local_effect, C83_many_clusters_differences, C83_many_clusters_cross_sections, C83_many_clusters_selection, C83_many_clusters_pliv_partialled_instruments, C83_many_clusters_pliv_partialled_both, C83_selection_refuted, C83_treatment_refuted, C82_features, C82_rows, C82_values, C76_potential_quantile, C76_quantile_root, C76_cvar, C76_local_quantile, C76_local_root, C74_quantile, C74_local_quantile, C66_local_no_leakage_partial, C66_local_bounds_refuted, C67_local_external_partial, C67_local_refit_refuted, C43_local_quantile_refuted, C39_set_split_clears_estimates_partial, C72_partially_linear, C72_partially_linear_iv_type, C72_interactive, C72_potential_outcome, C72_local_effect, C72_did, C72_did_experimental, C72_did_cross_sections, C72_did_cross_sections_experimental, C72_instrument, C72_instrument_iv_type, C72_several_instruments, C72_instruments_partialled_into_treatment, C72_projected_instruments, C72_sample_selection, C72_nested_sample_selection, C73_partially_linear, C73_interactive, C73_potential_outcome, C73_local_effect, C73_did, C73_did_cross_sections, C73_instrument, C73_projected_instruments, C73_sample_selection, C73_nested_sample_selection, C73_partially_linear_iv_type_refuted, C73_instrument_iv_type_refuted, C74_partially_linear, C74_interactive, C74_did, C74_potential_outcome, C74_sample_selection_all_rows, C74_sample_selection_refuted, C43_projected_instruments_refuted, C43_takers_refuted, C90_quantile, C90_local_quantile, C90_cvar, C90_quantile_split, C90_local_quantile_split, C90_cvar_split, C90_quantile_refused, C90_local_quantile_refused, C90_cvar_refused, C50_accepted_quantiles, C50_step, C50_monotone, C50_label_swap, C50_normalised_weights, C50_preliminary_ends, C50_preliminary_root, C50_ends_partial, C50_ends_refuted, C50_unnormalised_refuted, C50_cvar_target, C50_cvar_dominates_partial, C50_cvar_dominates_refuted, C50_cvar_estimate, C50_tail_minimal, C50_tail_mean, C50_local_monotone_refuted, C65_full_compliance, C65_complier_share, C65_preliminary, C65_relabelling, C65_compliers, C65_ratio, C65_preliminary_ratio, C66_no_leakage_partial, C66_bounds_refuted, C66_external_rows_refuted, C67_external_predictions_partial, C67_cvar, C67_quantile_refit_refuted, C53_kernel_range, C53_kernel_outside, C53_kernel_symmetric, C53_kernel_decreasing, C53_kernel_at_cutoff, C53_kernel_argument, C53_negative_bandwidth_refuted, C53_adjustment_partial, C53_integer_column_refuted, C53_boolean_column_refuted, C64_unfitted_interval_refuted, C94_accepts, C94_errors, C94_division_error, C94_cutoff_in_range_refuted, C94_object, C94_distance_only, C94_clusters_split_refuted, C94_clusters_ignored, C28_accepted_thresholds, C28_range, C28_inside_unchanged, C28_nearest, C28_idempotent, C28_monotone, C28_symmetric, C28_inverse_weights_bounded, C29_interactive_partial, C29_potential_outcome_partial, C29_full_compliance_partial, C29_instrument_refuted, C29_selection_partial, C29_selection_refuted, C46_mean_of_signal, C46_difference_of_potential_outcomes, C46_label_swap, C46_subgroup_mean_partial, C46_effect_on_treated, C47_own_instrument, C47_exact_recovery, C48_full_compliance, C49_panel_weights, C49_panel_level_invariant, C49_cross_section_weights, C49_cross_section_level_invariant, C26_plr_consistent, C26_irm_influence_centred, C26_apo_influence_centred, C26_did_influence_centred, C26_cs_influence_centred, C26_did_experimental, C26_cs_experimental, C59_plr, C59_irm, C59_apo, C59_did_partial, C59_cs_partial, C59_cs_refuted, C24_multiple_bias, C104_plr, C104_pliv, C104_irm, C104_apo, C104_iivm, C104_did, C104_did_cross_section, C104_selection, C104_all_treatments_usable, C104_usable_treatments, C104_selection_strata, C104_selection_strata_refuted, C105_plr, C105_pliv, C105_irm, C105_apo, C105_iivm, C105_did, C105_did_cross_section, C105_selection, C85_framework, C85_no_estimates, C85_new_split, C85_wrappers, C85_repeated_levels_refuted, C85_repeated_names_refuted, C71_interactive, C71_partialling_out, C71_tuned_prediction, C71_iv_type_refuted, C71_quantile_refuted, C71_full_sample_refuted, C84_plr, C84_interactive, C84_quantile, C84_potential_outcome, C84_local_effect, C84_differences, C84_cross_sections, C84_selection, C84_local_quantile, C84_cvar, C84_pliv, C84_nonignorable_selection_refuted, C106_data_object, C106_plr, C106_pliv, C106_irm, C106_apo, C106_iivm, C106_did, C106_did_cross_section, C106_selection, C106_cvar, C106_quantile, C106_local_quantile, C106_potential_outcomes

* `ClassicalDedekindReals.sig_forall_dec`, `ClassicalDedekindReals.sig_not_dec`, `FunctionalExtensionality.functional_extensionality_dep` (115 theorems): C51_pointwise_partial, C51_group_intervals_partial, C51_coefficients_refuted, C51_joint_level_ignored_refuted, C51_joint_too_wide_refuted, C51_joint_too_narrow_refuted, C51_rejects, C96_plr, C96_turrell, C96_irm, C96_did, C96_heterogeneous, C96_confounded_irm, C96_confounded_plr, C96_levels, C96_levels_range, C96_levels_refuted, C96_levels_ordered, C96_rdd, C96_centred, C96_scaled, C97_plr, C97_plr_error, C97_turrell, C97_turrell_error, C97_irm, C97_irm_error, C97_did, C97_did_error, C97_heterogeneous, C97_heterogeneous_error, C97_confounded_irm, C97_confounded_plr, C97_levels, C98_confounded_irm_effect, C98_confounded_irm_propensity, C98_confounded_irm_short, C98_confounded_irm_strength, C98_confounded_plr_short, C98_confounded_plr_outcome, C98_confounded_plr_treatment, C98_confounded_plr_residual, C98_short_regression_correlated, C98_did_effect, C98_rdd_effect, C98_rdd_effect_refuted, C61_max_bias, C09_median_rule, C09_order_of_repetitions, C09_one_repetition, C09_equivariant, C11_sum_estimates, C11_difference_estimates, C11_sum_commutes, C11_difference_antisymmetric, C11_self_difference, C12_double, C12_distributes, C13_scalar_multiple_refuted, C13_scalar_multiple_partial, C14_cluster_sum_refuted, C14_cluster_multiple_partial, C15_components, C16_closed, C16_sum_incompatible, C25_accepted, C25_range, C25_values, C25_rho, C25_sign, C25_sign_agreeing_repetitions, C25_same_model_partial, C25_outcome_unit, C25_perfect_fit_refuted, C17_confint, C21_model_pval_partial, C21_model_pval_refuted, C44_quantile_effects_values, C44_potential_outcomes_redraw_refuted, C45_contrasts, C45_rejections, C45_unfitted_level, C45_distinct_levels_refuted, C45_no_reference_refuted, C60_equal_residual_variance_partial, C60_influence, C60_sharper_refuted, C64_repetition, C64_estimate, C64_standard_error, C64_one_repetition, C64_standard_error_bound, C64_last_fit, C64_interval_contains, C64_interval_nested, C64_bandwidth_refuted, C94_sharp_ignores_treatment, C94_global_learners, C94_estimation, C26_max_bias, C22_enclose, C22_no_confounding, C22_no_confounding_se, C22_monotone, C22_rho_sign, C22_confidence_bounds, C23_accepts, C23_rejected_without_effect, C23_robustness_values, C24_sum_bias, C24_sum_contains_partial, C24_difference_contains_partial, C24_multiple_contains, C24_sum_contains_refuted, C85_contrasts

* `ClassicalDedekindReals.sig_forall_dec`, `Classical_Prop.classic`, `FunctionalExtensionality.functional_extensionality_dep` (15 theorems): C95_interactive_accepts, C95_case_weights, C81_interactive, C81_potential_outcome, C83_weights_refuted, C94_weight_left, C94_weight_right, C46_subgroup_mean_refuted, C55_accepted_exactly, C55_derivative_minus_one_partial, C55_treated_derivative_partial, C55_empty_subgroup_refuted, C55_weighted_average_refuted, C92_potential_outcomes_unsplit, C93_redraw_refuted

* `ClassicalDedekindReals.sig_forall_dec`, `ClassicalDedekindReals.sig_not_dec`, `Classical_Prop.classic`, `FunctionalExtensionality.functional_extensionality_dep` (258 theorems): C103_plr, C103_pliv, C86_separate_model, C86_success, C86_values, C86_rejections, C86_unknown_argument, C86_no_features, C86_unfitted, C107_interactive, C107_interactive_normalised, C107_effect_on_treated, C107_potential_outcome, C107_selection_refuted, C95_plr, C95_pliv, C95_interactive, C95_local_effect, C95_own_partialling_out, C95_function_raises, C95_several_instruments_refuted, C95_partialled_instruments_refuted, C95_partialled_both_refuted, C95_case_plr, C95_case_pliv, C95_case_interactive, C95_case_local_effect, C95_case_several, C95_case_partialled, C88_interactive, C88_potential_outcome, C88_partially_linear, C88_partially_linear_iv, C88_not_stored, C88_stale_predictions_refuted, C79_fit_plr, C79_fit_interactive, C75_partially_linear_iv_type_fit, C75_instrument_fit, C75_instrument_iv_type_fit, C75_several_instruments_fit, C75_instruments_partialled_fit, C75_projected_instruments_fit, C75_weighted_ate_fit, C75_atte_fit, C75_potential_outcome_fit, C75_local_effect_fit, C75_did_observational_fit, C75_did_experimental_fit, C75_did_cross_sections_observational_fit, C75_did_cross_sections_experimental_fit, C75_selection_fit, C75_nested_selection_fit, C75_clustered_partially_linear_fit, C75_clustered_instrument_fit, C80_partially_linear, C80_partially_linear_iv_type, C80_interactive, C80_potential_outcome, C80_did_observational, C80_did_experimental, C80_did_cross_sections_observational, C80_did_cross_sections_experimental, C96_confounded_irm_refuted, C96_level_effect_refuted, C97_panel_arrays_refuted, C98_short_regression_refuted, C99_plr, C99_plr_true_nuisances, C99_turrell, C99_pliv, C99_irm, C99_did, C101_labels_swapped, C101_potential_outcomes, C101_difference_object, C101_full_compliance, C101_own_instrument, C89_partially_linear, C89_partially_linear_iv, C89_instrumental, C89_instrumental_iv, C89_several_instruments, C89_interactive, C89_interactive_treated, C89_potential_outcome, C89_local_effect, C89_differences, C89_differences_experimental, C89_cross_sections, C89_cross_sections_experimental, C89_incomplete_partially_linear, C89_incomplete_instrumental, C89_incomplete_several_instruments, C89_incomplete_interactive, C89_incomplete_potential_outcome, C89_incomplete_local_effect, C89_incomplete_differences, C89_incomplete_cross_sections, C89_ignored_instruments_refuted, C89_ignored_both_refuted, C81_split_potential_outcome, C83_instrument_name_refuted, C82_plr, C82_plr_iv, C82_pliv, C82_pliv_iv, C82_pliv_several, C82_pliv_partialled_instruments, C82_pliv_partialled_both, C82_interactive, C82_treated, C82_potential_outcome, C82_local_effect, C82_differences, C82_differences_experimental, C82_cross_sections, C82_cross_sections_experimental, C82_selection, C82_selection_nonignorable, C82_plr_clustered, C82_pliv_clustered, C79_fit_potential_outcome, C79_fit_local_effect, C79_fit_differences, C79_fit_cross_sections, C79_fit_pliv, C79_fit_pliv_several, C79_fit_pliv_partialled_instruments, C79_fit_pliv_partialled_both, C79_fit_selection, C79_fit_selection_nonignorable, C79_fit_plr_clustered, C79_fit_pliv_clustered, C82_plr_iv_clustered, C82_pliv_iv_clustered, C82_pliv_several_clustered, C82_pliv_partialled_instruments_clustered, C82_pliv_partialled_both_clustered, C82_interactive_clustered, C82_treated_clustered, C82_potential_outcome_clustered, C82_local_effect_clustered, C82_differences_clustered, C82_differences_experimental_clustered, C82_cross_sections_clustered, C82_cross_sections_experimental_clustered, C82_selection_clustered, C82_selection_nonignorable_clustered, C79_fit_irm_clustered, C79_fit_apo_clustered, C79_fit_iivm_clustered, C79_fit_did_clustered, C79_fit_cs_clustered, C79_fit_pliv_several_clustered, C79_fit_pliv_z_clustered, C79_fit_ssm_clustered, C87_partially_linear, C87_partially_linear_iv, C87_instrumental, C87_instrumental_iv, C87_several_instruments, C87_instruments_partialled, C87_projected_instruments, C87_interactive, C87_potential_outcome, C87_local_effect, C87_differences_observational, C87_differences_experimental, C87_cross_sections_observational, C87_cross_sections_experimental, C87_selection, C87_selection_nonignorable, C57_fit_reports_the_scores_of_the_current_split, C57_standard_errors_belong_to_the_scores, C37_same_configuration_same_results, C37_success_depends_on_configuration_only, C36_refused_until_fit_succeeds, C36_inference_uses_the_last_fit, C38_values_kept_by_the_framework_partial, C38_snapshot_without_refit_partial, C38_snapshot_after_new_split_set_partial, C38_snapshot_refuted, C39_after_draw_refuted, C39_after_set_refuted, C39_predictions_refuted, C41_parameters_set, C27_nu2_repaired_in_every_repetition_partial, C27_repaired_component_centered_refuted, C43_supplied_predictions_reach_estimation_partial, C43_accepted_dictionary_never_fails_refuted, C56_evaluation_of_the_last_fit_partial, C56_unstored_refit_refuted, C58_every_split_held_is_valid, C40_new_number_of_folds_used_refuted, C75_partially_linear_fit, C75_interactive_fit, C91_quantile, C91_local_quantile, C91_cvar, C91_quantile_success, C91_local_quantile_success, C91_cvar_success, C91_quantile_given, C91_local_quantile_given, C91_quantile_storing_refuted, C91_local_quantile_storing_refuted, C102_plr, C102_pliv, C102_irm_ate, C102_irm_atte, C102_apo, C102_did, C102_iivm, C104_independent, C104_after_fit, C104_fit_keeps_data_refuted, C104_reassigned_treatments_refuted, C105_history, C105_checks_repeated_refuted, C85_model, C42_mixed_repetitions_refuted, C70_next_fit_uses_them, C70_failed_call_refuted, C71_redraw_refuted, C84_interactive_end_to_end, C84_plr_end_to_end, C70_folds_accepted, C70_later_state, C100_plr, C100_pliv, C100_irm_ate, C100_irm_atte, C100_apo, C100_did, C100_iivm, C106_quantile_effects, C92_quantile_effects, C92_potential_outcomes, C92_quantile_effects_unsplit, C92_quantile_effects_split, C92_potential_outcomes_split, C92_quantile_effects_refused, C92_potential_outcomes_refused, C92_default_learner_refuted, C92_quantile_effects_unusable_refuted, C92_potential_outcomes_unusable_refuted, C93_quantile_effects_split, C93_potential_outcomes_split, C93_quantile_effects_reported_partial, C93_potential_outcomes_reported_partial, C93_quantile_effects_no_split_refuted, C93_potential_outcomes_no_split_refuted, C93_quantile_effects, C93_potential_outcomes, C93_missing_levels_refuted, C93_quantile_effects_success, C93_potential_outcomes_success

<!-- assumptions end -->

## 4. Findings

Each item is a difference between what the property says (or the documentation promises) and what the code does. "Refuted" names the theorem that exhibits it. Items without a theorem were read in the code only.

### 4.1 Data container (`double_ml_data.py`)

* Setters assign first and check afterwards. A rejected overlapping assignment stays in the object (`C31_overlap_refuted`). Afterwards the outcome can become a feature without any exception (`C33_after_rejection_refuted`), and the arrays disagree with the roles (`C68_after_rejection_refuted`).
* The binary indicators are never refreshed (`C34_treatment_refuted`, `C34_outcome_refuted`).
* A list passed as `x_cols` is stored by reference; changing it later changes the roles unchecked (`C30_shared_list_refuted`).
* The default covariates are not recomputed when another role changes (`C32_not_refreshed_refuted`).
* An empty list assigned to `d_cols` raises IndexError and stays in the object (`C31_empty_treatments_refuted`).
* Read only: `DoubleMLClusterData.from_arrays` has no length check of its own; `super(self.__class__, ...)` recurses without end in subclasses of the cluster class.

### 4.2 Framework (`double_ml_framework.py`)

* `__mul__` with a negative scalar gives negative standard errors and reversed intervals (`C13_scalar_multiple_refuted`).
* `+` and `-` on clustered data use the unclustered variance (`C14_cluster_sum_refuted`).
* The framework's p-value is the median of p-values, the model's the p-value of the median (`C21_model_pval_refuted`).
* Sensitivity bounds of sums of frameworks are not conservative from three repetitions on (`C24_sum_contains_refuted`).
* Read only: `sensitivity_plot(include_scenario=False)` before an analysis raises TypeError; `np.allclose` in the checks is asymmetric; a null hypothesis array is kept by reference, integer arrays raise TypeError.

### 4.3 Cross-fitting (`utils/_estimation.py`)

* `predict_proba` with a label missing in a training fold: the fast and the manual path differ (`C05_missing_train_label_refuted`). Targets reported for `predict_proba` are labels on one path and codes on the other (`C05_targets_of_probabilities_refuted`).
* Read only: the bracket search with one delta covers only half of the bounds around the start.

### 4.4 Model object (`double_ml.py`)

* Frameworks share their arrays with the model; a redraw followed by a fit rewrites an obtained framework (`C38_snapshot_refuted`).
* `draw_sample_splitting` keeps all old estimates; `set_sample_splitting` keeps the framework, so `confint` still answers; `fit(store_predictions=False)` keeps older predictions (`C39_after_draw_refuted`, `C39_after_set_refuted`, `C39_predictions_refuted`, `C56_unstored_refit_refuted`).
* Only the first fold of the first repetition of a cluster split is validated (`C40_later_folds_validated_refuted`, `C40_new_number_of_folds_used_refuted`).
* A dictionary of external predictions that covers only some treatments is accepted and then fails (`C43_projected_instruments_refuted`, `C43_takers_refuted`, `C43_accepted_dictionary_never_fails_refuted`).
* The repaired `nu2` influence component is not centred (`C27_repaired_component_centered_refuted`).
* Fold-wise tuning results live in aliased rows indexed repetition-first: IndexError or repeated last result (`C42_unequal_dimensions_refuted`, `C42_mixed_repetitions_refuted`). A failing `tune` may leave parameters of earlier treatments set (`C70_failed_call_refuted`).
* After `set_sample_splitting` on clustered data the number of folds per cluster is stale (`C40_new_number_of_folds_used_refuted`). Read only: the documented tuple example of `set_sample_splitting` is rejected; `tune` writes into the caller's `scoring_methods`; `tune(param_grids=3)` raises TypeError from a non-short-circuit `|`.
* `fit` leaves the last treatment active in the data object it was given, so `x`, `d` of the data object differ before and after (`C104_after_fit`, `C104_fit_keeps_data_refuted`). Other model objects on the same data are not affected (`C104_independent`), except that DoubleMLSSM created afterwards stratifies by that treatment (`irm/ssm.py`; `C104_selection_strata`, `C104_selection_strata_refuted`).
* The `d_cols` setter activates the first treatment and does not check the others: after such an assignment a model can be created that no call of `fit` can estimate, as activating the second treatment raises (`C104_reassigned_treatments_refuted`). For such data objects the `fit` of `M_Model` omits the exception of `set_x_d`; it is exact when all treatments can be activated, in particular for all data objects whose `y_col`, `d_cols` were not reassigned (`C104_all_treatments_usable`).
* Constructors check the data object once. Instruments assigned to the data object of a DoubleMLPLR object afterwards, which the constructor would refuse, do not stop `fit` (`C105_checks_repeated_refuted`). Changed covariates are used from the next call on (`C105_history`).

### 4.5 Model classes

* PLR and PLIV with score "IV-type": the preliminary estimate uses all rows, so a held-out outcome can determine its own prediction (`C73_partially_linear_iv_type_refuted`, `C73_instrument_iv_type_refuted`, same for tuning: `C71_iv_type_refuted`, `C71_quantile_refuted`, `C71_full_sample_refuted`, `C71_redraw_refuted`).
* PLIV partialZ/partialXZ and IIVM without takers ignore accepted external predictions (`C43_projected_instruments_refuted`, `C43_takers_refuted`).
* IIVM normalises with the treatment instead of the instrument, SSM's normalised weights average to the share of the arm (`C29_instrument_refuted`, `C29_selection_refuted`).
* SSM: targets of ml_g cover rows without observed outcome (`C74_sample_selection_refuted`), and the reported losses of ml_g are taken over all rows, not over those it is fitted for (`C87_selection`, `C87_selection_nonignorable`). The predicted probability of selection is not trimmed: with bounded outcomes and outcome predictions and a fixed threshold the estimate exceeds every bound (`C107_selection_refuted`). Read only: the loop runs over `n_folds`, not over the given folds.
* IRM/APO weights: weights need not average to one and ATTE weights without a treated row divide by zero (`C55_empty_subgroup_refuted`, `C55_weighted_average_refuted`); 0/1 weights scale the effect by the group share (`C46_subgroup_mean_refuted`).
* DIDCS without in-sample normalisation: the Riesz representer loses its signs (`C59_cs_refuted`).
* APOS: sub-models keep the old split after a redraw (`C44_potential_outcomes_redraw_refuted`, `C44_potential_outcomes_late_draw_refuted`). `causal_contrast`: repeated levels, empty references (`C45_distinct_levels_refuted`, `C45_no_reference_refuted`). Contrast bounds may be wider than those of the difference (`C60_sharper_refuted`).
* PQ: a fit overwrites its own start value (`C67_quantile_refit_refuted`); start value and bounds use all rows, supplied propensities are read at wrong rows (`C66_bounds_refuted`, `C66_external_rows_refuted`). The final quantile score may have no sign change and CVaR may fall below the quantile (`C50_ends_refuted`, `C50_unnormalised_refuted`, `C50_cvar_dominates_refuted`, `C50_local_monotone_refuted`).
* LPQ: same start value and bounds problem (`C67_local_refit_refuted`, `C66_local_bounds_refuted`); the check against incomplete external predictions tests `any(..) and not any(..)`, so it never fires and the supplied ones are ignored (`C43_local_quantile_refuted`). Read only: the preliminary `ml_m_d_z0`/`ml_m_d_z1` are evaluated on the rows they were fitted on; `store_models=True` with all predictions supplied reads an undefined variable (PQ: KeyError).
* BLP: alpha halved twice, joint bands maximise over the wrong axis (`C51_coefficients_refuted`, `C51_joint_level_ignored_refuted`, `C51_joint_too_wide_refuted`, `C51_joint_too_narrow_refuted`); integer dummies rejected although documented (`C52_integer_dummies_refuted`). Policy tree: zero signals give label one half (`C54_zero_signal_refuted`).
* RDD: integer and boolean columns truncate predictions; negative bandwidths pass; intervals before a fit are nan; bandwidth nan after one iteration (`C53_negative_bandwidth_refuted`, `C53_integer_column_refuted`, `C53_boolean_column_refuted`, `C64_unfitted_interval_refuted`, `C64_bandwidth_refuted`).
* Benchmark: perfect fit gives nan (`C25_perfect_fit_refuted`). Before the first fit `sensitivity_benchmark` raises NotImplementedError for classes that implement it (`C86_unfitted`); after a failed first fit it refits a copy and then raises AttributeError. The refit uses the current split and parameters and the arguments in `fit_args`, not those of the reported fit.
* Constructors: `_check_weights` calls `.shape` on entries that are no arrays, SSM computes its strata from a missing selection indicator: AttributeError instead of a message (`C83_weights_refuted`, `C83_selection_refuted`). SSM does not check that the treatment is binary (`C83_treatment_refuted`). PLIV with several instruments, one of them called `ml_l`, `ml_m` or `ml_r`, is accepted and every `fit` ends in an AssertionError of `_calc_nuisance_loss` (`C83_instrument_name_refuted`). Read only: a treatment column of zeros only counts as binary; `_partialX` drops `ml_g`, so that score "IV-type" cannot be used with it; every stratified class draws its split twice.
* **IRM checks an external `ml_g1` but not an external `ml_g0`** (`irm/irm.py:272-311`): for a binary outcome the check for 0/1 predictions of the control outcome is inside the branch that fits the learner. The same 0/1 array is accepted as `ml_g0` and refused as `ml_g1` (`C77_external_control_refuted`).
* **SSM, nonignorable score: tuning and fitting use different features** (`irm/ssm.py:426-511` against `285-345`): ml_g and ml_m are tuned on the covariates, but fitted on the covariates and the predicted selection probability. Parameters are found for another problem, and a learner tied to a number of features tunes but raises in fit() (`C84_nonignorable_selection_refuted`).
* **Repeated labels in summary tables** (`utils/_descriptive.py:5-12`, `double_ml_framework.py:221-233`): the summary joins the interval table on the row labels, and neither the `treatment_names` setter nor the level and quantile arguments reject repetitions. With a repeated label the table has more rows than parameters and pairs the estimate of one parameter with the interval of another (`C85_repeated_names_refuted`, `C85_repeated_levels_refuted`).
* Effect heterogeneity: before a fit and after `set_sample_splitting`, `cate`/`gate` of IRM and APO return regressions of nan without an error (`C88_unfitted_refuted`, `C88_resplit_refuted`). For PLR they use the stored predictions of an earlier fit if the last fit had `store_predictions=False`, and survive `set_sample_splitting` (`C88_stale_predictions_refuted`, `C88_stale_split_refuted`; `C88_case_stale` is a fit whose estimate changes from 1 to 0 while `cate` stays). Read only: with weights, the signal of IRM is the weighted one, so that groups are compared on weighted effects; clustered data get HC0 standard errors without a warning; the docstring of `policy_tree` asks for depth > 0, the check allows 0.
* External predictions for a 0/1 treatment (PLR) or a 0/1 outcome (IRM, APO, IIVM) must not be all 0/1 (hypothesis in C89): predictions that happen to be exact are refused. PLIV with partialled-out instruments accepts and ignores them (`C89_ignored_instruments_refuted`, `C89_ignored_both_refuted`).
* **PQ and LPQ: `fit(store_models=True)` with external predictions raises** (`irm/pq.py:368-370`, `irm/lpq.py:496-501`): PQ looks up the models of a learner that was not trained (KeyError, as soon as one of the two predictions is supplied), LPQ reads a variable that is only assigned when models are trained (all five supplied). Without `store_models` the same call returns (`C91_quantile_storing_refuted`, `C91_local_quantile_storing_refuted`).
* **QTE and APOS: asking for no sample splitting corrupts the object** (`irm/qte.py:465-530`, `irm/apos.py:646-702`): `set_sample_splitting` assigns the split and then creates sub-models, which refuse it. The call raises, the object now reports the refused split, and its sub-models (kept) use the old one (`C93_quantile_effects_no_split_refuted`, `C93_potential_outcomes_no_split_refuted`).
* QTE: `ml_m=None` is the default but always raises (`C92_default_learner_refuted`). With `draw_sample_splitting=False` QTE and APOS accept arguments from which no sub-model can be created; every later call raises (`C92_quantile_effects_unusable_refuted`, `C92_potential_outcomes_unusable_refuted`).
* APOS: external predictions may be given for some levels only according to the check, but `fit` then raises KeyError (`C93_missing_levels_refuted`). After a redraw it reports a split its sub-models do not use (`C93_redraw_refuted`).
* **RDFlex: cluster data are accepted and the clusters ignored** (`rdd/rdd.py:99-165`, `481-513`): folds are drawn per row, so a cluster is spread over training and test rows, and the object is the one for the data without clusters (`C94_clusters_split_refuted`, `C94_clusters_ignored`).
* **PLIV with a function as score: most variants can be created but never fitted** (`plm/pliv.py:193-204`, `407-408`, `437-438`, `503-504`): with several instruments, and with `_partialZ` and `_partialXZ`, the constructor accepts the function; `fit` trains all learners and then raises NotImplementedError (C95).
* **IRM with a function as score: weights are checked and ignored** (`irm/irm.py:150-180`, `336-360`): an array of weights is validated, stored and never used, so the object behaves as without weights (C95).
* RDFlex: the range check of the cutoff (`rdd/rdd.py:501-502`) includes the smallest and largest score, but there one side of the cutoff has no weight and the check of the effect sign raises ZeroDivisionError (`C94_cutoff_in_range_refuted`); the same happens if the bandwidth contains no row of one side (`C94_division_error`). A GlobalRegressor around a classifier (and vice versa) passes the constructor and raises in fit (`C94_wrong_base_refuted`).
* **make_confounded_plr_data: the returned short regression is not E[Y|D,X]** (`datasets.py:1426`, documentation `:1330-1332`): with D = m(X) + γA + ε the coefficient of the confounder on the treatment given X is γVar(A)/Var(D - m(X)), but the code (and the documentation) divide by Var(D) and keep g(X). The residual Y - g_short is correlated with D - m_short by βγVar(A)·Var(m)/Var(D) (`C98_confounded_plr_residual`, `C98_short_regression_refuted`). The oracle values of the confounding strength inherit this.
* make_irm_data_discrete_treatments (`datasets.py:1764-1798`): the effect is 15/(1+exp(-d-1.2cos d)) - 2 instead of the documented function, it applies to all treated rows instead of those with a positive continuous treatment, and `n_levels` levels give `n_levels + 1` treatments, the baseline with probability 1/`n_levels` (`C96_level_effect_refuted`, `C96_levels_refuted`).
* make_ssm_data (`datasets.py:1630-1631`, documentation `:1566`): the covariates enter the outcome without the factor d (`C96_sample_selection_refuted`). make_confounded_irm_data with `linear=True`: the effect is θ(Z5+1) with the standardised Z5, not X5 (`C96_confounded_irm_refuted`). make_did_SZ2020 as arrays: panel data have a fourth entry None (`C97_panel_arrays_refuted`). make_simple_rdd_data: the effect at a cutoff c is tau - c²/2 + acΣX (`C98_rdd_effect`, `C98_rdd_effect_refuted`).

## 5. Testing the theorems

`seeded/LOG.jsonl` has one line per wrong program. `tools/mutate.py` edits a scratch copy, replaces proofs that no longer go through by `Admitted` and asks `Print Assumptions` which property theorems now rest on them. Edits that broke nothing led to new theorems (`theorems_tightened`).

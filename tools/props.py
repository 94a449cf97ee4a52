#!/usr/bin/env python3
"""Writes /verif/properties.jsonl. One P(...) call per property."""
import json, os
OUT = os.path.join(os.path.dirname(os.path.abspath(__file__)), "..", "properties.jsonl")
rows = []
def P(id, title, statement, quantifier, why, anchors):
    rows.append(dict(id=id, title=title, statement=statement, quantifier=quantifier,
                     why_tests_cant=why, anchors=anchors))

# ---------------------------------------------------------------- sample splitting / cross-fitting
P("C01", "Accepted user-supplied sample splits are genuine cross-fitting partitions",
  "If set_sample_splitting accepts a split, then in every repetition the test sets contain every observation exactly once, every index is a valid row, sorted and unique, no observation is in both the train and the test part of a fold (except for the documented single-fold no-splitting form, where both parts are the full sample), and the reported n_rep and n_folds are the numbers of repetitions and folds supplied. Conversely every nested list with these properties is accepted, and a rejected split changes nothing.",
  "all sample sizes, all nested index lists (malformed ones included), all numbers of folds and repetitions",
  "The space of malformed nested index lists is unbounded; tests try a handful of literal splits.",
  ["doubleml/utils/_checks.py:_check_sample_splitting", "doubleml/utils/_checks.py:_check_all_smpls", "doubleml/utils/_checks.py:_check_is_partition", "doubleml/utils/_checks.py:_check_smpl_split_tpl", "doubleml/double_ml.py:DoubleML.set_sample_splitting"])
P("C02", "Internally drawn splits partition the sample with complementary train sets",
  "draw_sample_splitting with n_folds >= 2 yields, in each of the n_rep repetitions, n_folds test sets that together contain each observation exactly once, whose sizes differ by at most one, and whose train sets are exactly the complements.",
  "all n_obs >= n_folds >= 2, all n_rep, all shuffling permutations produced by the random generator",
  "The random permutation ranges over n! outcomes per repetition.",
  ["doubleml/utils/resampling.py:DoubleMLResampling", "doubleml/double_ml.py:DoubleML.draw_sample_splitting"])
P("C03", "Cluster splits never share a cluster between train and test",
  "For one- and two-way clustered data, the drawn test cells contain each observation exactly once; there are n_folds ** n_cluster_vars cells; and in no cell does a training observation share any cluster value (in any cluster dimension) with a test observation.",
  "all assignments of observations to clusters, all per-dimension fold partitions of the cluster values",
  "Depends on arbitrary unbalanced cluster incidence patterns, including empty cells.",
  ["doubleml/utils/resampling.py:DoubleMLClusterResampling.split_samples"])
P("C04", "Cross-fitted predictions are out-of-fold",
  "With a partition as sample split every observation receives exactly one prediction, produced by a learner instance fitted on the train part of the fold whose test part contains the observation; therefore changing the outcomes or features of observations in that test part (other than the predicted row's own features) cannot change its prediction.",
  "all learners (arbitrary fit/predict functions), all data sets, all partitions",
  "Leakage is a non-interference property over all pairs of data sets and all learners.",
  ["doubleml/utils/_estimation.py:_dml_cv_predict", "doubleml/utils/_estimation.py:_fit"])
P("C05", "Cross-fitting result does not depend on code path or fold schedule",
  "The predictions returned via the fast path (sklearn cross_val_predict) and via the manual path (used when models, train predictions, fold-specific parameters or fold-specific targets are requested) are equal, and neither depends on the order in which folds are processed (n_jobs).",
  "all deterministic learners, all partitions, all permutations of fold processing",
  "Quantifies over schedules and over all learners.",
  ["doubleml/utils/_estimation.py:_dml_cv_predict"])
P("C06", "Subgroup training never leaks across groups and never drops test rows",
  "When nuisance functions are fitted on a treatment/instrument/selection subgroup, the training rows of each fold are exactly the fold's training rows in the subgroup, the two subgroups partition the fold's training rows, and the test rows are untouched, so that every observation still receives a prediction.",
  "all binary group indicators, all splits",
  "All subgroup patterns, including folds without members of a group.",
  ["doubleml/utils/_estimation.py:_get_cond_smpls", "doubleml/utils/_estimation.py:_get_cond_smpls_2d"])
# ---------------------------------------------------------------- score / variance / aggregation
P("C07", "The coefficient of a linear score is the unique root of the empirical moment condition",
  "For every linear-score model the reported coefficient of each repetition makes the (cluster-weighted, for clustered data) empirical mean of the score zero, and no other value does, whenever the weighted mean of the score derivative is nonzero.",
  "all score vectors, all splits, clustered and non-clustered",
  "Holds as an algebraic law over all real vectors.",
  ["doubleml/double_ml_score_mixins.py:LinearScoreMixin._est_coef", "doubleml/double_ml.py:DoubleML._est_causal_pars"])
P("C08", "Variance estimates are non-negative, scale-invariant and consistent with the framework",
  "The estimated variance of each repetition is non-negative, does not change when the score is multiplied by a nonzero constant, and in the non-clustered case equals mean(scaled_psi^2)/n_obs, the expression the framework algebra recomputes; one-way clustering with every observation its own cluster and equally sized folds gives the same value as no clustering.",
  "all score vectors, all cluster assignments",
  "Algebraic law over all vectors; the clustered/non-clustered equivalence is never compared by tests for all inputs.",
  ["doubleml/utils/_estimation.py:_var_est", "doubleml/double_ml.py:DoubleML._se_causal_pars", "doubleml/double_ml.py:DoubleML.construct_framework"])
P("C09", "Aggregation over repetitions is a faithful median rule",
  "coef lies between the smallest and largest repetition estimate, se^2 is at least the median of the squared repetition standard errors, both are independent of the order of repetitions, equal to the repetition values when n_rep = 1, and equivariant under shifting (coef) and non-negative scaling (coef and se) of all repetitions.",
  "all n_rep >= 1, all repetition estimates and standard errors, all permutations",
  "Order independence and equivariance are universally quantified over reals and permutations.",
  ["doubleml/utils/_estimation.py:_aggregate_coefs_and_ses"])
P("C10", "Bracket search for nonlinear scores is sound and terminates",
  "The bracket handed to the root finder always lies inside the coefficient bounds; if the search reports success the score has opposite signs (or zero) at its ends; the search evaluates at most a fixed number of brackets.",
  "all score functions, all start values and bounds",
  "Quantifies over all real functions.",
  ["doubleml/utils/_estimation.py:_get_bracket_guess", "doubleml/double_ml_score_mixins.py:NonLinearScoreMixin._est_coef"])
# ---------------------------------------------------------------- framework algebra
P("C11", "Sum and difference of frameworks estimate the sum and difference",
  "For compatible frameworks f and g: every repetition estimate of f + g (f - g) is the sum (difference) of the repetition estimates; f + g and g + f agree in every reported quantity; f - g and g - f have opposite estimates and equal standard errors; f - f has estimates and standard errors zero.",
  "all pairs of compatible non-clustered frameworks",
  "Algebraic laws over all arrays of all shapes.",
  ["doubleml/double_ml_framework.py:DoubleMLFramework.__add__", "doubleml/double_ml_framework.py:DoubleMLFramework.__sub__"])
P("C12", "Scalar multiples are consistent with sums",
  "For a framework whose standard errors come from its own scores, f + f and 2 * f report the same estimates and standard errors, and (a + b) * f agrees with a * f + b * f for non-negative a, b.",
  "all well-formed non-clustered frameworks, all non-negative scalars",
  "Algebraic laws over all arrays.",
  ["doubleml/double_ml_framework.py:DoubleMLFramework.__mul__", "doubleml/double_ml_framework.py:DoubleMLFramework.__add__"])
P("C13", "Multiplying a framework by any scalar keeps standard errors non-negative and intervals ordered",
  "For every scalar c (negative ones included) the reported standard errors of c * f are |c| times those of f, and confidence intervals of c * f have lower end <= upper end.",
  "all frameworks, all scalars",
  "Sign handling must be right for every scalar and every array.",
  ["doubleml/double_ml_framework.py:DoubleMLFramework.__mul__", "doubleml/double_ml_framework.py:DoubleMLFramework.confint"])
P("C14", "Framework algebra on clustered data keeps cluster-robust standard errors",
  "For frameworks estimated on clustered data the standard errors of f + g are the cluster-robust ones of the summed score; in particular f + f and 2 * f report the same standard errors.",
  "all clustered frameworks",
  "Depends on arbitrary cluster structure; tests only compare non-clustered combinations.",
  ["doubleml/double_ml_framework.py:DoubleMLFramework.__add__", "doubleml/double_ml_framework.py:DoubleMLFramework.__sub__", "doubleml/utils/_estimation.py:_var_est"])
P("C15", "Concatenation preserves every component",
  "concat of a non-empty list of compatible frameworks reports, at position j, exactly the estimate, standard error, repetition estimates and scores of the corresponding input, in order; concatenation is associative; empty input, incompatible input and clustered input are rejected.",
  "all lists of frameworks",
  "All list lengths and component counts.",
  ["doubleml/double_ml_framework.py:concat"])
P("C16", "Framework operations are closed: results satisfy the constructor's shape contract",
  "A framework can be constructed exactly when the supplied arrays have mutually consistent shapes; every sum, difference, scalar multiple and concatenation of constructible compatible frameworks is again constructible with the expected dimensions, so chained operations never fail half-way, and incompatible operands always raise instead of producing a result.",
  "all finite expressions built from +, -, scalar * and concat over all frameworks",
  "Induction over all expressions; tests only build a few.",
  ["doubleml/double_ml_framework.py:DoubleMLFramework.__init__", "doubleml/double_ml_framework.py:DoubleMLFramework._check_framework_shapes", "doubleml/utils/_checks.py:_check_framework_compatibility"])
# ---------------------------------------------------------------- inference
P("C17", "Confidence intervals contain the estimate, are ordered and nested in the level",
  "With non-negative standard errors, for every level the reported pointwise interval is ordered and contains the reported estimate, a higher level gives an interval containing the lower-level one, and with one repetition the interval is symmetric around the estimate. The same holds for joint intervals.",
  "all frameworks, all levels in (0,1), all n_rep",
  "Universally quantified over arrays, levels, repetitions; relies on monotonicity of the median.",
  ["doubleml/double_ml_framework.py:DoubleMLFramework.confint"])
P("C18", "Joint confidence intervals require a bootstrap and use the maximal statistic",
  "Joint intervals are refused before a bootstrap has been run; afterwards, in every repetition, more than level * (n_rep_boot - 1) of the n_rep_boot bootstrap draws have all their |t|-statistics at or below the critical value and at least (1 - level) * (n_rep_boot - 1) draws have some |t|-statistic at or above it (numpy's interpolated quantile), and the joint critical value is at least the one obtained from any single coefficient's draws.",
  "all bootstrap samples, all levels",
  "Empirical coverage of the sup-t quantile for every sample and level.",
  ["doubleml/double_ml_framework.py:DoubleMLFramework.confint", "doubleml/double_ml_framework.py:DoubleMLFramework.bootstrap"])
P("C19", "Multiplier bootstrap statistics are scale-free and leave estimates untouched",
  "The bootstrap t-statistics do not change when a framework is multiplied by a positive scalar, they are linear in the multiplier weights, have shape (n_rep_boot, n_thetas, n_rep), and running a bootstrap changes no estimate or standard error; clustered frameworks and invalid methods/repetition counts are rejected without effect.",
  "all frameworks, all weights, all positive scalars",
  "Algebraic law over arbitrary random weights.",
  ["doubleml/double_ml_framework.py:DoubleMLFramework.bootstrap", "doubleml/utils/_checks.py:_check_bootstrap"])
P("C20", "Romano-Wolf adjusted p-values are valid p-values in stepdown order",
  "p_adjust with the Romano-Wolf method returns one p-value per coefficient; within a repetition each lies in [0,1], coefficients with larger |t| never get a larger p-value, no adjusted p-value is below the unadjusted bootstrap p-value of the same coefficient, and values are returned in the order of the coefficients (not the sorted order). Reported p-values stay in [0,1].",
  "all t-statistics (ties included), all bootstrap samples, all numbers of coefficients",
  "Ordering/permutation bookkeeping must be right for every permutation.",
  ["doubleml/double_ml_framework.py:DoubleMLFramework.p_adjust"])
P("C21", "p-values and confidence intervals agree; model and framework report the same p-value",
  "For one repetition: the reported p-value is below 1 - level exactly when the level-interval excludes zero. The p-values reported by a fitted model and by its framework are equal.",
  "all estimates and standard errors, all levels, all n_rep",
  "Duality over all reals; model/framework agreement over all n_rep.",
  ["doubleml/double_ml_framework.py:DoubleMLFramework.pvals", "doubleml/double_ml.py:DoubleML.pval", "doubleml/double_ml_framework.py:DoubleMLFramework.confint"])
# ---------------------------------------------------------------- sensitivity
P("C22", "Sensitivity bounds bracket the estimate and widen with confounding",
  "The lower/upper sensitivity bounds enclose the estimate, coincide with it when cf_y = 0, cf_d = 0 or rho = 0, widen monotonically in cf_y, cf_d and |rho|, do not depend on the sign of rho, and the sensitivity confidence bounds enclose the sensitivity bounds for level >= 1/2.",
  "all frameworks with sensitivity elements, all admissible cf_y, cf_d, rho, level",
  "Monotonicity over continuous parameters and all arrays.",
  ["doubleml/double_ml_framework.py:DoubleMLFramework._calc_sensitivity_analysis"])
P("C23", "Invalid sensitivity inputs are rejected and leave earlier results in place",
  "sensitivity_analysis accepts exactly cf_y, cf_d in [0,1), rho in [-1,1], level in (0,1) (all floats) and a float or correctly shaped null hypothesis; any rejected call leaves the stored sensitivity results unchanged; robustness values always lie in [0, 1).",
  "all argument values, all call histories",
  "Histories of accepted and rejected calls.",
  ["doubleml/double_ml_framework.py:DoubleMLFramework.sensitivity_analysis", "doubleml/double_ml_framework.py:DoubleMLFramework._calc_robustness_value"])
P("C24", "Sensitivity of combined effects is conservative",
  "The maximal bias reported for f + g and for f - g is the sum of the two maximal biases, and for c * f it is |c| times that of f, so the sensitivity bounds of a combination contain every value obtainable by combining values inside the individual bounds (computed with the same confounding parameters).",
  "all frameworks with sensitivity elements, all scalars, one repetition (per-repetition for several)",
  "Interval-arithmetic law over all reals.",
  ["doubleml/double_ml_framework.py:DoubleMLFramework.__add__", "doubleml/double_ml_framework.py:DoubleMLFramework.__sub__", "doubleml/double_ml_framework.py:DoubleMLFramework.__mul__"])
P("C25", "Benchmark statistics are in range",
  "sensitivity_benchmark/gain_statistics return cf_y, cf_d in [0,1], rho in [-1,1] with the sign of delta_theta in each repetition, delta_theta the difference short minus long, and cf_y = cf_d = 0 and delta_theta = 0 when both models coincide.",
  "all sensitivity elements of all shapes",
  "Degenerate (zero or negative gain) cases for all reals.",
  ["doubleml/utils/gain_statistics.py:gain_statistics"])
P("C26", "Sensitivity elements of the partially linear model are internally consistent",
  "For the fitted PLR model: nu2 equals the mean squared Riesz representer, the influence components of sigma2 and nu2 average to zero, and max_bias is the geometric mean sqrt(sigma2 * nu2).",
  "all data, all nuisance predictions with nonzero treatment residual variance",
  "Algebraic identity over all vectors.",
  ["doubleml/plm/plr.py:DoubleMLPLR._sensitivity_element_est", "doubleml/utils/_sensitivity.py"])
P("C27", "Non-positive nu2 estimates are repaired for every repetition",
  "After fit, for each treatment the reported nu2 is non-negative in all repetitions; if any repetition had a non-positive estimate, all repetitions of that treatment report the mean squared Riesz representer (with mean-zero influence function), and all other treatments keep their estimates.",
  "all sensitivity arrays",
  "Arbitrary sign patterns across treatments and repetitions.",
  ["doubleml/double_ml.py:DoubleML._validate_sensitivity_elements"])
# ---------------------------------------------------------------- propensities
P("C28", "Trimming bounds propensities and respects treatment symmetry",
  "After trimming with threshold t every propensity lies in [t, 1-t], values already inside are unchanged, trimming twice equals trimming once, trimming is monotone, and trimming 1-m equals one minus trimming m (so the effect does not depend on which arm is called treated); inverse weights are bounded by 1/t.",
  "all propensity vectors, all thresholds in (0, 1/2)",
  "Boundary behaviour for all reals.",
  ["doubleml/utils/_propensity_score.py:_trimm", "doubleml/utils/_checks.py:_check_trimming"])
P("C29", "Normalized inverse-probability weights average to one",
  "With normalize_ipw=True the inverse-probability weights used in the score average to exactly one in each arm for every model that offers the option.",
  "all treatment/instrument/selection vectors with both arms present, all propensities strictly inside (0,1)",
  "Algebraic identity over all vectors; wrong arm variables are invisible when d = z in test data.",
  ["doubleml/utils/_propensity_score.py:_normalize_ipw", "doubleml/irm/irm.py:DoubleMLIRM._score_elements", "doubleml/irm/iivm.py:DoubleMLIIVM._score_elements", "doubleml/irm/ssm.py:DoubleMLSSM._score_elements"])
# ---------------------------------------------------------------- data backend
P("C30", "Variable roles stay disjoint",
  "In every state of a data object reached by construction and any sequence of successful assignments of y_col, d_cols, x_cols, z_cols, t_col, s_col (and cluster_cols), the columns used as outcome, treatments, covariates, instruments, time, selection (and clusters) are pairwise disjoint, duplicate-free and exist in the data.",
  "all column sets, all sequences of setter calls",
  "Unbounded histories of setter calls.",
  ["doubleml/double_ml_data.py:DoubleMLData", "doubleml/double_ml_data.py:DoubleMLClusterData"])
P("C31", "A rejected role assignment leaves the data object unchanged",
  "If assigning a role (y_col, d_cols, x_cols, ...) raises, the object is in the same state as before.",
  "all states, all assignments",
  "All failure points in all histories.",
  ["doubleml/double_ml_data.py:DoubleMLData.x_cols", "doubleml/double_ml_data.py:DoubleMLData.d_cols", "doubleml/double_ml_data.py:DoubleMLData.y_col"])
P("C32", "Default covariates are exactly the remaining columns",
  "When no covariates are named, the covariates are all columns that have no other role, in data order.",
  "all column lists and role choices",
  "All column configurations.",
  ["doubleml/double_ml_data.py:DoubleMLData.x_cols", "doubleml/double_ml_data.py:DoubleMLClusterData.x_cols"])
P("C33", "Features of the active treatment never contain outcome or the active treatment",
  "When a model iterates over several treatments, the feature columns handed to the learners for treatment d_j are the covariates plus (only if use_other_treat_as_covariate) all other treatments; they never include d_j, the outcome, instrument, time, selection or cluster columns.",
  "all reachable data objects, all treatments",
  "All reachable states.",
  ["doubleml/double_ml_data.py:DoubleMLData.set_x_d"])
P("C34", "Binary-treatment and binary-outcome information is current",
  "binary_treats and binary_outcome describe the columns currently assigned as treatments and outcome.",
  "all histories of assignments",
  "Staleness only appears after particular histories.",
  ["doubleml/double_ml_data.py:DoubleMLData.binary_treats", "doubleml/double_ml_data.py:DoubleMLData.binary_outcome", "doubleml/double_ml_data.py:DoubleMLData.d_cols"])
P("C35", "Building from arrays round-trips",
  "A data object built from arrays returns the same outcome, treatment, covariate, instrument, time and selection values, under generated names that are distinct and disjoint across roles.",
  "all array shapes with consistent length",
  "All numbers of columns (name generation).",
  ["doubleml/double_ml_data.py:DoubleMLData.from_arrays"])
# ---------------------------------------------------------------- model life cycle
P("C36", "Inference is refused before estimation",
  "bootstrap, confint, p_adjust, sensitivity analysis and summaries raise or report empty results until fit has succeeded; after a successful fit they operate on that fit.",
  "all call sequences on a model object",
  "Unbounded call histories.",
  ["doubleml/double_ml.py:DoubleML.bootstrap", "doubleml/double_ml.py:DoubleML.confint", "doubleml/double_ml.py:DoubleML.p_adjust", "doubleml/double_ml.py:DoubleML.sensitivity_analysis"])
P("C37", "Fit is history-independent",
  "For a model with a linear score and deterministic learners, the estimates, standard errors and framework after fit() depend only on data, learners, parameters and current sample split, not on earlier fits, bootstraps or sensitivity analyses.",
  "all call histories",
  "Unbounded histories.",
  ["doubleml/double_ml.py:DoubleML.fit", "doubleml/double_ml.py:DoubleML._initalize_fit", "doubleml/irm/pq.py:DoubleMLPQ._nuisance_est"])
P("C38", "A framework obtained from a model is an immutable snapshot",
  "A framework read from a fitted model keeps reporting the results of that fit when the model is fitted again or its sample split is changed.",
  "all call histories",
  "Aliasing shows only after particular histories.",
  ["doubleml/double_ml.py:DoubleML.construct_framework", "doubleml/double_ml.py:DoubleML._initialize_arrays"])
P("C39", "Results always belong to the current sample split",
  "After set_sample_splitting or draw_sample_splitting, a model never reports estimates, predictions or intervals computed with an earlier split.",
  "all call histories",
  "Staleness only appears after particular histories.",
  ["doubleml/double_ml.py:DoubleML.set_sample_splitting", "doubleml/double_ml.py:DoubleML.draw_sample_splitting", "doubleml/double_ml.py:DoubleML._initalize_fit"])
P("C40", "Externally set cluster splits are validated in full",
  "For clustered data, set_sample_splitting accepts a cluster split only if in every fold of every repetition the train and test clusters of each dimension are disjoint and cover all clusters; the variance estimate then uses the number of folds of the accepted split.",
  "all nested cluster splits",
  "All malformed entries at any position of the nested list.",
  ["doubleml/utils/_checks.py:_check_cluster_sample_splitting", "doubleml/double_ml.py:DoubleML.set_sample_splitting"])
P("C41", "Nuisance parameters set are the parameters used",
  "set_ml_nuisance_params(learner, treatment, params) makes exactly params available for that learner and treatment in every repetition and fold, and changes no other learner or treatment; unknown learners or treatments and lists of wrong length are rejected without effect.",
  "all learners, treatments, parameter dictionaries, n_rep, n_folds",
  "Frame property over all dictionaries.",
  ["doubleml/double_ml.py:DoubleML.set_ml_nuisance_params", "doubleml/double_ml.py:DoubleML.get_params"])
P("C42", "Fold-wise tuning results are kept per treatment and repetition",
  "tune with tune_on_folds=True returns, for each treatment and each repetition, the tuning result of that treatment and repetition, for all numbers of treatments and repetitions.",
  "all n_treat, n_rep",
  "Index bookkeeping for all dimension combinations.",
  ["doubleml/double_ml.py:DoubleML.tune"])
P("C43", "External predictions are used verbatim",
  "If external predictions for a nuisance function of a treatment and repetition are supplied, estimation uses exactly these predictions (no learner is fitted for it), independent of the learner; an accepted dictionary never makes fit fail with a missing key.",
  "all dictionaries accepted by the validation, all models supporting external predictions",
  "All subsets of treatments and learners.",
  ["doubleml/utils/_estimation.py:_set_external_predictions", "doubleml/utils/_checks.py:_check_external_predictions", "doubleml/irm/lpq.py:DoubleMLLPQ._nuisance_est", "doubleml/plm/pliv.py:DoubleMLPLIV._nuisance_est"])
P("C44", "Multi-level models use the sample split they report",
  "After drawing or setting a split on the multi-level APO or the quantile-effect model, all sub-models are estimated with exactly that split, so contrasts between levels are computed on identical folds.",
  "all call histories of draw/set/fit",
  "Histories.",
  ["doubleml/irm/apos.py:DoubleMLAPOS.draw_sample_splitting", "doubleml/irm/apos.py:DoubleMLAPOS.set_sample_splitting", "doubleml/irm/qte.py:DoubleMLQTE.draw_sample_splitting"])
P("C45", "Causal contrasts enumerate each pair of levels exactly once",
  "causal_contrast(reference_levels) for distinct reference levels returns exactly one contrast for each unordered pair {level, reference}, no self-contrast, named 'level vs reference' in matching order, and equal to the difference of the two potential-outcome estimates.",
  "all lists of levels and reference levels",
  "Combinatorial enumeration for all lists.",
  ["doubleml/irm/apos.py:DoubleMLAPOS.causal_contrast"])
# ---------------------------------------------------------------- estimator scores
P("C46", "The interactive model's effect is the mean of its doubly robust signal",
  "IRM estimates equal the average of the doubly robust signal; the ATE estimate is the difference of the two average-potential-outcome estimates computed with the same nuisance predictions; with one-hot subgroup weights it is the subgroup mean of the signal; swapping treatment labels (and nuisance functions accordingly) flips the sign.",
  "all data and nuisance predictions",
  "Algebraic identity over all vectors.",
  ["doubleml/irm/irm.py:DoubleMLIRM._score_elements", "doubleml/irm/apo.py:DoubleMLAPO._score_elements"])
P("C47", "Partially linear IV reduces to partially linear regression when the treatment is its own instrument",
  "With Z = D and the instrument nuisance equal to the treatment nuisance, PLIV and PLR give identical estimates and standard errors for both score types; PLR is exactly recovered in a noiseless partially linear model.",
  "all data and nuisance predictions",
  "Algebraic identity over all vectors.",
  ["doubleml/plm/plr.py:DoubleMLPLR._score_elements", "doubleml/plm/pliv.py:DoubleMLPLIV._score_elements"])
P("C48", "Interactive IV reduces to the interactive model under full compliance",
  "With Z = D and without always- and never-takers, IIVM (no normalization) reports the IRM ATE estimate; the compliance share estimate is then one.",
  "all data and nuisance predictions",
  "Algebraic identity over all vectors.",
  ["doubleml/irm/iivm.py:DoubleMLIIVM._score_elements", "doubleml/irm/irm.py:DoubleMLIRM._score_elements"])
P("C49", "Difference-in-differences weights are balanced",
  "For the in-sample normalized DID and repeated cross-section scores the residual weights of the treated and of the controls each average to one (with opposite signs), so estimates are invariant to adding a constant to all outcomes and all outcome predictions.",
  "all data with both groups present, all propensities in (0,1)",
  "Algebraic identity over all vectors.",
  ["doubleml/did/did.py:DoubleMLDID._score_elements", "doubleml/did/did_cs.py:DoubleMLDIDCS._score_elements"])
P("C50", "Quantile scores are monotone and CVaR dominates the quantile",
  "The potential-quantile score is non-decreasing in the candidate quantile, non-positive below all outcomes and non-negative above all (for consistent weights), and the CVaR target is never below the quantile.",
  "all data, all quantiles in (0,1)",
  "Monotonicity over all reals.",
  ["doubleml/irm/pq.py:DoubleMLPQ._compute_score", "doubleml/irm/cvar.py:DoubleMLCVAR._score_elements", "doubleml/irm/lpq.py:DoubleMLLPQ._compute_score"])
# ---------------------------------------------------------------- utilities
P("C51", "Subgroup effects: best linear predictor intervals have the requested level",
  "The best-linear-predictor (CATE/GATE) confidence interval at `level` uses the two-sided normal quantile for that level for the coefficients, and the joint interval's critical value is the `level` quantile over bootstrap draws of the maximal statistic.",
  "all levels, all bootstrap samples",
  "Quantile levels and axes for all inputs.",
  ["doubleml/utils/blp.py:DoubleMLBLP.confint"])
P("C52", "Documented integer group dummies are accepted",
  "gate/gapo accept a group data frame whose columns are all boolean or all integer dummies, whatever the number of columns.",
  "all group data frames",
  "All column type combinations.",
  ["doubleml/plm/plr.py:DoubleMLPLR.gate", "doubleml/irm/irm.py:DoubleMLIRM.gate", "doubleml/irm/apo.py:DoubleMLAPO.gapo"])
P("C53", "RDD kernel weights and adjustment",
  "Kernel weights lie in [0,1], vanish outside the bandwidth, are symmetric in the score and non-increasing in its distance; the covariate adjustment function is the average of the left and right cross-fitted fits, irrespective of the numeric type of the outcome or treatment column.",
  "all scores, bandwidths > 0, all column types",
  "Boundary and dtype behaviour for all inputs.",
  ["doubleml/rdd/rdd.py:RDFlex._fit_nuisance_model", "doubleml/rdd/rdd.py:RDFlex._initialize_kernel"])
P("C54", "Policy tree targets are binary and weighted by the signal",
  "The policy tree is trained on labels indicating a positive signal with the absolute signal as weight, so the weighted classification error differs from the (negative) policy value only by a constant.",
  "all signals",
  "Algebraic law over all vectors; zero signals.",
  ["doubleml/utils/policytree.py:DoubleMLPolicyTree.fit"])
P("C55", "Weighted effects use admissible weights only",
  "Weights are accepted only if non-negative, of the sample length and not all zero (and, as a dictionary, with weights_bar of shape (n_obs, n_rep)); for the ATTE additionally only 0/1 weights as an array. With accepted weights the score's derivative averages to minus one, so the estimate is a proper weighted average of signals.",
  "all weight arrays/dictionaries",
  "All malformed inputs.",
  ["doubleml/utils/_checks.py:_check_weights", "doubleml/irm/irm.py:DoubleMLIRM._get_weights"])
P("C56", "Learner evaluation scores the current predictions only",
  "Reported nuisance losses and evaluate_learners results are computed from the predictions of the last fit, per treatment, learner and repetition, ignoring unavailable targets.",
  "all call histories",
  "Histories with different storage options.",
  ["doubleml/double_ml.py:DoubleML.evaluate_learners", "doubleml/double_ml.py:DoubleML._calc_nuisance_loss"])
P("C57", "A successful fit reports the score results of the current split",
  "After fit returns, the coefficients, standard errors, scaled scores, losses and (if requested) stored predictions of the model and of its framework are, for every treatment and repetition, exactly those determined by the nuisance results of that treatment and repetition on the current sample split: the estimate is the root of the averaged score, the standard error the square root of the variance estimate, the aggregate the median rule.",
  "all reachable objects, all arguments of fit, all numbers of treatments and repetitions",
  "End-to-end statement over every call history, learner behaviour and split.",
  ["doubleml/double_ml.py:DoubleML.fit", "doubleml/double_ml.py:DoubleML.construct_framework"])
P("C58", "Every sample split a model ever holds is valid",
  "After construction and any sequence of method calls (successful or failing), with random generators that permute, the sample split of the model has one entry per repetition; in each entry the test sets partition the observations and no train set contains an observation of its test set (except for the documented no-splitting form); without clusters each entry has the reported number of folds.",
  "all call histories",
  "Histories of draws, user-supplied splits, fits and failures.",
  ["doubleml/double_ml.py:DoubleML.draw_sample_splitting", "doubleml/double_ml.py:DoubleML.set_sample_splitting"])
P("C59","The reported Riesz representer is the weight of the outcome in the score",
"For the models with sensitivity support, the Riesz representer in the sensitivity elements is the weight with which each row's outcome enters the score (scaled to derivative minus one), so the reported nu2 measures the variability of those weights.",
"all data, all nuisance predictions, all score options of PLR, IRM, APO, DID and DIDCS",
"Sign and scale errors in one option combination only show up on data where that component matters.",
["doubleml/plm/plr.py:DoubleMLPLR._sensitivity_element_est","doubleml/irm/irm.py:DoubleMLIRM._sensitivity_element_est","doubleml/irm/apo.py:DoubleMLAPO._sensitivity_element_est","doubleml/did/did.py:DoubleMLDID._sensitivity_element_est","doubleml/did/did_cs.py:DoubleMLDIDCS._sensitivity_element_est"])

P("C60","Contrast sensitivity bounds are no wider than those of the difference",
  "The maximal-bias bound reported for a causal contrast (apos.py: 'sharper bounds') is never larger than the bound of subtracting the two levels' estimates.",
  "all pairs of fitted levels, all sensitivity elements",
  "Inequality over all reals.",
  ["doubleml/irm/apos.py:DoubleMLAPOS._compute_causal_contrast_sensitivity_dict"])

P("C61","Sensitivity elements of interactive and difference-in-differences models are the documented plug-in estimates",
  "For IRM, APO, DID and DIDCS, sigma2 is the mean squared residual of the prediction for the observed arm, nu2 is the debiased estimate mean(2*m(alpha) - alpha^2) of the second moment of the Riesz representer alpha of the target functional m, their influence components are the row-wise deviations, and the influence component of max_bias is the derivative of sqrt(sigma2*nu2).",
  "all samples, nuisance predictions, weights and score variants",
  "Algebra over all real inputs; tests compare with a copy of the same formula.",
  ["doubleml/irm/irm.py:DoubleMLIRM._sensitivity_element_est","doubleml/irm/apo.py:DoubleMLAPO._sensitivity_element_est","doubleml/did/did.py:DoubleMLDID._sensitivity_element_est","doubleml/did/did_cs.py:DoubleMLDIDCS._sensitivity_element_est","doubleml/utils/_sensitivity.py:_compute_sensitivity_bias"])

P("C62","Difference-in-differences group shares are cross-fitted",
  "In the difference-in-differences scores the unconditional treatment (and period) share used for a row is the share among the training rows of the fold in which the row is predicted.",
  "all sample splits, all treatment vectors",
  "All partitions.",
  ["doubleml/did/did.py:DoubleMLDID._nuisance_est","doubleml/did/did_cs.py:DoubleMLDIDCS._nuisance_est"])

P("C63","Group effects are group means and aggregate to the overall effect",
  "For mutually exclusive groups the reported group effects (gate/gapo) are the group means of the orthogonal signal with heteroskedasticity-robust standard errors computed within the group, and the size-weighted average over exhaustive groups equals the reported average effect; for the partially linear model they are within-group residual-on-residual coefficients whose average weighted by residual treatment variation equals the reported coefficient, for both scores.",
  "all samples, all group frames, all numbers of groups","Algebraic identity over all samples and partitions.",
  ["doubleml/irm/irm.py:DoubleMLIRM.gate","doubleml/irm/apo.py:DoubleMLAPO.gapo","doubleml/plm/plr.py:DoubleMLPLR.gate","doubleml/plm/plr.py:DoubleMLPLR._partial_out","doubleml/utils/blp.py:DoubleMLBLP.fit"])
P("C64","Regression discontinuity fits are reproducible and aggregated by the median rule",
  "RDFlex.fit: each repetition's final estimate is the local-polynomial result on the outcome (and treatment) minus the cross-fitted adjustment computed with kernel weights of the iterated bandwidth; coefficients are medians over repetitions, standard errors add the scaled deviation from the median; what is reported depends only on the last accepted fit; intervals contain the estimate and are nested in the level, are refused before a fit, and the bandwidth used is reported.",
  "all data, learners, bandwidth selectors, numbers of iterations and repetitions, all call sequences","Histories and arbitrary learners.",
  ["doubleml/rdd/rdd.py:RDFlex.fit","doubleml/rdd/rdd.py:RDFlex.confint","doubleml/rdd/rdd.py:RDFlex.aggregate_over_splits"])
P("C65","The local quantile model contains the quantile model",
  "Under full compliance (instrument equal to treatment) the local potential quantile score, its preliminary score and the estimated complier share reduce to those of the potential quantile model, and relabelling treatment and instrument together only swaps the two treatment levels. In general the score is the ratio of the instrument's doubly robust effect on the event to its doubly robust effect on the treatment, minus the quantile.",
  "all data, predictions, quantiles, thresholds","Identities over all reals.",
  ["doubleml/irm/lpq.py:DoubleMLLPQ._compute_score","doubleml/irm/pq.py:DoubleMLPQ._compute_score"])
P("C66","Nested cross-fitting of quantile models does not look at held-out rows",
  "In the potential quantile, local quantile and CVaR models the nuisance predictions of a held-out row depend only on the data of the training part of its fold and on its own features; propensities supplied by the user are used for the rows they were supplied for.",
  "all data, learners, splits, minimisers","Arbitrary learners and data; leakage is not visible in results.",
  ["doubleml/irm/pq.py:DoubleMLPQ._nuisance_est","doubleml/irm/cvar.py:DoubleMLCVAR._nuisance_est","doubleml/irm/lpq.py:DoubleMLLPQ._nuisance_est"])
P("C67","Refitting a quantile model reproduces it",
  "Calling fit again on an unchanged quantile or CVaR model with deterministic learners and the same splits returns the same predictions and estimate.",
  "all data, learners, splits, numbers of fits","History dependence.",
  ["doubleml/irm/pq.py:DoubleMLPQ._nuisance_est","doubleml/irm/cvar.py:DoubleMLCVAR._nuisance_est","doubleml/irm/lpq.py:DoubleMLLPQ._nuisance_est"])
P("C68","The arrays of a data object are the columns its role attributes name",
  "After construction and any sequence of successful assignments, the values of y, d, z, t, s and cluster_vars are the data columns named by y_col, the active treatment in d_cols, z_cols, t_col, s_col and cluster_cols.",
  "all frames, all sequences of assignments","The attributes and the cached values are written by different statements; a stale copy shows only after particular histories.",
  ["doubleml/double_ml_data.py:DoubleMLData._set_y_z_t_s","doubleml/double_ml_data.py:DoubleMLData.set_x_d","doubleml/double_ml_data.py:DoubleMLClusterData._set_cluster_vars"])
P("C69","Only numbers reach the learners",
  "In every state reached by successful assignments the outcome, active treatment, instrument, time, selection and cluster values contain no missing or infinite value, and the features contain only what force_all_x_finite allows.",
  "all frames, all sequences of assignments","All placements of missing values and all orders of assignments.",
  ["doubleml/double_ml_data.py:DoubleMLData._set_y_z_t_s","doubleml/double_ml_data.py:DoubleMLData.set_x_d"])
P("C70","Tuned hyperparameters are the ones used in the next fit",
  "After a successful tune with set_as_params=True, the parameters stored for each tuned learner, treatment, repetition and fold are those found for that treatment, repetition and fold (for full-sample tuning: the one found set, in every repetition and fold); the next fit hands exactly these to the nuisance estimation. Without set_as_params nothing changes, tune never touches estimates or splits, and a call that raises leaves the parameters as they were.",
  "all numbers of treatments, repetitions and folds, all tuning outcomes, all reachable model states","All dimension combinations and failure points.",
  ["doubleml/double_ml.py:DoubleML.tune","doubleml/double_ml.py:DoubleML.set_ml_nuisance_params","doubleml/double_ml.py:DoubleML.fit"])
P("C71","Fold-wise tuning does not look at held-out rows",
  "With tune_on_folds=True the hyperparameters used for a fold do not depend on the rows that fold tests on, so tuning followed by cross-fitting keeps every prediction independent of the outcome of its own row.",
  "all data sets, all splits, all search oracles, all learners","Independence is a statement about pairs of arbitrary data sets.",
  ["doubleml/utils/_estimation.py:_dml_tune","doubleml/plm/plr.py:DoubleMLPLR._nuisance_tuning","doubleml/irm/irm.py:DoubleMLIRM._nuisance_tuning","doubleml/irm/pq.py:DoubleMLPQ._nuisance_tuning"])
P("C72","Each nuisance function is cross-fitted on its documented target, features and subsample",
  "In every model class (PLR, PLIV in its four variants, IRM, APO, IIVM, DID, DIDCS, SSM) each nuisance prediction used in the score is, for every row, the prediction of a clone of the learner with that fold's parameters, fitted on the training rows of the row's own fold (restricted to the documented subgroup) with the documented target and covariates; propensities are trimmed to [threshold, 1-threshold]; the score elements are the documented functions of exactly these predictions. Externally supplied predictions replace the fit.",
  "all data, splits that partition the rows, row-wise learners, parameter settings, job schedules, external predictions",
  "Tests compare against re-implementations on simulated data with a few learners; a swapped subsample or feature set moves estimates only slightly.",
  ["doubleml/plm/plr.py::_nuisance_est","doubleml/plm/pliv.py::_nuisance_est","doubleml/irm/irm.py::_nuisance_est","doubleml/irm/apo.py::_nuisance_est","doubleml/irm/iivm.py::_nuisance_est","doubleml/did/did.py::_nuisance_est","doubleml/did/did_cs.py::_nuisance_est","doubleml/irm/ssm.py::_nuisance_est"])
P("C73","A row's own outcome and treatment never influence its own nuisance predictions",
  "Changing the outcome, treatment or instrument of one row leaves the nuisance predictions reported for that row unchanged, for every split whose train parts avoid their test parts.",
  "all data pairs that differ in one row, all splits with disjoint train and test parts, all row-wise learners",
  "Leakage through a first-stage estimate changes predictions by O(1/n) and passes any tolerance-based test.",
  ["doubleml/plm/plr.py::_nuisance_est","doubleml/plm/pliv.py::_nuisance_est_partial_x","doubleml/irm/irm.py::_nuisance_est","doubleml/irm/ssm.py::_nuisance_est"])
P("C74","Reported nuisance targets are the outcome on exactly the rows the function is for",
  "The targets against which nuisance losses are computed are the outcome of the nuisance function on the rows of its subgroup and missing elsewhere.",
  "all data, splits, learners of the model classes",
  "Tests check that losses are finite, not which rows they average over.",
  ["doubleml/utils/_estimation.py::_cond_targets","doubleml/irm/irm.py::_nuisance_est","doubleml/irm/apo.py::_nuisance_est","doubleml/did/did.py::_nuisance_est","doubleml/irm/ssm.py::_nuisance_est"])
P("C75","A fitted model reports the documented estimator of the cross-fitted nuisances",
  "After any history of calls, a successful fit() of any model with a linear score (partially linear regression and its IV-type score, partially linear IV with one or several instruments and its partialled-out variants, interactive regression for weighted average effects and effects on the treated, average potential outcomes, local effects, both difference-in-differences models, both sample selection models) reports, for every repetition and treatment, the documented estimator (a ratio of sums of residual products or the mean doubly robust signal) evaluated at the predictions cross-fitted under the object's current split and parameters, or supplied by the user, with the heteroskedasticity-robust standard error of that estimator. With clustered data it is the fold-weighted estimator with the multiway cluster-robust standard error.",
  "all data, constructor arguments, admissible weights, histories of method calls, splits drawn by any permuting generator, learners, external predictions",
  "No test can range over call histories and splits; the end-to-end value is checked only against reference implementations for fixed seeds.",
  ["doubleml/double_ml.py::DoubleML.fit","doubleml/plm/plr.py","doubleml/plm/pliv.py","doubleml/irm/irm.py","doubleml/irm/apo.py","doubleml/irm/iivm.py","doubleml/irm/ssm.py","doubleml/did/did.py","doubleml/did/did_cs.py","doubleml/utils/_estimation.py::_dml_cv_predict"])

P("C76","A quantile or CVaR fit does what its documentation says",
  "In the potential quantile, local potential quantile and CVaR models every reported prediction of a row comes from the row's own fold: the preliminary quantile minimises the inverse-probability-weighted moment on one half of the training part, with propensities cross-fitted within that half; the outcome functions are fitted on the other half (in the documented arm) with targets made from that preliminary quantile; the final propensities use the whole training part. The reported quantile lies within the range of the outcome and, if no warning was given, is within the solver's tolerance of the value at which the weighted, bias-corrected share of outcomes crosses the requested quantile (for the local model: a sign change of the Wald ratio of doubly robust effects). The reported CVaR is the weighted mean excess formula at the mean of the preliminary quantiles plus the bias correction.",
  "all data, row-wise learners, splits, inner splits, minimisers, root finders with a tolerance",
  "The code is a nest of splits, fits and optimisers; tests compare a few seeds with a re-implementation that copies the same structure.",
  ["doubleml/irm/pq.py::_nuisance_est","doubleml/irm/cvar.py::_nuisance_est","doubleml/irm/lpq.py::_nuisance_est","doubleml/double_ml_score_mixins.py::NonLinearScoreMixin._est_coef"])

P("C77","Class labels in place of probabilities are refused",
  "If the treatment of a partially linear model is binary, or the outcome of an interactive, potential-outcome or local-effect model is binary, estimation is refused whenever all propensity (outcome) predictions are 0 or 1, whether they come from a learner or from the user; otherwise, with predictions supplied by the user, nothing is refused.",
  "all data, learners, splits and external predictions",
  "A test can show one refused array; that nothing slips through on any path needs all learners and all arrays.",
  ["doubleml/utils/_checks.py::_check_binary_predictions","doubleml/plm/plr.py::_nuisance_est","doubleml/irm/irm.py::_nuisance_est","doubleml/irm/apo.py::_nuisance_est","doubleml/irm/iivm.py::_nuisance_est"])

P("C78","With complete external predictions no learner matters",
  "If external predictions are supplied for all nuisance functions a score uses, the estimation result is the same for any two learners, hyperparameters, prediction methods and parallel schedules.",
  "all data, splits, external predictions and all pairs of learners",
  "Universally quantified over pairs of learners.",
  ["doubleml/plm/plr.py::_nuisance_est","doubleml/plm/pliv.py::_nuisance_est_partial_x","doubleml/irm/irm.py::_nuisance_est","doubleml/irm/apo.py::_nuisance_est","doubleml/irm/iivm.py::_nuisance_est","doubleml/did/did.py::_nuisance_est","doubleml/did/did_cs.py::_nuisance_est"])

P("C79","A fit succeeds whenever its learners can be trained",
  "If every learner accepts its parameters and any non-empty training set, every train part contains a row of each subgroup (and all of at least two labels for a classifier), and predictions for a binary variable are not class labels, then nuisance estimation raises no error and fit() without external predictions succeeds in every state reached by method calls that has a sample split.",
  "all data, learners, fold-wise or common parameters, splits, schedules, call histories",
  "The absence of spurious errors ranges over all splits, learners and histories.",
  ["doubleml/double_ml.py::DoubleML.fit","doubleml/utils/_estimation.py::_dml_cv_predict","doubleml/utils/_checks.py::_check_finite_predictions","doubleml/plm/plr.py","doubleml/irm/irm.py"])

P("C80","Sensitivity elements reported after a fit belong to that fit",
  "After any history of calls, a successful fit() of a partially linear, interactive, potential-outcome or difference-in-differences model reports sensitivity elements computed from the same cross-fitted predictions as the estimate: sigma2 is the mean squared outcome residual, the Riesz representer is the documented one at the trimmed (and normalised) propensities and weights, nu2 is the mean of twice the linear functional minus the squared representer or, for all repetitions of a treatment as soon as one of these means is not positive, the second moment of the representer; their influence components are the deviations from these means; the bias bound of the results object is sqrt(sigma2*nu2) with the matching influence function.",
  "all data, constructor arguments, weights, histories of method calls, splits, learners, external predictions",
  "The elements are only compared with reference implementations for fixed seeds; the connection with the predictions of the same repetition and the current split ranges over histories.",
  ["doubleml/double_ml.py::DoubleML._est_causal_pars_and_se","doubleml/double_ml.py::DoubleML.fit","doubleml/plm/plr.py::_sensitivity_element_est","doubleml/irm/irm.py::_sensitivity_element_est","doubleml/irm/apo.py::_sensitivity_element_est","doubleml/did/did.py::_sensitivity_element_est","doubleml/did/did_cs.py::_sensitivity_element_est","doubleml/utils/_sensitivity.py::_compute_sensitivity_bias"])

P("C81","Model constructors accept exactly the documented calls",
  "The constructors of the linear-score models (partially linear, instrumental variables incl. the two partialling-out variants, interactive, potential outcome, local effect, both difference-in-differences models, sample selection) return an object exactly if: the data have the required roles and 0/1 columns and no unsupported instruments, n_folds and n_rep are positive integers and draw_sample_splitting is a boolean, a drawn split has between 2 and n folds and some stratum with that many rows (with cluster columns: there are at most two, and each has at least as many different values as there are folds), the score is a documented one, every learner is an estimator instance that predicts values or probabilities as needed, a classifier for the outcome or treatment only meets 0/1 columns, weights, flags, trimming rule, threshold and subgroups are admissible. The split of the new object then has the requested repetitions and folds, each a partition, stratified by treatment (and instrument, period or selection) where the class promises that.",
  "all data objects, learners, argument values, random generators",
  "Tests try a handful of wrong arguments each; that nothing else is refused or let through ranges over all arguments and data.",
  ["doubleml/double_ml.py::DoubleML.__init__","doubleml/double_ml.py::DoubleML._check_learner","doubleml/plm/plr.py::DoubleMLPLR.__init__","doubleml/plm/pliv.py::DoubleMLPLIV.__init__","doubleml/irm/irm.py::DoubleMLIRM.__init__","doubleml/irm/apo.py::DoubleMLAPO.__init__","doubleml/irm/iivm.py::DoubleMLIIVM.__init__","doubleml/did/did.py::DoubleMLDID.__init__","doubleml/did/did_cs.py::DoubleMLDIDCS.__init__","doubleml/irm/ssm.py::DoubleMLSSM.__init__","doubleml/utils/_checks.py"])

P("C82","A fitted model estimates the advertised parameter from the columns of its data object",
  "From a data object reached by any history of role changes and a successful constructor call, after any further method calls, a successful fit() reports for every repetition and treatment the documented ratio of sums and standard error (with cluster columns: the ratio of the sums of cell means and the clustered standard error), in which outcome, treatment, instrument, period and selection are the columns that have these roles in the data object, the features are the covariate columns (plus the other treatments if the data object says so), and every cross-fitted prediction comes from the learner passed under that name (or a clone of it), as value or probability according to its kind.",
  "all data objects and histories, constructor arguments, learners, method calls, splits, external predictions",
  "Each link (roles to arrays, constructor to learners, learners to predictions, predictions to estimate) is tested alone and for fixed data; the composition ranges over all of them.",
  ["doubleml/double_ml_data.py::DoubleMLData","doubleml/double_ml.py::DoubleML.fit","doubleml/plm/plr.py","doubleml/plm/pliv.py","doubleml/irm/irm.py","doubleml/irm/apo.py","doubleml/irm/iivm.py","doubleml/irm/ssm.py","doubleml/did/did.py","doubleml/did/did_cs.py"])

P("C83","Unsupported constructor calls are refused with TypeError or ValueError",
  "If a constructor call does not return an object, it raises TypeError or ValueError (NotImplementedError, whatever the other arguments, if the data have more than two cluster columns); data or arguments a class cannot handle are refused at construction.",
  "all data objects, learners, argument values",
  "The error type for an arbitrary combination of wrong arguments cannot be enumerated.",
  ["doubleml/double_ml.py::DoubleML.__init__","doubleml/utils/_checks.py::_check_weights","doubleml/irm/ssm.py::DoubleMLSSM._check_data","doubleml/double_ml.py::DoubleML._calc_nuisance_loss"])

P("C84","Tuning solves the learning problems that the next fit trains on",
  "For every model class, the parameters tune() finds for a nuisance function in a fold are the best ones of a search that saw exactly the training rows (of the treatment, instrument, period or selection group), features and target with which the next fit trains that nuisance function in that fold; after tune() on the folds and fit(), every row is predicted by a model with the parameters found on the rows this model was fitted on. Preliminary quantities in targets (first-stage slope, quantile) are the documented ones, computed from the full sample.",
  "all data, folds, search procedures, learners, method calls before tuning",
  "A test sees whether parameters arrive; that the search and the fit get the same rows, features and target in every fold cannot be seen from outputs for some data sets.",
  ["doubleml/double_ml.py::DoubleML.tune","doubleml/utils/_estimation.py::_dml_tune","doubleml/plm/plr.py::DoubleMLPLR._nuisance_tuning","doubleml/plm/pliv.py::DoubleMLPLIV._nuisance_tuning","doubleml/irm/irm.py::DoubleMLIRM._nuisance_tuning","doubleml/irm/apo.py::DoubleMLAPO._nuisance_tuning","doubleml/irm/iivm.py::DoubleMLIIVM._nuisance_tuning","doubleml/irm/ssm.py::DoubleMLSSM._nuisance_tuning","doubleml/irm/pq.py::DoubleMLPQ._nuisance_tuning","doubleml/irm/lpq.py::DoubleMLLPQ._nuisance_tuning","doubleml/irm/cvar.py::DoubleMLCVAR._nuisance_tuning","doubleml/did/did.py::DoubleMLDID._nuisance_tuning","doubleml/did/did_cs.py::DoubleMLDIDCS._nuisance_tuning"])

P("C85","The summary table has one row per parameter with its own statistics",
  "The summary of a framework, model, contrast, potential-outcome or quantile-effect object has exactly one row per parameter, in order, under that parameter's label, and the row holds this parameter's estimate, standard error, t-statistic, p-value and 95 % interval; without estimates the table is empty, and reading it changes nothing.",
  "all frameworks with distinct labels, all models after any history of calls and a successful fit, all levels, quantiles and references",
  "The table is joined on labels; a test with a few distinct names does not show what happens for other labels or that every row's interval belongs to its estimate.",
  ["doubleml/utils/_descriptive.py::generate_summary","doubleml/double_ml_framework.py::DoubleMLFramework.summary","doubleml/double_ml.py::DoubleML.summary","doubleml/irm/apos.py::DoubleMLAPOS.summary","doubleml/irm/qte.py::DoubleMLQTE.summary"])

P("C86","The benchmark of covariates is the comparison with a model without them",
  "For partially linear, interactive, potential-outcome and difference-in-differences models on a data object, after any history of method calls, sensitivity_benchmark(benchmarking_set, fit_args) gives the numbers (or the exception) of the comparison of the model with a model constructed separately, with the same constructor call, from a data object without these covariates, holding the same split and nuisance parameters and fitted with the arguments in fit_args; that model can always be constructed. Directly after a successful fit the call succeeds exactly if the separate fit succeeds, and returns for each treatment the medians over repetitions of the capped relative gains, the implied correlation and the change of the estimate. Sets that are no list, empty or not among the covariates, wrong fit_args and unfitted models are refused; leaving out all features is refused.",
  "all data objects, constructor calls, histories of method calls, sets of covariates, fit arguments, learners, splits",
  "Tests compare one model on one data set with a manual refit; equality for every history, class, set and learner cannot be enumerated.",
  ["doubleml/double_ml.py::DoubleML.sensitivity_benchmark","doubleml/utils/gain_statistics.py::gain_statistics","doubleml/double_ml_data.py::DoubleMLData.x_cols","doubleml/double_ml.py::DoubleML.fit"])

P("C87","Reported losses compare the predictions in use with what they predict",
  "After a successful fit, nuisance_loss of a model built by its constructor holds, for every repetition, treatment and nuisance function, the loss of exactly the predictions that enter the score: the logistic loss if the learner of that function is a classifier, the root mean squared error otherwise, against the variable the learner was fitted to and over the rows of the subsample it describes (treatment group, instrument group, group and period; all rows for the others); propensities are evaluated after trimming. Predictions supplied by the user give nan, except for the potential-outcome model, which evaluates them as well. With score 'IV-type', ml_l has nan too if ml_g is supplied, and ml_g is compared with y - theta0*d for the preliminary estimate theta0. Functions the interactive IV model switches off are evaluated as constants against themselves. With several instruments there is one entry per instrument, compared with that instrument. The models with partialled-out instruments evaluate their own predictions even if others were supplied; the projection of the fitted treatment (ml_r after ml_m on covariates and instruments) has no common target and is always nan. The sample-selection model evaluates its outcome regressions on all rows, including the rows it did not fit them for.",
  "all data objects, constructor calls, histories of method calls, external predictions, learners with 0/1 labels for classifiers, splits, repetitions and treatments",
  "A test compares the losses of one fit with losses recomputed from its own targets; that targets, rows and loss type are the right ones for every class, learner and input is not observable from one run.",
  ["doubleml/double_ml.py::DoubleML._calc_nuisance_loss","doubleml/double_ml.py::DoubleML.nuisance_loss","doubleml/irm/irm.py::DoubleMLIRM._nuisance_est","doubleml/irm/apo.py::DoubleMLAPO._nuisance_est","doubleml/irm/ssm.py::DoubleMLSSM._nuisance_est","doubleml/plm/plr.py::DoubleMLPLR._nuisance_est"])

P("C88","Heterogeneous effects regress the signal of the fitted model",
  "For an interactive, potential-outcome or partially linear model with one repetition (and one treatment), after its constructor, any calls, a successful fit and any calls that are neither a fit nor a new partition: cate(basis) is the least-squares regression with HC0 covariance of the doubly robust signal of the cross-fitted predictions on the basis (partially linear: of the residual of the outcome on the basis times the residual of the treatment); gate(groups) gives per group the mean of the signal over its rows and the variance of that mean (partially linear: the ratio of the sums over its rows), under the name of the group, for boolean columns and for a column of labels; policy_tree hands the tree learner the signs of the signal as labels and its absolute values as weights. Several repetitions or treatments, repeated column names, a score without signal and, for the partially linear model, missing stored predictions are refused; the results always belong to the last fit.",
  "all data objects, constructor calls, histories of method calls, learners, splits, external predictions, bases and groups",
  "The composition from learner to regression holds for every basis, group structure and history; tests compare one basis for one fit.",
  ["doubleml/irm/irm.py::DoubleMLIRM.cate","doubleml/irm/irm.py::DoubleMLIRM.gate","doubleml/irm/irm.py::DoubleMLIRM.policy_tree","doubleml/irm/apo.py::DoubleMLAPO.capo","doubleml/irm/apo.py::DoubleMLAPO.gapo","doubleml/plm/plr.py::DoubleMLPLR.cate","doubleml/plm/plr.py::DoubleMLPLR.gate","doubleml/utils/blp.py::DoubleMLBLP"])

P("C89","Complete external predictions replace the learners",
  "If external predictions are given for every treatment, repetition and nuisance function the score uses, a fit of any object reached by its constructor and method calls succeeds whatever the learners do - in particular with the dummy learners of the package, which raise whenever they are trained - and every reported estimate is the one the score gives for these predictions (propensities trimmed). With such learners a fit succeeds only if no needed prediction is missing. Accepted predictions are never ignored.",
  "all data, learners, dictionaries of predictions, method calls, splits, repetitions",
  "Success for all learners means independence of them; a test uses one learner and one complete dictionary.",
  ["doubleml/double_ml.py::DoubleML.fit","doubleml/utils/dummy_learners.py::DMLDummyRegressor","doubleml/utils/dummy_learners.py::DMLDummyClassifier","doubleml/utils/_checks.py::_check_external_predictions","doubleml/plm/plr.py","doubleml/plm/pliv.py","doubleml/irm/irm.py","doubleml/irm/apo.py","doubleml/irm/iivm.py","doubleml/did/did.py","doubleml/did/did_cs.py"])

P("C90","Constructors of the quantile models accept exactly the documented arguments",
  "If both values of the treatment occur in the data, DoubleMLPQ, DoubleMLLPQ and DoubleMLCVAR return an object exactly if the data have a single 0/1 treatment (and no instrument, for LPQ a single 0/1 instrument), the score is the one of the class, the quantile is a float strictly between 0 and 1, the treatment is 0 or 1, the normalisation is a boolean, trimming rule and threshold are valid, the kernel is absent or a function, the learners predict what the class needs, and the partition arguments are feasible. Every other call raises a TypeError or a ValueError. A drawn partition is stratified by the treatment, for LPQ by the cells of treatment and instrument.",
  "all data objects, learners, arguments of every type, random generators",
  "An equivalence over all argument types, including the refusals, cannot be enumerated.",
  ["doubleml/irm/pq.py::DoubleMLPQ.__init__","doubleml/irm/lpq.py::DoubleMLLPQ.__init__","doubleml/irm/cvar.py::DoubleMLCVAR.__init__","doubleml/utils/_checks.py::_check_quantile","doubleml/utils/_checks.py::_check_treatment"])
P("C91","Objects of the quantile models report the documented estimates, from constructor to fit",
  "For every object of DoubleMLPQ, DoubleMLLPQ or DoubleMLCVAR reached by its constructor and any method calls, including fits that raise: the start value of the root search lies among the outcomes. If fit returns, every repetition holds the nested cross-fitted predictions of clones of the given learners, or the supplied ones; the estimate lies among the outcomes and, unless a warning was given, the weighted share of outcomes crosses the quantile there (for CVaR it is the weighted tail mean); the standard error is the one of the documented score. Fit returns if the learners can be trained and the inner splits see both arms, and whatever the learners do if all predictions are supplied. Storing the models does not change this.",
  "all data, learners, root finders within their contracts, method calls, splits, repetitions",
  "The start value is carried over between repetitions and calls, so that the claim is about all histories.",
  ["doubleml/irm/pq.py::DoubleMLPQ","doubleml/irm/lpq.py::DoubleMLLPQ","doubleml/irm/cvar.py::DoubleMLCVAR","doubleml/double_ml.py::DoubleML.fit","doubleml/double_ml_score_mixins.py::NonLinearScoreMixin"])
P("C92","Constructors of quantile effects and average potential outcomes accept exactly the documented arguments",
  "With a partition to be drawn, DoubleMLQTE returns an object exactly if all quantiles lie strictly between 0 and 1, the kernel is absent or a function, normalisation and trimming arguments are valid, the data have a single 0/1 treatment, a feasible partition exists, ml_m predicts probabilities, and score, instrument and ml_g belong together; DoubleMLAPOS exactly if there is no instrument, one treatment of whole numbers, every level has at least five rows, a feasible partition exists, and score, weights, learners, normalisation and trimming are valid. Every other call raises a TypeError or a ValueError. The drawn partition is stratified by the treatment and held by all sub-models. An object accepted without a partition can be given one and be fitted.",
  "all data objects, learners, arguments of every type, random generators",
  "An equivalence over all argument types, including the refusals, cannot be enumerated.",
  ["doubleml/irm/qte.py::DoubleMLQTE.__init__","doubleml/irm/apos.py::DoubleMLAPOS.__init__","doubleml/utils/resampling.py::DoubleMLResampling"])
P("C93","Objects of quantile effects and average potential outcomes keep one split and report the effects of their sub-models",
  "For every object of DoubleMLQTE or DoubleMLAPOS reached by its constructor and any calls of fit, draw_sample_splitting and set_sample_splitting, including calls that raise: all sub-models hold one common cross-fitting split, the reported one. If fit returns, the framework has one parameter per quantile (level): the difference of the estimates and scores of two potential quantile models (the estimate and scores of one potential outcome model), each as created by its own public constructor from clones of the learners, given the common split and fitted with the same arguments and the supplied predictions of its level. Fit returns if the learners can be trained and the folds see what they have to.",
  "all data, learners, quantiles and levels, external predictions, sequences of calls",
  "The claim is about all sequences of calls on a nested object whose sub-models carry their own state.",
  ["doubleml/irm/qte.py::DoubleMLQTE","doubleml/irm/apos.py::DoubleMLAPOS","doubleml/double_ml_framework.py::concat"])

P("C94","Regression discontinuity objects: accepted arguments, what the object holds, and what its estimates depend on",
  "RDFlex returns an object exactly if the data have a score with fractional values, one 0/1 treatment, no instruments and a cutoff between the smallest and the largest score, the learners take sample weights and are of the right kind, the remaining arguments are of the documented form and both sides of the cutoff have rows with positive weight; otherwise it raises TypeError, ValueError or (a side without weight) ZeroDivisionError. The object holds the centred score, stratified folds and the first stage it was asked for, and warns exactly if a sharp design looks fuzzy, ml_m is ignored or the treated share is larger below the cutoff. Its estimates are those of the local regression on residuals that every row gets from learners trained without its fold; they do not change if score and cutoff are shifted together, in a sharp design do not depend on the treatment column (given the folds) or on ml_m, and for learners that ignore sample weights (global learners) do not depend on kernel or first-stage bandwidth.",
  "all data, learners, cutoffs, kernels, bandwidths, numbers of folds, repetitions and iterations",
  "The conditions and invariances range over all scores, kernels and learners; tests check a few designs.",
  ["doubleml/rdd/rdd.py::RDFlex","doubleml/utils/global_learner.py::GlobalRegressor","doubleml/utils/global_learner.py::GlobalClassifier","doubleml/utils/_checks.py::_check_resampling_specification","doubleml/utils/_checks.py::_check_supports_sample_weights","doubleml/utils/resampling.py::DoubleMLResampling"])

P("C95","Scores that are functions of the user: what the function receives and what is done with its result",
  "PLR, PLIV, IRM and IIVM accept a function as score exactly under the conditions of the named scores (with IRM weights absent or an array). In every fit the function is called, for each repetition and treatment, with outcome, treatment, instrument, the folds and the cross-fitted (or externally supplied) predictions of each nuisance part - the propensity trimmed and, on request, normalised, the predictions of ml_g exactly if the user gave that learner - and the reported estimate, standard error and scores are those of the linear score it returns. Weights given to IRM take effect. Every accepted object can be fitted.",
  "all data, learners, user functions, folds, repetitions, external predictions and histories of the object",
  "The claim ranges over arbitrary user functions; tests use one or two copies of the built-in scores.",
  ["doubleml/plm/plr.py::DoubleMLPLR._score_elements","doubleml/plm/pliv.py::DoubleMLPLIV._score_elements","doubleml/irm/irm.py::DoubleMLIRM._score_elements","doubleml/irm/iivm.py::DoubleMLIIVM._score_elements","doubleml/plm/pliv.py::DoubleMLPLIV._partialZ","doubleml/plm/pliv.py::DoubleMLPLIV._partialXZ"])

P("C96","Simulated data satisfy the documented model equations in every row",
  "For all parameters and random draws, every row returned by make_plr_CCDDHNR2018, make_plr_turrell2018, make_irm_data, make_iivm_data, make_pliv_CHS2015, make_pliv_multiway_cluster_CKMS2021, make_did_SZ2020, make_ssm_data, make_heterogeneous_data, make_confounded_irm_data, make_confounded_plr_data, make_irm_data_discrete_treatments and make_simple_rdd_data satisfies the equations in the documentation (including indicators, standardised features with sample mean 0 and variance 1, one row per cluster cell, and the share of variance explained in make_irm_data).",
  "all sample sizes, dimensions, parameters (given or default), return types and values of the random draws",
  "A wrong coefficient or a missing factor changes numbers that look random; tests only look at shapes and types.",
  ["doubleml/datasets.py::make_plr_CCDDHNR2018","doubleml/datasets.py::make_irm_data","doubleml/datasets.py::make_pliv_multiway_cluster_CKMS2021","doubleml/datasets.py::make_did_SZ2020","doubleml/datasets.py::make_ssm_data","doubleml/datasets.py::make_heterogeneous_data","doubleml/datasets.py::make_irm_data_discrete_treatments","doubleml/rdd/datasets/simple_dgp.py::make_simple_rdd_data"])

P("C97","Data generators return the asked type with the right columns and roles, and refuse other arguments",
  "Each generator succeeds exactly if the return type is one of the documented names or classes (and the dimensions suffice). Arrays are returned in the documented order; a data frame has exactly the documented columns, no name twice; a data object is built over that frame with outcome, treatment, covariates, instruments, time, selection and cluster columns in their roles. Other arguments raise ValueError, AssertionError or IndexError.",
  "all return type arguments, dimensions and draws",
  "Tests use the default dimensions and a few return types.",
  ["doubleml/datasets.py::_get_array_alias","doubleml/datasets.py::make_pliv_CHS2015","doubleml/datasets.py::make_did_SZ2020","doubleml/datasets.py::make_ssm_data"])

P("C98","Stated treatment effects and oracle values of simulated data are those of the returned data",
  "The average of the individual effects in confounded interactive data is exactly theta; the returned propensity scores are the documented ones or, with a warning, clipped; the returned strengths of confounding are the in-sample shares of the returned regressions and reach the asked values if the search for the coefficients succeeds; the returned short regression is the regression on treatment and covariates without the confounder; effects in the difference-in-differences data are pure noise; the effect at the cutoff in regression discontinuity data is tau.",
  "all parameters, sample sizes and draws, any search for the coefficients",
  "Oracle values are used to judge estimators; nothing in the tests judges the oracle values.",
  ["doubleml/datasets.py::make_confounded_irm_data","doubleml/datasets.py::make_confounded_plr_data","doubleml/datasets.py::make_did_SZ2020","doubleml/rdd/datasets/simple_dgp.py::make_simple_rdd_data"])

P("C99","On simulated data the estimates are the true parameter plus terms that vanish with noise and prediction error",
  "For a data object returned by make_plr_CCDDHNR2018, make_plr_turrell2018, make_pliv_CHS2015 (one instrument), make_irm_data or make_did_SZ2020 (panel) and an object of the matching model class created from it with any learners and fitted after any calls: the reported estimate of each repetition equals the parameter given to the generator (for interactive data the average effect of the sample, for panel data zero) plus an explicit term in the noise and the errors of the cross-fitted or supplied predictions. With the true nuisance functions supplied only the noise term remains, and without noise the estimate is exactly the parameter.",
  "all parameters, draws, sample sizes, learners, folds, repetitions, external predictions and histories of the object",
  "Tests compare estimates with the parameter up to tolerance for one seed; the identity holds for every draw.",
  ["doubleml/datasets.py::make_plr_CCDDHNR2018","doubleml/datasets.py::make_pliv_CHS2015","doubleml/datasets.py::make_irm_data","doubleml/datasets.py::make_did_SZ2020","doubleml/plm/plr.py::DoubleMLPLR","doubleml/plm/pliv.py::DoubleMLPLIV","doubleml/irm/irm.py::DoubleMLIRM","doubleml/did/did.py::DoubleMLDID"])

P("C100","Estimates and standard errors follow the units of the data",
  "Take two objects of the same class, with the same learners, split and parameters, created from data that differ in the unit of the outcome (a y + b), of the treatments of a partially linear model (k d + h, k non-zero) or of the instrument. If learners trained on a target in another unit predict in that unit, or the supplied predictions are given in that unit, then after both fits the effect is multiplied by a / k and the standard error by its absolute value. This holds for DoubleMLPLR and DoubleMLPLIV (partialling out), DoubleMLIRM (ATE, ATTE, any weights), DoubleMLIIVM, DoubleMLDID (observational) with k = 1, and DoubleMLAPO, whose value also moves by b times the mean of the weights. The unit of the instrument has no influence.",
  "all data pairs, units, equivariant learners or supplied predictions, splits, repetitions, trimming thresholds, normalisation flags and histories of the two objects",
  "A test compares two fits for one rescaling and one seed, up to tolerance; the identity is exact for every rescaling and learner.",
  ["doubleml/plm/plr.py::DoubleMLPLR","doubleml/plm/pliv.py::DoubleMLPLIV","doubleml/irm/irm.py::DoubleMLIRM","doubleml/irm/apo.py::DoubleMLAPO","doubleml/irm/iivm.py::DoubleMLIIVM","doubleml/did/did.py::DoubleMLDID"])

P("C101","Equivalent formulations of one estimation problem report equal results",
  "Take fitted objects with the same outcome, split, covariates, parameters and learners (or the same supplied predictions). (1) DoubleMLIRM for the treatment 1 - d reports minus the average treatment effect it reports for d, with the same standard error, if the propensity learner treats its two labels alike. (2) The average treatment effect of DoubleMLIRM, and each row of its scaled score, is the difference of those of the DoubleMLAPO objects for the levels 1 and 0, and the framework apo1.framework - apo0.framework reports its estimate and standard error, per repetition and aggregated. (3) DoubleMLIIVM with the treatment as its own instrument and neither always nor never takers reports the estimate and standard error of DoubleMLIRM (ATE, no weights). (4) DoubleMLPLIV with the treatment as its own instrument and ml_r equal to ml_m reports those of DoubleMLPLR (partialling out).",
  "all data, learners, supplied predictions, splits, repetitions, weights, thresholds, normalisation flags and histories of the objects",
  "A test compares two fitted objects on one data set up to tolerance; the identity relates different classes for every input.",
  ["doubleml/irm/irm.py::DoubleMLIRM","doubleml/irm/apo.py::DoubleMLAPO","doubleml/irm/iivm.py::DoubleMLIIVM","doubleml/plm/pliv.py::DoubleMLPLIV","doubleml/plm/plr.py::DoubleMLPLR"])

P("C102","The order of rows, folds and repetitions has no influence on estimates and standard errors",
  "Take two objects of the same class with the same learners and parameters, created from the same observations listed in different orders, and let corresponding folds contain the same observations, in any order within the fold; folds and repetitions (with their parameters) may be listed in different orders too. If the predictions of the learners do not depend on the order of their training rows, or the supplied predictions move with the rows, then both fits report equal estimates and equal standard errors, in corresponding repetitions and after the aggregation. This holds for DoubleMLPLR and DoubleMLPLIV (partialling out), DoubleMLIRM (ATE and ATTE, weights moving with the rows), DoubleMLAPO, DoubleMLDID (observational) and DoubleMLIIVM.",
  "all data, permutations of rows, folds and repetitions, order-free learners or supplied predictions, splits, repetitions, weights, trimming thresholds, normalisation flags and histories of the two objects",
  "A test shuffles one data set and compares up to tolerance; the identity is exact for every permutation and covers the sorting of subgroup indices.",
  ["doubleml/plm/plr.py::DoubleMLPLR","doubleml/plm/pliv.py::DoubleMLPLIV","doubleml/irm/irm.py::DoubleMLIRM","doubleml/irm/apo.py::DoubleMLAPO","doubleml/irm/iivm.py::DoubleMLIIVM","doubleml/did/did.py::DoubleMLDID"])

P("C103","Each of several treatments is estimated as if it were the only treatment",
  "Fit DoubleMLPLR or DoubleMLPLIV (partialling out; one instrument) to a data object with several treatment columns. Take a second data object with the same outcome, one of these treatments as its only treatment, and the other treatments appended to the covariates (or left out, if the first object was created with use_other_treat_as_covariate=False). With the same learners, parameters for this treatment and split, both fits report the same estimate and standard error for it in every repetition, and the same aggregated estimate and standard error.",
  "all data, numbers and positions of treatments, both settings of use_other_treat_as_covariate, learners, supplied predictions, splits, repetitions and histories of the two objects",
  "A test fits a few data sets; leakage between treatments through active columns, stored parameters or indices can hide at any position and after any history.",
  ["doubleml/double_ml.py::DoubleML.fit","doubleml/double_ml_data.py::DoubleMLData.set_x_d","doubleml/plm/plr.py::DoubleMLPLR","doubleml/plm/pliv.py::DoubleMLPLIV"])

P("C104","Model objects sharing one data object do not influence one another",
  "Create any number of model objects (PLR, PLIV, IRM, APO, IIVM, DID, DIDCS, SSM) from one DoubleMLData object and interleave their calls (drawing or setting splits, setting parameters, fit, bootstrap, confidence intervals, sensitivity analysis, ...) in any order, also with calls of set_x_d by the user: each object ends up in the state, and each call has the outcome, that the object's own calls alone would have produced. A fit leaves the data object as it was, and a model that was accepted can be fitted.",
  "all data objects, classes, numbers of objects, treatments, and interleavings of calls of any length",
  "fit switches the active treatment inside the shared data object, so leakage depends on the interleaving; tests only try a few orders.",
  ["doubleml/double_ml.py::DoubleML.fit","doubleml/double_ml_data.py::DoubleMLData.set_x_d","doubleml/irm/ssm.py::DoubleMLSSM","doubleml/double_ml_data.py::DoubleMLData.d_cols"])

P("C105","A model object uses the covariates its data object has at the time of the call",
  "After a model object (PLR, PLIV, IRM, APO, IIVM, DID, DIDCS, SSM with one treatment) was created, let the user assign to x_cols, use_other_treat_as_covariate or force_all_x_finite of the data object, or call set_x_d, at any time between calls, also with other model objects on the same data: each call behaves exactly like the call on a model object created anew from the data object as it then is. Moreover, data the constructor would refuse are refused by the next fit.",
  "all data objects, classes, numbers of objects, and histories of calls and successful assignments of any length",
  "The effect of an assignment depends on what was cached at creation and by earlier calls; tests do not enumerate histories.",
  ["doubleml/double_ml_data.py::DoubleMLData.x_cols","doubleml/double_ml_data.py::DoubleMLData.use_other_treat_as_covariate","doubleml/double_ml.py::DoubleML.fit","doubleml/double_ml.py::DoubleML.__init__"])

P("C106","Columns without a role have no influence, and cluster labels only through their order",
  "Take two data frames of equal length that agree in the columns named as outcome, treatments, covariates, instruments, time and selection, and whose cluster columns hold labels in the same order (equal labels where they were equal). Data objects with the same roles and options are equal, and each constructor call (PLR, PLIV, IRM, APO, IIVM, DID, DIDCS, SSM, PQ, LPQ, CVAR, QTE, APOS) either raises the same exception or gives an object with the same splits that behaves alike under every later call.",
  "all data frames, roles, contents and numbers of other columns, relabellings of clusters, arguments, learners and generators",
  "A test changes a column or two; the claim is about every column that might be read by accident.",
  ["doubleml/double_ml_data.py::DoubleMLData","doubleml/double_ml_data.py::DoubleMLClusterData","doubleml/double_ml.py::DoubleML.__init__","doubleml/utils/resampling.py::DoubleMLClusterResampling"])

P("C107","With trimming, bounded outcomes give bounded estimates",
  "Let all outcomes and all outcome predictions lie between -B and B, and let t be the trimming threshold. Whatever the propensity learner predicts (or the user supplies), after fit() each estimate of an average treatment effect lies within 2B + 2B/t of zero and its standard error is at most (2B + 2B/t)/sqrt(n); for an average potential outcome the same holds with B + 2B/t. For the effect on the treated the bound is 2B + 2B(1-t)/t times the number of controls per treated observation. With normalised propensities the average effect lies within 6B of zero for every t. In sample selection models the same should hold for the selection probabilities.",
  "all data with a 0/1 treatment, bounds, thresholds in (0, 1/2), learners, splits and histories before the fit",
  "A bound over all learners and data sets cannot be reached by trying some.",
  ["doubleml/utils/_propensity_score.py::_trimm","doubleml/irm/irm.py::DoubleMLIRM._score_elements","doubleml/irm/apo.py::DoubleMLAPO._score_elements","doubleml/irm/ssm.py::DoubleMLSSM._nuisance_est"])

with open(OUT, "w") as f:
    for r in rows:
        f.write(json.dumps(r) + "\n")
print(len(rows))

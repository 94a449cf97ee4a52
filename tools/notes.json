{
 "C13": "False of the code for negative scalars: DoubleMLFramework.__mul__ multiplies the standard errors by the signed scalar. Proved for scalars >= 0.",
 "C14": "False of the code for sums and differences: __add__/__sub__ use the unclustered variance formula. Proved for non-negative multiples.",
 "C21": "First sentence proved. Second sentence false of the code for several repetitions: the framework reports the median of repetition-wise p-values, the model the p-value of the aggregated estimate. Proved for one repetition.",
 "C24": "Bias additivity and scaling proved for all repetitions; containment proved for multiples with any number of repetitions and for sums and differences with one or two; false from three repetitions on because medians are not additive.",
 "C40": "Only the first fold of the first repetition is validated (proved); refuted for later folds. After a new split, the variance uses the number of folds of the old one (refuted).",
 "C05": "Predictions: proved for every path and schedule; for predict_proba under the condition that every train part contains all labels, and refuted without it. Returned targets: equal for predict; refuted for predict_proba (original labels on the fast path, codes on the manual path).",
 "C38": "Refuted as stated: the per-repetition arrays are shared with the model, so draw_sample_splitting followed by fit rewrites them inside an already obtained framework. Proved: aggregated estimates, standard errors, scores and sensitivity elements never change; everything is frozen without a further fit or once set_sample_splitting has been called.",
 "C39": "Refuted as stated: draw_sample_splitting keeps all estimates, set_sample_splitting keeps the framework (so confint still answers with the old split), and fit(store_predictions=False) keeps old stored predictions. Proved: set_sample_splitting clears coef, se, psi and the summary; after the next successful fit everything belongs to the current split (C57).",
 "C27": "Proved: non-negative nu2 for every repetition, repair of all repetitions of a treatment exactly when one of them is not positive, other treatments untouched, max_bias = sqrt(sigma2*nu2) with the reported values. Refuted: the repaired influence component is the squared Riesz representer without subtracting nu2, so it is not mean-zero.",
 "C43": "Proved: exactly the supplied arrays reach the nuisance estimation whose results are reported. Refuted: a dictionary covering only some treatments passes validation and then fails with a missing key. Further refuted: PLIV partialZ/partialXZ ignore accepted external predictions; IIVM ignores external ml_r0/ml_r1 when always/never-takers are excluded. For PLR and IRM, C75 shows that supplied predictions are used verbatim. The local quantile model ignores an incomplete set of supplied predictions without error (refuted).",
 "C56": "Proved: losses always belong to the last fit; evaluate_learners scores the last fit's predictions if that fit stored them. Refuted: after fit(store_predictions=False) evaluate_learners still scores the previous fit's predictions.",
 "C29": "Proved for IRM/APO (and IIVM under full compliance). Refuted: IIVM normalises with the treatment instead of the instrument; SSM's normalised weights average to the share of the arm.",
 "C46": "Subgroup mean proved for weights scaled by the group share; refuted for raw 0/1 weights, which are accepted and scale the effect by the share of the group.",
 "C55": "Acceptance characterised exactly; derivative minus one proved for the ATE and for the ATTE when a treated row has weight one. Refuted: accepted weights need not average to one, so the ATE estimate is not a weighted average of signals; ATTE weights without a treated row are accepted and divide by zero.",
 "C59": "Proved for PLR, IRM and APO; DID and DIDCS when the training folds have the sample shares. Refuted for the observational DIDCS score without in-sample normalisation, whose representer drops the signs.",
 "C25": "Ranges, signs, exact values and unit invariance proved. Coinciding models give zeros when no variance is zero; refuted for a perfect outcome fit, where cf_y is nan.",
 "C44": "Quantile-effect model: full. Potential-outcome model: proved for histories without a redraw after construction, and one common split in every history; refuted after draw_sample_splitting (sub-models keep the old split; without initial split they never exist). Here set_sample_splitting succeeds; that it fails for a split without cross-fitting is in C93.",
 "C45": "Proved for distinct levels and a non-empty set of distinct references; repeated treatment levels give self-contrasts and an empty reference list raises TypeError (refuted parts).",
 "C60": "Proved for equal residual variances of the two levels; refuted in general (averaging sigma2 and adding nu2 can exceed the sum of the two bounds).",
 "C51": "Pointwise intervals on a basis and for groups have the requested level. The default coefficient intervals have level (1+level)/2 instead (alpha is halved twice). Joint intervals maximise over draws and take the quantile over basis rows: for one row the level is ignored, and bands can be too wide or too narrow.",
 "C52": "Exactly the one-column frames and the all-boolean frames are accepted; two or more integer dummy columns raise TypeError although documented (operator precedence of not/or).",
 "C54": "The error identity holds for all signals; labels are binary exactly if no signal is zero. A zero signal gives label 1/2, which scikit-learn's classifier rejects.",
 "C53": "Kernel laws proved for positive bandwidths (negative ones pass the type check: refuted). The adjustment is proved for float columns; integer columns truncate every prediction towards zero (no adjustment at all for probabilities below one) and boolean ones always give one half, because the prediction arrays inherit the column's type.",
 "C64": "All parts proved except: intervals before a fit are reported as nan instead of refused, and the bandwidth reported after a single-iteration fit is nan.",
 "C50": "Monotonicity, step structure, CVaR target laws, the preliminary (inverse probability weighted) score's sign change at a weighted quantile and the optimality of the tail mean are proved. The sign of the final score at the ends and the dominance of the CVaR estimate hold for predictions constant over rows and are refuted in general; without normalisation the preliminary score may have no root; the local quantile score is not monotone.",
 "C66": "Proved for all three quantile models for given start value and bounds (missing: these are taken from all rows in the constructor, which is refuted as a leak for the quantile and the local quantile model). Supplied propensities are read at the wrong rows in the preliminary step (refuted).",
 "C67": "Proved for CVaR and for quantile and local quantile models with all predictions supplied; refuted for both quantile models, whose fit overwrites its own start value.",
 "C30": "Proved for construction and all histories of successful assignments; every success also restores disjointness after rejected ones. Refuted when the caller changes the list object passed as x_cols, which stays shared.",
 "C31": "Refuted for rejections by overlap (the new value stays). Proved for unusable arguments and for set_x_d, and assigning the old value again repairs the object.",
 "C32": "Proved for the constructor and for assigning None. The default is not recomputed when another role changes (refuted).",
 "C33": "Proved for all histories of successful assignments. After a rejected assignment the outcome can become a feature without an exception (refuted in every reachable state).",
 "C34": "Proved at construction and while outcome and treatments are not assigned; refuted otherwise, the indicators are not refreshed.",
 "C68": "Proved for successful assignments; refuted after a rejected one.",
 "C42": "Full-sample tuning results proved. Fold-wise: refuted. The result table is built from aliased rows and indexed repetition-first, so every repetition's entry is the last repetition's result, and every call with a different number of repetitions and treatments raises IndexError.",
 "C70": "Proved for successful calls, including the next fit. The last clause is refuted: a call that raises may already have replaced parameters of earlier treatments. Fold-wise tuning with a tuner that returns succeeds exactly if the numbers of repetitions and treatments are equal.",
 "C71": "Proved for the learning problem of every nuisance function without preliminary quantities (group and whole training sets), in full for the interactive model, the partialling-out score and the predictions of a tuned cross-fit. Refuted for the IV-type score (preliminary estimate over all rows), for quantile models (full-sample quantile as target), for full-sample tuning and after a redraw of the split.",
 "C72": "All linear-score model classes with string scores; learners are oracles that predict row by row; check_X_y conversions are not modelled; scores that are functions of the user are in C95.",
 "C73": "Proved for every model class and score except the IV-type scores of PLR and PLIV, which are refuted: the initial estimate used to build ml_g's target averages over all rows, and a two-row example reproduces the held-out outcome exactly.",
 "C74": "Proved for PLR, IRM, DID, APO, PQ, CVaR and LPQ. Refuted for the sample selection model, whose ml_g targets cover all rows, including those without an observed outcome.",
 "C75": "End-to-end composition of the object life cycle, the cross-fitting engine and the scores for all classes with linear scores: PLR (both scores), PLIV (both scores, several instruments, partialZ, partialXZ), IRM (ATE with admissible weights, ATTE), APO, IIVM, DID and DIDCS (both scores), SSM (both scores); clustered data for PLR and PLIV with partialling-out scores here and for all classes in C82. Denominators are assumed non-zero. Scores that are functions of the user are in C95.",
 "C76": "Classifier predictions are assumed to be row-wise and to list the classes in order; inner train parts must contain both labels. External ml_m is excluded from the description of the preliminary step (see C66_external_rows_refuted).",
 "C77": "Proved for PLR, APO and IIVM and for fitted predictions of IRM. Refuted corner: IRM does not check an external ml_g0, although it checks an external ml_g1.",
 "C78": "All models with linear scores that take external predictions. PLIV with partialled-out instruments ignores external predictions (C43_projected_instruments_refuted); the sample selection model refuses them.",
 "C79": "Nuisance estimation and complete fit() of all classes with linear scores (PLR, PLIV in four variants, IRM, APO, IIVM, DID, DIDCS, SSM with both scores), without and (except partialXZ and the nonignorable score) with clusters. Not covered: quantile models (C91).",
 "C80": "PLR (both scores), IRM (ATE and ATTE), APO, DID and DIDCS (all score and normalisation variants), without clustering; denominators assumed non-zero.",
 "C81": "Linear-score classes, string scores, data with or without cluster columns; sklearn reads a column as a class label iff its values are whole numbers. Warnings are not modelled. Accepting a column of zeros only as binary treatment is what the code does (zero_one_column).",
 "C82": "All linear-score classes and scores, with and without cluster columns; what the data object hands to the learners is stated separately (C82_columns/features/rows/values). Denominators are assumed non-zero.",
 "C83": "For at most two cluster columns (more are refused with NotImplementedError, also proved): proved for PLR, PLIV, IIVM, DID, DIDCS without restriction; for IRM and APO if weight entries are arrays, for SSM if the data have a selection indicator. Refuted corners: AttributeError for non-array weights and for a missing selection indicator; SSM accepts non-binary treatments; an instrument called like a learner is accepted, but fit never returns.",
 "C84": "Learning problems of every class and the composition with fit() for PLR and IRM from constructor to estimate. Refuted for nonignorable selection: ml_g and ml_m are tuned without the predicted selection probability they are later fitted with, so a call of fit() after tune() can raise.",
 "C85": "Proved for distinct labels (treatment columns are checked to be distinct by DoubleMLData). Refuted for repeated labels, which the name setter, QTE and APOS accept: the join on labels gives more rows than parameters and rows that pair one parameter's estimate with another's interval.",
 "C86": "Data objects as constructed (not after later role changes). C86_separate_model assumes that no reported estimate is nan. That the long model is unchanged is not a theorem: the deep copy is modelled as a value.",
 "C87": "PLR and PLIV (both scores, one and several instruments, partialled-out and projected instruments), IRM, APO, IIVM, DID, DIDCS and SSM (both scores). Classifiers fitted through the common cross-fitting routine are assumed to see the labels 0 and 1, of which 0 occurs; data sets with an empty list of cluster variables are excluded.",
 "C88": "IRM (score ATE), APO and PLR (both scores). Denominators of the signal are assumed non-zero; the regression routine is any function returning a least-squares solution with HC0 covariance (one exists: C88_case_routine). Refuted: an unfitted or re-split object returns nan results instead of refusing; for PLR the results belong to the last fit that stored predictions, not to the last fit.",
 "C89": "PLR, PLIV (one and several instruments), IRM, APO, IIVM, DID, DIDCS without clusters. Two exceptions are part of the statements: 0/1 predictions of a 0/1 treatment or outcome are refused. Refuted for PLIV with partialled-out instruments, which accept predictions and do not use them. Quantile models: C91; sample-selection models: C43.",
 "C90": "Data without cluster variables. If a treatment value does not occur, the constructor raises an IndexError when it computes the start value; the statements assume that both occur.",
 "C91": "Data without cluster variables. Division by a zero adjusted propensity, a zero complier share or a zero density is excluded by hypothesis (nan in numpy). Refuted: with store_models=True a fit that uses external predictions raises (KeyError for PQ, UnboundLocalError for LPQ).",
 "C92": "Data without cluster variables, at least one row and one quantile (level); for quantile effects both treatment values occur. Refuted: the default ml_m=None is never accepted; without a partition objects are accepted for which no sub-model can ever be created (wrong score for the instruments, level with fewer than five rows, several treatments).",
 "C93": "One common split and the results of fit: full. The common split is the reported one unless no sample splitting is asked for (raises, but replaces the reported split: refuted), and for potential outcomes unless a split is drawn anew (refuted) or weights are given per repetition. External predictions for some levels only raise a KeyError (refuted).",
 "C94": "Acceptance, contents of the object, invariances and estimation: full. Refuted: a cutoff equal to the smallest or largest score passes the range check but raises ZeroDivisionError; clusters of cluster data are accepted and ignored, so a cluster is spread over training and test rows; a global learner around an estimator of the wrong kind is accepted by the constructor and raises in fit.",
 "C95": "Fits: data without cluster variables. The function is an oracle that returns two arrays or raises; sensitivity methods of these objects are not modelled. Refuted: with several instruments or partialled-out instruments PLIV accepts a function as score but can never be fitted; IRM checks the weights and then ignores them.",
 "C96": "Random draws are arguments; a feature without variation (division by zero) is excluded by hypothesis for make_did_SZ2020, elsewhere quotients by zero are those of Coq. Refuted: in make_ssm_data the covariates are not multiplied by the treatment; in make_confounded_irm_data with linear=True the effect uses the standardised Z5; in make_irm_data_discrete_treatments the effect function differs from the documented one and applies to all treated rows, and n_levels levels give n_levels + 1 treatments.",
 "C97": "make_irm_data, make_iivm_data, make_pliv_CHS2015, multiway, DID, SSM, PLR and Turrell generators and the dictionaries of the others; _make_pliv_data and fetch_* are not modelled. Refuted: panel data of make_did_SZ2020 as arrays have a fourth entry None.",
 "C98": "minimize_scalar is an oracle. Refuted: the returned short regression of make_confounded_plr_data is not the conditional expectation of the outcome given treatment and covariates (its residual is correlated with the treatment residual in samples with the documented moments); tau is the effect at the cutoff only for cutoff zero.",
 "C99": "Any learners; the sums in the denominators are non-zero by hypothesis. PLIV with one instrument, IRM with score ATE and no weights, DID panel data with the observational score.",
 "C100": "Unclustered data. The divisions of the closed forms are defined by hypothesis. IRM, APO, IIVM and DID for changes of the outcome only, since treatments (and the instrument of IIVM) are 0/1.",
 "C101": "Unclustered data. The divisions of the closed forms are defined by hypothesis (used propensities off 0 and 1, non-zero residual variation of the treatment). (1) and (2) need a classifier that is symmetric in its labels, or supplied propensities m and 1 - m.",
 "C102": "Unclustered data. The divisions of the closed forms are defined by hypothesis. A split drawn by the package depends on row positions, so the folds must be set or moved along.",
 "C103": "Unclustered data, partialling out. The divisions of the closed forms are defined by hypothesis.",
 "C104": "Independence is proved for all interleavings. Refuted: that fit leaves the data object unchanged (the last treatment stays active), that every accepted model can be fitted (treatments reassigned after construction), and that the split of DoubleMLSSM does not depend on the active treatment. Tuning is not in the histories; changes of covariates are the subject of C105.",
 "C105": "Proved for covariates and activations. Refuted: that the checks of the constructor are repeated. Assignments to y_col, d_cols, z_cols, t_col, s_col and cluster_cols after the creation are not covered otherwise.",
 "C106": "The object is the state after the constructor together with the description of class and data (C) that all later methods are functions of; equality of both covers every history. x_cols has to be given: by default all remaining columns are covariates (C32).",
 "C107": "Proved for DoubleMLIRM (unit weights; score ATE, and score ATTE without normalisation, where the bound depends on the number of controls per treated observation) and DoubleMLAPO (unit weights); refuted for DoubleMLSSM, whose selection probabilities are used untrimmed. The normalised case assumes that the adjusted propensities are neither 0 nor 1, where the code divides 0 by 0. IIVM and the difference-in-differences classes are not covered."
}
(** Specifications: which constructor calls of the model classes succeed, and
    what the returned object estimates. *)
From Verif Require M_Data S_Data.
From Verif Require Export M_Init S_Classes S_Weights.
Local Open Scope R_scope.
Local Open Scope string_scope.

(** ** Arguments *)
(** The number of rows in which a column has the given value. *)
Definition rows_with (n : nat) (v : vec) (x : R) : nat := length (filter (fun i => if Req_EM_T (v i) x then true else false) (seq 0 n)).
(** The number a treatment level is compared with (Python compares booleans as
    0 and 1), and the indicator of the rows at that level. *)
Definition level_number (v : pyval) : option R := match v with PInt z => Some (IZR z) | PFloat r => Some r | PBool b => Some (if b then 1 else 0) | _ => None end.
Definition at_level (level : pyval) (v : vec) : vec := fun i => match level_number level with Some r => if Req_EM_T (v i) r then 1 else 0 | None => 0 end.
(** n_folds, n_rep and draw_sample_splitting: positive integers and a boolean.
    If the split is drawn there are at least two folds and not more folds than
    rows; a stratified draw needs a stratum with at least as many rows as folds. *)
Definition split_args (n : nat) (n_folds n_rep draw : pyval) (strata : option vec) : Prop :=
  is_int n_folds = true /\ (1 <= int_val n_folds)%Z /\ is_int n_rep = true /\ (1 <= int_val n_rep)%Z /\
  exists b, draw = PBool b /\
    (b = true -> let k := Z.to_nat (int_val n_folds) in (2 <= k <= n)%nat /\
       match strata with None => True | Some v => exists i, (i < n)%nat /\ (k <= rows_with n v (v i))%nat end).
(** Values the stratified generator accepts. *)
Definition whole_numbers (n : nat) (v : vec) : Prop := forall i, (i < n)%nat -> exists z, v i = IZR z.
(** Learners: an instance with fit, set_params and get_params … *)
Definition estimator {E} (l : pylearner E) : Prop := ly_is_class l = false /\ ly_fit l = true /\ ly_set l = true /\ ly_get l = true.
(** … that predicts values, probabilities, or either, as its kind says. *)
Definition predicts_values {E} (l : pylearner E) : Prop := estimator l /\ ly_predict l = true.
Definition predicts_probabilities {E} (l : pylearner E) : Prop := estimator l /\ ly_proba l = true.
Definition predicts_either {E} (l : pylearner E) : Prop := if ly_classifier l then predicts_probabilities l else predicts_values l.
Definition boolean (v : pyval) : Prop := exists b, v = PBool b.
Definition trimming_ok (rule thr : pyval) : Prop := rule = PStr "truncate" /\ exists t, thr = PFloat t /\ 0 < t < 1 / 2.
(** A classifier for the outcome needs an outcome with values 0 and 1. *)
Definition outcome_learner {E} (f : M_Data.frame) (s : M_Data.ddata) (l : pylearner E) : Prop :=
  predicts_either l /\ (ly_classifier l = true -> S_Data.zero_one_column f (M_Data.r_y (M_Data.dd_roles s))).

(** Difference in differences: the observational score needs a classifier for
    the propensity score. *)
Definition did_score_ok {E} (score : pyval) (ml_m : option (pylearner E)) : Prop :=
  score = PStr "observational" /\ (exists l, ml_m = Some l /\ predicts_probabilities l) \/ score = PStr "experimental".

(** Subgroups: nothing, or a dictionary with exactly the two keys and booleans. *)
Definition subgroups_ok (a : subgroups_arg) : Prop :=
  match a with
  | SgNone => True
  | SgDict l => (forall k, In k (map fst l) <-> k = "always_takers" \/ k = "never_takers") /\
                forall k v, (k = "always_takers" \/ k = "never_takers") -> dict_get k l = Some v -> boolean v
  | SgOther => False
  end.

(** Whether always takers and never takers exist, as the argument says. *)
Definition subgroups_are (a : subgroups_arg) (always never : bool) : Prop :=
  match a with
  | SgNone => always = true /\ never = true
  | SgDict l => dict_get "always_takers" l = Some (PBool always) /\ dict_get "never_takers" l = Some (PBool never)
  | SgOther => False
  end.

(** ** Data *)
Definition outcome (f : M_Data.frame) (s : M_Data.ddata) : vec := col f (M_Data.r_y (M_Data.dd_roles s)).
(** Features used for the treatment column [c]: the covariates and, if wanted,
    the other treatments. *)
Definition covariates (f : M_Data.frame) (s : M_Data.ddata) (c : string) : nat -> row := feats f (S_Data.features (M_Data.dd_roles s) (M_Data.dd_other s) c).
Definition unclustered (s : M_Data.ddata) : Prop := M_Data.r_cl (M_Data.dd_roles s) = None.
Definition no_instruments (s : M_Data.ddata) : Prop := M_Data.r_z (M_Data.dd_roles s) = None.
(** Exactly one treatment, with values 0 and 1. *)
Definition binary_treatment (f : M_Data.frame) (s : M_Data.ddata) (c : string) : Prop := M_Data.r_d (M_Data.dd_roles s) = [c] /\ S_Data.zero_one_column f c.
Definition succeeds {A} (r : result A) : Prop := exists o, r = Ok o.

(** ** The returned object *)
Definition sound_randomness (rd : randomness) : Prop := shuffles (rd_g0 rd) /\ perm_ok (rd_perm0 rd) /\ shuffles (rd_g rd) /\ perm_ok (rd_perm rd).
(** The object estimates with the learner [l] under the key [k], predicting
    probabilities iff [proba]. *)
Definition runs_on {E P} (mc : machinery E P) (k : string) (l : pylearner E) (proba : bool) : Prop := mc_learner mc k = ly_obj l /\ mc_proba mc k = proba.
(** … or with a clone of it. *)
Definition clone_of {E P} (L : learner E row P) (mc : machinery E P) (k : string) (l : pylearner E) (proba : bool) : Prop := mc_learner mc k = ln_clone L (ly_obj l) /\ mc_proba mc k = proba.
(** A state reached from [w0] by any method calls, in which every drawn split
    uses a generator that permutes. *)
Definition later {P} (C : ctx P) (w0 w : world P) : Prop := exists ops, (forall o, In o ops -> good_op o) /\ w = run C ops w0.
(** The number of rows among [l] in which the column has the given value. *)
Definition value_count (v : vec) (x : R) (l : list nat) : nat := length (filter (fun i => if Req_EM_T (v i) x then true else false) l).
(** The object has a split with [n_rep] repetitions of [n_folds] folds; each is a
    partition, the rows with a common value of [v] are spread evenly over the
    test parts, and no train part misses a value that two or more rows have. *)
Definition stratified_by {P} (n : nat) (n_folds n_rep : pyval) (v : vec) (w : world P) : Prop :=
  exists sm, m_smpls (w_obj w) = Some sm /\ length sm = Z.to_nat (int_val n_rep) /\
    forall fs, In fs sm -> length fs = Z.to_nat (int_val n_folds) /\ proper_split n fs /\
      (forall h k i, In h fs -> In k fs -> (i < n)%nat -> (value_count v (v i) (snd h) <= value_count v (v i) (snd k) + 1)%nat) /\
      (forall h i, In h fs -> (i < n)%nat -> (2 <= rows_with n v (v i))%nat -> exists j, (j < n)%nat /\ In j (fst h) /\ v j = v i).
(** The same without strata. *)
Definition split_drawn {P} (n : nat) (n_folds n_rep : pyval) (w : world P) : Prop :=
  exists sm, m_smpls (w_obj w) = Some sm /\ length sm = Z.to_nat (int_val n_rep) /\
    forall fs, In fs sm -> length fs = Z.to_nat (int_val n_folds) /\ proper_split n fs /\ balanced fs.
(** A refused call raises TypeError or ValueError. *)
Definition type_or_value_error {A} (r : result A) : Prop := forall e, r = Err e -> e = TypeError \/ e = ValueError.
(** The entries of a weight dictionary are arrays. *)
Definition arrays_given (w : warg) : Prop := match w with WDict a b _ => a <> Wrong /\ b <> Wrong | _ => True end.

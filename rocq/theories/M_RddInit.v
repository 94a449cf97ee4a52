(** Constructor of RDFlex (rdd/rdd.py:99-165) and the global learners
    (utils/global_learner.py).

    Simplifications.
    - The data argument is a data object (everything else raises TypeError); a
      data object with clusters is one.  rdrobust is installed.
    - A learner argument is described by the attributes the checks look at.
    - A custom kernel acts on each score separately.
    - rdbwselect and rdrobust are oracles that do not raise; keyword arguments
      for rdrobust belong to the oracle.
    - Warnings are returned with the object.  *)
From Verif Require M_Data.
From Verif Require Export M_Rdd M_Init.
Local Open Scope R_scope.
Local Open Scope string_scope.
Local Open Scope res_scope.

(** A learner and whether its [fit] has a parameter [sample_weight]
    ([_check_supports_sample_weights], utils/_checks.py:515-521). *)
Record rd_learner_arg (E : Type) := { wl_learner : pylearner E; wl_weights : bool }.
Arguments wl_learner {E}. Arguments wl_weights {E}.
Definition check_weights_supported {E} (l : rd_learner_arg E) : result unit := require (wl_weights l) ValueError (Ok tt).

Inductive rd_warning := LooksFuzzy | IgnoredLearner | WrongSide.

(** [np.average(a[mask], weights=w[mask])] (rdd.py:611); numpy raises
    ZeroDivisionError if the weights sum to zero, also when nothing is selected. *)
Definition masked_sum (n : nat) (mask : nat -> bool) (v : nat -> R) : R := sumf n (fun i => if mask i then v i else 0).
Definition np_average (n : nat) (mask : nat -> bool) (a w : nat -> R) : result R :=
  require (negb (reqb (masked_sum n mask w) 0)) ZeroDivisionError (Ok (masked_sum n mask (fun i => a i * w i) / masked_sum n mask w)).

(** [_check_resampling_specification] (utils/_checks.py:390-403). *)
Definition resampling_specification (n_folds n_rep : pyval) : result unit :=
  require (is_int n_folds) TypeError (
  require (Z.leb 2 (int_val n_folds)) ValueError (
  require (is_int n_rep) TypeError (
  require (Z.leb 1 (int_val n_rep)) ValueError (Ok tt)))).

Section RdInit.
Context {E : Type}.
(** [fit] of a clone of a learner object, then [predict_proba(...)[:, 1]] (true)
    or [predict] (false). *)
Variable learn : E -> bool -> rd_learner.
(** rdbwselect on outcome, score and, in fuzzy designs, treatment: the largest
    bandwidth; rdrobust on the score and the adjusted columns. *)
Variable bwselect : (nat -> R) -> (nat -> R) -> option (nat -> R) -> R.
Variable robust : (nat -> R) -> (nat -> R) -> option (nat -> R) -> option (R * R) -> rd_res.
Variable casefold : string -> string.
(** Column types of outcome and treatment, the cast of nan, the generator. *)
Variable ty td : dtype.
Variable junk : nat -> R.
Variable g : rng.
Variable f : frame.
Variable s : ddata.
Let n := M_Data.frows f.
Let y := col f (M_Data.c_y s).
Let d := col f (M_Data.c_d s).

(** [isinstance(cutoff, (int, float))]. *)
Definition cutoff_number (v : pyval) : option R :=
  match v with PInt z => Some (IZR z) | PFloat r => Some r | PBool b => Some (if b then 1 else 0) | _ => None end.
(** [_check_data] (rdd.py:485-520): the score column and the cutoff.
    type_of_target is "continuous" if some value is no whole number. *)
Definition check_rd_data (cutoff : pyval) : result (vec * R) :=
  match M_Data.c_s s with
  | None => Err ValueError
  | Some c =>
      let sc := col f c in
      require (negb (all_whole n sc)) ValueError (
      match cutoff_number cutoff with
      | None => Err TypeError
      | Some c0 =>
          require (existsb (fun i => rleb (sc i) c0) (seq 0 n) && existsb (fun i => rleb c0 (sc i)) (seq 0 n)) ValueError (
          require (one_treat s && zero_one_col f (M_Data.c_d s)) ValueError (
          require (no_z s) ValueError (Ok (sc, c0))))
      end)
  end.
(** [_check_and_set_learner] (rdd.py:522-553): the learners to be fitted and the
    way they predict, and whether ml_m is ignored. *)
Definition check_rd_learners (fuzzy : bool) (ml_g : rd_learner_arg E) (ml_m : option (rd_learner_arg E)) : result (rd_learner * rd_learner * list rd_warning) :=
  let! g_cls := check_learner (wl_learner ml_g) true true in
  let! _ := check_weights_supported ml_g in
  let! _ := check_outcome g_cls (M_Data.dd_by s) in
  let lg := learn (ly_obj (wl_learner ml_g)) g_cls in
  if fuzzy then
    match ml_m with
    | Some m =>
        let! _ := check_learner (wl_learner m) false true in
        let! _ := check_weights_supported m in
        Ok (lg, learn (ly_obj (wl_learner m)) true, [])
    | None => Err ValueError
    end
  else Ok (lg, lg, match ml_m with Some _ => [IgnoredLearner] | None => [] end).
(** [_check_effect_sign] (rdd.py:608-615). *)
Definition check_effect_sign (score w : nat -> R) : result (list rd_warning) :=
  let! l := np_average n (fun i => rltb (score i) 0) d w in
  let! r := np_average n (fun i => rltb 0 (score i)) d w in
  Ok (if rltb (/ 10 ^ 6) (l - r) then [WrongSide] else []).
(** [__init__] (rdd.py:99-165). *)
Definition rd_init (ml_g : rd_learner_arg E) (ml_m : option (rd_learner_arg E)) (fuzzy : bool) (cutoff n_folds n_rep h_fs spec : pyval) (kernel_arg : kern_arg)
  : result (rd_obj * list rd_warning) :=
  let! (sc, c0) := check_rd_data cutoff in
  let score := fun i => sc i - c0 in
  let w1 := if negb fuzzy && existsb (fun i => negb (reqb (d i) (intended (score i)))) (seq 0 n) then [LooksFuzzy] else [] in
  let! (ls, w2) := check_rd_learners fuzzy ml_g ml_m in
  let! _ := resampling_specification n_folds n_rep in
  let! h := set_h_fs (bwselect y score (if fuzzy then Some d else None)) h_fs in
  let! sp := set_fs_spec spec in
  let! k := set_kernel casefold kernel_arg in
  let! w3 := check_effect_sign score (fun i => k (score i) h) in
  let! smpls := resampling (Z.to_nat (int_val n_folds)) (Z.to_nat (int_val n_rep)) n (Some (value_codes d)) g in
  Ok ({| ro_n := n; ro_y := y; ro_d := d; ro_ty := ty; ro_td := td; ro_score := score; ro_x := feats f (M_Data.c_x s);
         ro_fuzzy := fuzzy; ro_spec := sp; ro_kernel := k; ro_h_fs := h; ro_smpls := smpls;
         ro_ml_g := fst ls; ro_ml_m := snd ls; ro_junk := junk; ro_robust := robust score |}, (w1 ++ w2 ++ w3)%list).
End RdInit.

(** ** Global learners (utils/global_learner.py:17-63, 66-139) *)
(** [fit] of a global learner: the kind of the base estimator is checked, the
    weights are dropped, a clone of the base estimator is fitted; [predict] and
    [predict_proba] ask it.  [class]: GlobalClassifier. *)
Definition base_kind {E} (class : bool) (base : pylearner E) : bool := if class then ly_classifier base else ly_regressor base.
Definition global_rule {E} (plain : E -> bool -> list (list R * R) -> list R -> R) (base : E) (proba : bool) : rd_learner :=
  fun train => plain base proba (map fst train).
Definition global_fit {E} (plain : E -> bool -> list (list R * R) -> list R -> R) (class : bool) (base : pylearner E) (proba : bool) (train : list (list R * R * R)) : result (list R -> R) :=
  require (base_kind class base) ValueError (Ok (global_rule plain (ly_obj base) proba train)).
(** The global learner as an argument of a constructor: an instance with fit
    (which takes weights), set_params and get_params; its kind is its own. *)
Definition global_arg {E G} (wrap : E -> G) (class : bool) (base : pylearner E) : rd_learner_arg G :=
  {| wl_learner := {| ly_obj := wrap (ly_obj base); ly_is_class := false; ly_fit := true; ly_set := true; ly_get := true; ly_predict := true; ly_proba := class;
                      ly_classifier := class; ly_regressor := negb class |};
     wl_weights := true |}.

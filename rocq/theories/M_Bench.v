(** Model of [sensitivity_benchmark] (double_ml.py:1621-1661) for objects of the
    classes with sensitivity analysis.

    Simplifications.
    - [copy.deepcopy(self)] is the value of the object: the refit works on the
      copy and its effects are dropped with it.
    - The data object is the one the estimator was constructed from; what the
      copy computes from its changed data object is what the constructor would
      have set up for these data (the checks of the constructor read nothing that
      depends on the covariates, lemma [make_without]).
    - The returned data frame is the four columns; its index are the treatments. *)
From Verif Require M_Data.
From Verif Require Export M_Init M_Gain.
Local Open Scope R_scope.
Local Open Scope string_scope.
Local Open Scope res_scope.

(** Constructor calls, everything but the data. *)
Inductive call (E : Type) :=
| CallPLR (ml_l ml_m : pylearner E) (ml_g : option (pylearner E)) (n_folds n_rep score draw : pyval)
| CallIRM (ml_g ml_m : pylearner E) (n_folds n_rep score : pyval) (weights : warg) (norm rule thr draw : pyval)
| CallAPO (ml_g ml_m : pylearner E) (level n_folds n_rep score : pyval) (weights : warg) (norm rule thr draw : pyval)
| CallDID (ml_g : pylearner E) (ml_m : option (pylearner E)) (n_folds n_rep score norm rule thr draw : pyval)
| CallDIDCS (ml_g : pylearner E) (ml_m : option (pylearner E)) (n_folds n_rep score norm rule thr draw : pyval).
Arguments CallPLR {E}. Arguments CallIRM {E}. Arguments CallAPO {E}. Arguments CallDID {E}. Arguments CallDIDCS {E}.

(** [benchmarking_set]: a list or another object; [fit_args]: None, a dictionary
    for [fit] (with or without a key that is no argument of [fit]), or another
    object.  Missing keys take the defaults of [fit] (473). *)
Inductive set_arg := BList (l : list string) | BOther.
Inductive fit_arg := FitNone | FitDict (known : bool) (n_jobs store : pyval) (ext : ext_arg) (models : pyval) | FitOther.

(** What [gain_statistics] reads from an estimator (gain_statistics.py:24-26,
    77-90): [framework.sensitivity_elements] and [all_coef]; no framework:
    AttributeError.  nan in [all_coef] is totalised to 0 (the theorems are about
    objects without nan). *)
Definition gain_model {P} (w : world P) : result gmodel :=
  match m_fw (w_obj w) with
  | None => Err AttributeError
  | Some i =>
      match nth_error (w_fws w) i with
      | None => Err RuntimeError
      | Some o =>
          Ok {| gm_sens := option_map (fun e => match se_bench e with Some (s2, nu) => (Val s2, Val nu) | None => (Absent, Absent) end)
                             (fw_sens (fw_view (w_heap w) o));
                gm_coef := Some (b_nd (hget (w_heap w) (m_all_coef (w_obj w)))) |}
      end
  end.
(** [np.var(dml_long._dml_data.y)]. *)
Definition var_col (n : nat) (v : vec) : R := meanf n (fun i => (v i - meanf n v) ^ 2).
(** [[x for x in x_list_long if x not in benchmarking_set]]. *)
Definition short_list (long set : list string) : list string := filter (fun c => negb (M_Data.mem c set)) long.

Section Bench.
Context {E P : Type}.
Variable L : learner E row P.
Variable rd : randomness.
Variable f : frame.
Definition make (c : call E) (s : ddata) : result (ctx P * world P) :=
  match c with
  | CallPLR ml_l ml_m ml_g nf nr score draw => plr_init L rd f s ml_l ml_m ml_g nf nr score draw
  | CallIRM ml_g ml_m nf nr score wa norm rule thr draw => irm_init L rd f s ml_g ml_m nf nr score wa norm rule thr draw
  | CallAPO ml_g ml_m level nf nr score wa norm rule thr draw => apo_init L rd f s ml_g ml_m level nf nr score wa norm rule thr draw
  | CallDID ml_g ml_m nf nr score norm rule thr draw => did_init L rd f s ml_g ml_m nf nr score norm rule thr draw
  | CallDIDCS ml_g ml_m nf nr score norm rule thr draw => cs_init L rd f s ml_g ml_m nf nr score norm rule thr draw
  end.
(** [check_X_y] at the start of every nuisance estimation (e.g.
    plm/plr.py:153-154) refuses an empty set of features.  (The number of
    features is the same for all treatments.) *)
Definition some_x (s : ddata) (C : ctx P) : ctx P :=
  {| c_n := c_n C; c_dcols := c_dcols C; c_cluster := c_cluster C; c_strata := c_strata C; c_learners := c_learners C; c_classifier := c_classifier C; c_ext_ok := c_ext_ok C;
     c_nuis := match M_Data.c_x s with [] => fun _ _ _ _ _ => Err ValueError | _ => c_nuis C end;
     c_sens := c_sens C |}.

(** [sensitivity_benchmark] of an estimator in state [w] that the call [c]
    constructed from the data object [s]. *)
Definition sensitivity_benchmark (c : call E) (s : ddata) (bs : set_arg) (fa : fit_arg) (w : world P) : result (nat * nat * gains) :=
  let long := M_Data.r_x (M_Data.dd_roles s) in
  match m_sens (w_obj w) with
  | None => Err NotImplementedError
  | Some _ =>
  match bs with
  | BOther => Err TypeError
  | BList l =>
      require (negb (Nat.eqb (length l) 0)) ValueError (
      require (M_Data.subset l long) ValueError (
      let! args := match fa with
                   | FitNone => Ok (true, PNone, PBool true, ExtNone, PBool false)
                   | FitDict known nj store ext sm => Ok (known, nj, store, ext, sm)
                   | FitOther => Err TypeError
                   end in
      let! s' := M_Data.lift (M_Data.assign f s (M_Data.SetX (M_Data.CList (short_list long l)))) in
      let! o := make c s' in
      let '(known, nj, store, ext, sm) := args in
      require known TypeError (
      match fit (some_x s' (fst o)) nj store ext sm w with
      | (_, Err e) => Err e
      | (w', Ok _) =>
          let! long := gain_model w in
          let! short := gain_model w' in
          gain_statistics (var_col (M_Data.frows f) (col f (M_Data.c_y s))) long short
      end)))
  end
  end.
End Bench.

(** Properties C30-C35, C68, C69: the data containers. *)
From Verif Require Import Base M_Data S_Data L_Data L_DataOps L_DataProps L_DataArrays L_EmptyD L_DataWitness.
Open Scope string_scope.
Open Scope list_scope.

(** C30: after construction and any number of successful assignments, no column
    has two roles or one role twice, and every role names data columns. *)
Theorem C30_roles_stay_disjoint : forall f s, reachable f s -> well_formed f (dd_roles s).
Proof. exact roles_reachable. Qed.
Print Assumptions C30_roles_stay_disjoint.

(** Also when the caller catches exceptions of rejected assignments: each role
    on its own stays free of repetitions and inside the data … *)
Theorem C30_each_role_any_history : forall f s0 l s es,
  constructed f s0 -> assigns f s0 l = (s, es) -> each_role f (dd_roles s).
Proof. exact roles_any_history. Qed.
Print Assumptions C30_each_role_any_history.

(** … and every successful role assignment re-establishes disjointness. *)
Theorem C30_success_restores : forall f s0 l s es o s',
  constructed f s0 -> assigns f s0 l = (s, es) ->
  sets_role o = true -> (r_cl (dd_roles s) <> None \/ forall v, o <> SetCluster v) ->
  assign f s o = (s', None) -> well_formed f (dd_roles s').
Proof. exact roles_after_success. Qed.
Print Assumptions C30_success_restores.

(** Usable roles are accepted as given. *)
Theorem C30_usable_roles_accepted : forall f r other fo, usable f r fo ->
  exists s, construct f (option_map CList (r_cl r)) (CStr (r_y r)) (CList (r_d r)) (CList (r_x r))
      (olist (r_z r)) (ostr (r_t r)) (ostr (r_s r)) (FBool other) (farg_of fo) = Ok s /\
    dd_roles s = r /\ dd_other s = other /\ dd_force s = fo /\ c_d s = hd EmptyString (r_d r).
Proof. exact construct_ok. Qed.
Print Assumptions C30_usable_roles_accepted.

(** The list passed as x_cols stays shared with the caller, who can undo the
    disjointness without any check. *)
Theorem C30_shared_list_refuted :
  exists f s l, reachable f s /\ ~ well_formed f (dd_roles (caller_changes_x s l)).
Proof. exact shared_list. Qed.
Print Assumptions C30_shared_list_refuted.

Example C30_case : usable ex_frame ex_cluster_roles Strict /\
  exists s s', constructed ex_frame s /\ assign ex_frame s (SetX (CList ["x2"; "x1"])) = (s', None) /\
    r_x (dd_roles s') = ["x2"; "x1"].
Proof.
  split; [apply ex_cluster_usable|].
  destruct (construct_of ex_frame ex_cluster_roles true Strict (ex_cluster_usable _)) as [s [K [R [O [F _]]]]].
  exists s. eexists. split; [exact K|].
  destruct s as [r o fo bt b a1 a2 a3 a4 a5 a6 a7]. cbn in R, O, F. subst r o fo.
  split; reflexivity.
Qed.

(** C31: an assignment with an unusable argument (type, repeated names, unknown
    column) changes nothing. *)
Theorem C31_bad_argument : forall f s o,
  (r_cl (dd_roles s) <> None \/ forall v, o <> SetCluster v) ->
  ~ acceptable f o -> exists e, assign f s o = (s, Some e).
Proof. exact bad_argument. Qed.
Print Assumptions C31_bad_argument.

(** Choosing the active treatment is all or nothing. *)
Theorem C31_active_treatment : forall f s v s' e, assign f s (SetXD v) = (s', Some e) -> s' = s.
Proof. exact set_xd_atomic. Qed.
Print Assumptions C31_active_treatment.

(** Other rejections do leave the new value behind: whenever a covariate is
    assigned as outcome, the rejected value stays and the roles overlap. *)
Theorem C31_overlap_refuted : forall f s c, reachable f s -> In c (r_x (dd_roles s)) ->
  exists s', assign f s (SetY (CStr c)) = (s', Some ValueError) /\ r_y (dd_roles s') = c /\
    s' <> s /\ ~ well_formed f (dd_roles s').
Proof. exact overlap_outcome. Qed.
Print Assumptions C31_overlap_refuted.

(** An empty list of treatments is refused by an IndexError and stays in the object;
    then neither the covariates nor the treatment of other treatments as covariates
    can be assigned, while the old treatment remains active. *)
Theorem C31_empty_treatments_refuted : forall f s, reachable f s -> exists s', assign f s (SetD (CList [])) = (s', Some IndexError) /\ r_d (dd_roles s') = [] /\ s' <> s /\ c_d s' = c_d s /\
  (forall b, snd (assign f s' (SetOther (FBool b))) = Some IndexError) /\ (forall l, snd (assign f s' (SetX (CList l))) <> None).
Proof. exact empty_treatments. Qed.
Print Assumptions C31_empty_treatments_refuted.

(** Assigning the old value again repairs the object: the result is the one
    obtained without the rejected assignment. *)
Theorem C31_recovery : forall f s o s1 e, reachable f s -> sets_role o = true -> assign f s o = (s1, Some e) ->
  exists s2, assign f s1 (undo s o) = (s2, None) /\ assign f s (undo s o) = (s2, None) /\
    dd_roles s2 = dd_roles s.
Proof. exact recovery_reachable. Qed.
Print Assumptions C31_recovery.

Example C31_case : exists s s1 e, reachable ex_frame s /\
  assign ex_frame s (SetY (CStr "x1")) = (s1, Some e) /\ ~ acceptable ex_frame (SetD (CList ["d1"; "d1"])) /\
  ~ acceptable ex_frame (SetT (CStr "absent")).
Proof.
  destruct (construct_of ex_frame ex_roles true Strict (ex_usable _)) as [s [K [R _]]].
  exists s. destruct (C31_overlap_refuted ex_frame s "x1" (R_new _ _ K)) as [s1 [A _]]; [rewrite R; cbn; tauto|].
  exists s1, ValueError. split; [now apply R_new|]. split; [exact A|]. split.
  - intros [_ [N _]]. apply distinct_iff in N. discriminate.
  - intros [_ [_ N]]. apply subset_iff in N. discriminate.
Qed.

(** C32: with x_cols=None the covariates are the data columns without another
    role, in the order of the data. *)
Theorem C32_default_covariates : forall f cl y d z t v other fo s,
  construct f cl y d CNone z t v other fo = Ok s ->
  let r := dd_roles s in
  exists keep, r_x r = filter keep (fcols f) /\
    forall c, keep c = true <->
      (c <> r_y r /\ ~ In c (r_d r) /\ ~ In c (optl (r_z r)) /\ r_t r <> Some c /\ r_s r <> Some c /\
       ~ In c (optl (r_cl r))).
Proof. exact default_covariates. Qed.
Print Assumptions C32_default_covariates.

Theorem C32_default_assigned : forall f s s', assign f s (SetX CNone) = (s', None) ->
  let r := dd_roles s' in
  exists keep, r_x r = filter keep (fcols f) /\
    forall c, keep c = true <->
      (c <> r_y r /\ ~ In c (r_d r) /\ ~ In c (optl (r_z r)) /\ r_t r <> Some c /\ r_s r <> Some c /\
       ~ In c (optl (r_cl r))).
Proof. exact default_covariates_assigned. Qed.
Print Assumptions C32_default_assigned.

(** The default is not kept up: a column released by another role is dropped
    from the analysis. *)
Theorem C32_not_refreshed_refuted : exists f s s' c y d z t v other fo,
  construct f None y d CNone z t v other fo = Ok s /\
  assign f s (SetZ CNone) = (s', None) /\ In c (fcols f) /\ ~ In c (role_columns (dd_roles s')).
Proof. exact not_refreshed. Qed.
Print Assumptions C32_not_refreshed_refuted.

Example C32_case : exists s, construct ex_frame (Some (CStr "c")) (CStr "y") (CList ["d1"; "d2"]) CNone (CStr "z")
    (CStr "t") CNone (FBool true) (FStr "allow-nan") = Ok s /\ r_x (dd_roles s) = ["x1"; "x2"; "s"; "w"].
Proof. eexists. split; reflexivity. Qed.

(** C33: the features are the covariates followed by the other treatments, if
    those are to be used … *)
Theorem C33_features : forall f s, reachable f s ->
  c_x s = features (dd_roles s) (dd_other s) (c_d s) /\ In (c_d s) (r_d (dd_roles s)).
Proof. exact features_reachable. Qed.
Print Assumptions C33_features.

(** … and never contain the active treatment, the outcome, an instrument, the
    time, selection or cluster variables. *)
Theorem C33_features_clean : forall f s c, reachable f s -> In c (c_x s) ->
  c <> c_d s /\ c <> c_y s /\ ~ In c (optl (c_z s)) /\ c_t s <> Some c /\ c_s s <> Some c /\ ~ In c (optl (c_cl s)).
Proof. exact features_no_role. Qed.
Print Assumptions C33_features_clean.

Theorem C33_features_distinct : forall f s, reachable f s -> NoDup (c_x s).
Proof. exact features_distinct. Qed.
Print Assumptions C33_features_distinct.

(** Every treatment can be made the active one, provided its column and its
    features hold the required numbers. *)
Theorem C33_activate : forall f s d, reachable f s -> In d (r_d (dd_roles s)) -> number_column f d ->
  (forall c, In c (features (dd_roles s) (dd_other s) d) -> allowed_column (dd_force s) f c) ->
  exists s', assign f s (SetXD (CStr d)) = (s', None) /\ c_d s' = d /\
    c_x s' = features (dd_roles s) (dd_other s) d.
Proof. exact activate_ok. Qed.
Print Assumptions C33_activate.

(** After a rejected assignment this fails: in every reachable state the
    rejected attempt to use the outcome as covariate makes the outcome a feature
    at the next choice of the active treatment, without any exception. *)
Theorem C33_after_rejection_refuted : forall f s, reachable f s ->
  exists s1 s2, assign f s (SetX (CStr (r_y (dd_roles s)))) = (s1, Some ValueError) /\
    assign f s1 (SetXD (CStr (c_d s))) = (s2, None) /\ c_d s2 = c_d s /\ c_y s2 = c_y s /\ In (c_y s2) (c_x s2).
Proof. exact leak_after_rejection. Qed.
Print Assumptions C33_after_rejection_refuted.

Example C33_case : exists s s', reachable ex_frame s /\ assign ex_frame s (SetXD (CStr "d2")) = (s', None) /\
  c_x s = ["x1"; "x2"; "d2"] /\ c_x s' = ["x1"; "x2"; "d1"].
Proof.
  destruct (construct_of ex_frame ex_roles true Strict (ex_usable _)) as [s [K [R [O [F D]]]]].
  assert (X := proj1 (C33_features _ _ (R_new _ _ K))). rewrite R, O, D in X.
  destruct (C33_activate ex_frame s "d2" (R_new _ _ K)) as [s' [A [_ B]]].
  - rewrite R. cbn. tauto.
  - apply ex_number. cbn. tauto.
  - rewrite R, O. intros c Hc. apply number_allowed, ex_number. cbn in *. tauto.
  - exists s, s'. split; [now apply R_new|]. split; [exact A|]. split; [exact X|].
    rewrite B, R, O. reflexivity.
Qed.

(** C34: right after construction, and as long as outcome and treatments are not
    assigned, the binary indicators describe the data … *)
Theorem C34_constructed : forall f s, constructed f s -> binary_current f s.
Proof. exact binary_constructed. Qed.
Print Assumptions C34_constructed.

Theorem C34_other_assignments_partial : forall f l s0 s es, constructed f s0 ->
  forallb (fun o => negb (sets_y_or_d o)) l = true ->
  assigns f s0 l = (s, es) -> binary_current f s.
Proof. exact binary_other. Qed.
Print Assumptions C34_other_assignments_partial.

(** … but they are not refreshed when the treatments or the outcome change. *)
Theorem C34_treatment_refuted : exists f s s',
  constructed f s /\ assign f s (SetD (CStr "d2")) = (s', None) /\
  r_d (dd_roles s') = ["d2"] /\ map fst (dd_bt s') = ["d1"] /\ ~ binary_current f s'.
Proof. exact binary_stale. Qed.
Print Assumptions C34_treatment_refuted.

Theorem C34_outcome_refuted : exists f s s',
  constructed f s /\ assign f s (SetY (CStr "x1")) = (s', None) /\
  dd_by s' = true /\ ~ zero_one_column f (r_y (dd_roles s')).
Proof. exact binary_outcome_stale. Qed.
Print Assumptions C34_outcome_refuted.

Example C34_case : exists s, constructed ex_frame s /\ map fst (dd_bt s) = ["d1"; "d2"] /\
  zero_one_column ex_frame "d1" /\ ~ zero_one_column ex_frame "d2".
Proof.
  destruct (construct_of ex_frame ex_roles true Strict (ex_usable _)) as [s [K [R _]]].
  exists s. split; [exact K|]. split; [rewrite (proj1 (proj2 (C34_constructed _ _ K))), R; reflexivity|].
  split; [exact ex_d1_binary|exact ex_d2_not_binary].
Qed.

(** C35: an object built from arrays carries exactly these arrays … *)
Theorem C35_round_trip : forall x y d z t v other fo f s,
  from_arrays x y d z t v other fo = Ok (f, s) ->
  constructed f s /\ frows f = a_rows x /\ pieces f s x y d z t v.
Proof. exact from_arrays_roundtrip. Qed.
Print Assumptions C35_round_trip.

(** … under distinct names … *)
Theorem C35_distinct_names : forall x y d z t v other fo f s,
  from_arrays x y d z t v other fo = Ok (f, s) ->
  NoDup (fcols f) /\ NoDup (role_columns (dd_roles s)) /\
  (forall c, In c (fcols f) <-> In c (role_columns (dd_roles s))).
Proof. exact from_arrays_names. Qed.
Print Assumptions C35_distinct_names.

(** … and exactly the arrays that fit together are accepted. *)
Theorem C35_accepts : forall x y d z t v other fo,
  (exists f s, from_arrays x y d z t v (FBool other) (farg_of fo) = Ok (f, s)) <-> fits fo x y d z t v.
Proof. exact from_arrays_accepts. Qed.
Print Assumptions C35_accepts.

(** The same for cluster data. *)
Theorem C35_cluster_round_trip : forall x y d cl z t v other fo f s,
  cluster_from_arrays x y d cl z t v other fo = Ok (f, s) ->
  constructed f s /\ frows f = a_rows x /\ a_rows cl = a_rows x /\ pieces f s x y d z t v /\
  exists l, r_cl (dd_roles s) = Some l /\ columns_are f l cl.
Proof. exact cluster_roundtrip. Qed.
Print Assumptions C35_cluster_round_trip.

Theorem C35_cluster_accepts : forall x y d cl z t v other fo,
  (exists f s, cluster_from_arrays x y d cl z t v (FBool other) (farg_of fo) = Ok (f, s)) <->
  fits fo x y d z t v /\ matrix (a_rows x) cl.
Proof. exact cluster_accepts. Qed.
Print Assumptions C35_cluster_accepts.

Example C35_case :
  fits Strict (ex_arr 2) (ex_arr 1) (ex_arr 2) (Some (ex_arr 1)) None (Some (ex_arr 1)) /\
  exists f s, from_arrays (ex_arr 2) (ex_arr 1) (ex_arr 2) (Some (ex_arr 1)) None (Some (ex_arr 1)) (FBool true) (FBool true)
    = Ok (f, s) /\ fcols f = ["X1"; "X2"; "y"; "d1"; "d2"; "z"; "s"] /\ c_x s = ["X1"; "X2"; "d2"].
Proof. split; [exact ex_fits|]. eexists. eexists. split; [reflexivity|]. split; reflexivity. Qed.

(** C68: the arrays y, z, t, s, d, cluster_vars are the columns named by the
    role attributes after any number of successful assignments … *)
Theorem C68_arrays_current : forall f s, reachable f s -> arrays_current s.
Proof. exact arrays_reachable. Qed.
Print Assumptions C68_arrays_current.

(** … but not after a rejected one. *)
Theorem C68_after_rejection_refuted : exists f s s1 e,
  reachable f s /\ assign f s (SetD (CStr "w")) = (s1, Some e) /\
  r_d (dd_roles s1) = ["w"] /\ c_d s1 = "d1".
Proof. exact arrays_stale. Qed.
Print Assumptions C68_after_rejection_refuted.

Example C68_case : exists s s', reachable ex_frame s /\ assign ex_frame s (SetT (CStr "s")) = (s', None) /\
  c_t s = Some "t" /\ c_t s' = Some "s".
Proof.
  destruct (construct_of ex_frame ex_roles true Strict (ex_usable _)) as [s [K [R [O [F D]]]]].
  exists s. eexists. split; [now apply R_new|].
  assert (A := C68_arrays_current _ _ (R_new _ _ K)). destruct A as [_ [_ [A _]]]. rewrite R in A. cbn in A.
  destruct s as [r o fo bt b a1 a2 a3 a4 a5 a6 a7]. cbn in R, O, F, A. subst r o fo a3.
  split; [reflexivity|]. split; reflexivity.
Qed.

(** C69: the outcome, active treatment, instruments, time, selection and cluster
    arrays hold numbers only, the features what force_all_x_finite allows. *)
Theorem C69_numbers : forall f s, reachable f s ->
  (forall c, In c ([c_y s; c_d s] ++ optl (c_z s) ++ opt1 (c_t s) ++ opt1 (c_s s) ++ optl (c_cl s)) ->
     number_column f c) /\
  (forall c, In c (c_x s) -> allowed_column (dd_force s) f c).
Proof. exact numbers. Qed.
Print Assumptions C69_numbers.

Example C69_case : exists s s' e, reachable ex_frame s /\
  assign ex_frame s (SetX (CList ["x1"; "w"])) = (s', Some e) /\ fcell ex_frame "w" 0 = NaN.
Proof.
  destruct (construct_of ex_frame ex_roles true Strict (ex_usable _)) as [s [K [R [O [F D]]]]].
  exists s. eexists. eexists. split; [now apply R_new|].
  destruct s as [r o fo bt b a1 a2 a3 a4 a5 a6 a7]. cbn in R, O, F. subst r o fo.
  split; reflexivity.
Qed.

(** Vocabulary for the statements about the objects of the quantile models. *)
From Verif Require Export S_Init S_Local S_Quantile M_QObject.
Local Open Scope R_scope.
Local Open Scope string_scope.

(** A float strictly between zero and one. *)
Definition quantile_ok (v : pyval) (q : R) : Prop := v = PFloat q /\ 0 < q < 1.
(** An integer, or a boolean, equal to zero or one: the number of the arm. *)
Definition arm_number (v : pyval) (a : R) : Prop :=
  (v = PInt 0 \/ v = PBool false) /\ a = 0 \/ (v = PInt 1 \/ v = PBool true) /\ a = 1.
(** Nothing, or a function. *)
Definition kernel_ok (k : kde_arg) : Prop := k = KdeNone \/ exists h, k = KdeFun h.
(** Both values of the treatment occur in the data. *)
Definition both_arms (f : M_Data.frame) (s : M_Data.ddata) : Prop :=
  forall c, binary_treatment f s c -> forall a, a = 0 \/ a = 1 -> exists i, (i < M_Data.frows f)%nat /\ col f c i = a.
(** The options shared by the three models. *)
Definition quantile_options (name : string) (score treatment quantile norm rule thr : pyval) : Prop :=
  score = PStr name /\ (exists q, quantile_ok quantile q) /\ (exists a, arm_number treatment a) /\ boolean norm /\ trimming_ok rule thr.
(** A single binary instrument. *)
Definition binary_instrument (f : M_Data.frame) (s : M_Data.ddata) (z : string) : Prop :=
  M_Data.r_z (M_Data.dd_roles s) = Some [z] /\ S_Data.zero_one_column f z.

(** The smallest and the largest value of [y]. *)
Definition range_of (n : nat) (y : vec) (b : R * R) : Prop :=
  (forall i, (i < n)%nat -> fst b <= y i <= snd b) /\ (exists i, (i < n)%nat /\ y i = fst b) /\ exists j, (j < n)%nat /\ y j = snd b.
(** [e] is a clone of [e0] with the parameters of fold [k], if any are set. *)
Definition fold_clone {E P} (L : learner E row P) (prm : option (list P)) (e0 : E) (k : nat) (e : E) : Prop :=
  match prm with
  | None => e = ln_clone L e0
  | Some l => exists p, nth_error l k = Some p /\ ln_set L (ln_clone L e0) p = Ok e
  end.
(** The parameters of the object for a learner, treatment and repetition. *)
Definition params_at {P} (w : world P) (l dcol : string) (r : nat) : option (list P) := nth r (m_params (w_obj w) l dcol) None.
(** Configuration of one repetition of a quantile model. *)
Record quantile_setting {E} (c : @pq_cfg E) (cvar : bool) (n : nat) (y : vec) (a q : R) (norm : bool) (thr : R) : Prop := {
  qs_kind : qc_cvar c = cvar; qs_n : qc_n c = n; qs_arm : level (qc_treated c) = a; qs_q : qc_q c = q; qs_norm : qc_norm c = norm; qs_thr : qc_thr c = thr;
  qs_range : range_of n y (qc_bounds c) }.
(** No propensity used for weighting is zero. *)
Definition weights_defined (n : nat) (treated norm : bool) (thr : R) (d m : vec) : Prop := forall i, (i < n)%nat -> pq_adjust n treated norm thr d m i <> 0.

(** An object reached from [b0] by any method calls, drawn splits permuting. *)
Definition nl_good {P} (o : nl_op (P:=P)) : Prop := match o with NDraw g perm => shuffles g /\ perm_ok perm | _ => True end.
Definition nl_later {P} (sv : solvers) (K : nl_class (P:=P)) (b0 b : nl_obj (P:=P)) : Prop := exists ops, (forall o, In o ops -> nl_good o) /\ b = nl_run sv K ops b0.
(** A value between the smallest and the largest outcome. *)
Definition among (n : nat) (y : vec) (t : R) : Prop := (exists i, (i < n)%nat /\ y i <= t) /\ exists j, (j < n)%nat /\ t <= y j.
(** Configuration of one repetition of a local quantile model. *)
Record local_setting {E} (c : @lpq_cfg E) (n : nat) (y : vec) (a q : R) (norm : bool) (thr : R) : Prop := {
  ls_n : lc_n c = n; ls_arm : level (lc_treated c) = a; ls_q : lc_q c = q; ls_norm : lc_norm c = norm; ls_thr : lc_thr c = thr;
  ls_range : range_of n y (lc_bounds c) }.
(** The learner of each of the five functions. *)
Definition local_learner {E} (ml_g ml_m : pylearner E) (name : string) : pylearner E :=
  if String.eqb name "ml_g_du_z0" || String.eqb name "ml_g_du_z1" then ml_g else ml_m.
Definition propensities_defined (n : nat) (m : vec) : Prop := forall i, (i < n)%nat -> m i <> 0 /\ m i <> 1.

(** When a fit succeeds.  The learner can be trained on all non-empty data and
    takes all parameters. *)
Definition trains {E P} (L : learner E row P) : Prop :=
  (forall e data, data <> [] -> exists m, ln_fit L e data = Ok m) /\ (forall e p, exists e', ln_set L e p = Ok e').
(** No parameters, or one set for each fold. *)
Definition params_fit {P} (prm : option (list P)) (k : nat) : Prop := match prm with None => True | Some l => length l = k end.
(** The inner split of rows carrying two different labels. *)
Definition inner_usable (v : vec) (rows : list nat) (inner : list fold) (order : list nat) : Prop :=
  inner_split v rows inner order /\ (forall h, In h inner -> fst h <> []) /\ exists i j, In i rows /\ In j rows /\ v i <> v j.
Definition pq_usable (o : q_oracles) (a : R) (d : vec) (smpls : list fold) : Prop :=
  forall h, In h smpls -> fst h <> [] /\ inner_usable d (first_half o d h) (qo_skf o (map d (first_half o d h))) (qo_order o) /\
    exists j, In j (second_half o d h) /\ d j = a.
Definition lpq_usable (o : q_oracles) (d z : vec) (smpls : list fold) : Prop :=
  forall h, In h smpls -> inner_usable z (lfirst_half o d z h) (qo_skf o (map (cells4 d z) (lfirst_half o d z h))) (qo_order o) /\
    forall b, b = 0 \/ b = 1 -> (exists j, In j (fst h) /\ z j = b) /\ (exists j, In j (lfirst_half o d z h) /\ z j = b) /\ (exists j, In j (lsecond_half o d z h) /\ z j = b).

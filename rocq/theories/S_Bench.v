(** Specification of the benchmark of covariates. *)
From Verif Require M_Data S_Data.
From Verif Require Export M_Bench S_Gain S_Init.
Local Open Scope R_scope.
Local Open Scope string_scope.

(** The roles of a data object without the covariates [l]. *)
Definition without (l : list string) (r r' : M_Data.roles) : Prop :=
  M_Data.r_y r' = M_Data.r_y r /\ M_Data.r_d r' = M_Data.r_d r /\ M_Data.r_z r' = M_Data.r_z r /\ M_Data.r_t r' = M_Data.r_t r /\ M_Data.r_s r' = M_Data.r_s r /\ M_Data.r_cl r' = M_Data.r_cl r /\
  exists keep, M_Data.r_x r' = filter keep (M_Data.r_x r) /\ forall c, keep c = true <-> ~ In c l.
(** Every treatment has at least one feature. *)
Definition some_features (r : M_Data.roles) (other : bool) : Prop := forall c, In c (M_Data.r_d r) -> S_Data.features r other c <> [].
(** The keyword arguments of [fit] that a value of [fit_args] stands for. *)
Definition fit_with (fa : fit_arg) (n_jobs store : pyval) (ext : ext_arg) (models : pyval) : Prop :=
  match fa with
  | FitNone => n_jobs = PNone /\ store = PBool true /\ ext = ExtNone /\ models = PBool false
  | FitDict known a b c d => known = true /\ n_jobs = a /\ store = b /\ ext = c /\ models = d
  | FitOther => False
  end.
(** Same treatments and repetitions, and the same numbers for every treatment. *)
Definition same_benchmark (a b : nat * nat * gains) : Prop :=
  fst a = fst b /\ forall t, (t < fst (fst a))%nat ->
    ga_cf_y (snd a) t = ga_cf_y (snd b) t /\ ga_cf_d (snd a) t = ga_cf_d (snd b) t /\ ga_rho (snd a) t = ga_rho (snd b) t /\ ga_delta (snd a) t = ga_delta (snd b) t.
(** The estimator reports the residual variance [s2] of the outcome, the
    variation [nu] of the representer and the estimate [th] for treatment t in
    repetition j. *)
Definition reports_numbers {P} (w : world P) (t j : nat) (s2 nu th : R) : Prop :=
  exists F e a b, current_fw w F /\ fw_sens F = Some e /\ se_bench e = Some (a, b) /\
    at_ a [0%nat; t; j] = s2 /\ at_ b [0%nat; t; j] = nu /\ at_ (fw_all_thetas F) [t; j] = th.
(** Variance of the outcome over the rows. *)
Definition outcome_var (f : M_Data.frame) (s : M_Data.ddata) : R :=
  let n := M_Data.frows f in let y := outcome f s in meanf n (fun i => (y i - meanf n y) ^ 2).
(** Every estimate of the object is a number (none is nan). *)
Definition all_estimates {P} (w : world P) : Prop :=
  let b := hget (w_heap w) (m_all_coef (w_obj w)) in forall i, in_shape i (b_shape b) -> b_at b i <> None.
(** The benchmark of the estimator in state [w] against the estimator in state
    [w2]: the statistics of the two. *)
Definition compared {P} (f : M_Data.frame) (s : M_Data.ddata) (w w2 : world P) : result (nat * nat * gains) :=
  bind (gain_model w) (fun long => bind (gain_model w2) (fun short => gain_statistics (outcome_var f s) long short)).
(** Same exception, or the same numbers. *)
Definition same_outcome (a b : result (nat * nat * gains)) : Prop :=
  match a, b with Ok x, Ok y => same_benchmark x y | Err e, Err e' => e = e' | _, _ => False end.
(** Method calls without a call of [fit]. *)
Definition without_fit {P} (ops : list (op P)) : Prop := forall o, In o ops -> match o with OFit _ _ _ _ => False | _ => True end.

(** C86: the benchmark of covariates is the comparison with a separately
    constructed and fitted model without these covariates. *)
From Verif Require M_Data S_Data.
From Verif Require Import M_Bench S_Bench L_Bench L_BenchNew L_BenchWitness L_BenchData.
Local Open Scope R_scope.
Local Open Scope string_scope.

(** The model without the covariates can always be constructed. *)
Theorem C86_short_model : forall E P (L : learner E row P) rd f c s C w0 l, S_Data.constructed f s -> make L rd f c s = Ok (C, w0) ->
  exists s2 C2, S_Data.constructed f s2 /\ without l (M_Data.dd_roles s) (M_Data.dd_roles s2) /\ M_Data.dd_other s2 = M_Data.dd_other s /\ make L rd f c s2 = Ok (C2, w0).
Proof. exact @short_exists. Qed.
Print Assumptions C86_short_model.

(** After any history of method calls: whatever separately constructed model
    without the covariates [l], with the same split and nuisance parameters, is
    fitted with the arguments in [fit_args], the benchmark is the comparison
    with it (numbers or exception). *)
Theorem C86_separate_model : forall E P (L : learner E row P) rd f, sound_randomness rd ->
  forall c s s2 l fa n_jobs store ext models C C2 w0 w2i w w2,
  S_Data.constructed f s -> S_Data.constructed f s2 -> without l (M_Data.dd_roles s) (M_Data.dd_roles s2) -> M_Data.dd_other s2 = M_Data.dd_other s ->
  some_features (M_Data.dd_roles s2) (M_Data.dd_other s2) -> l <> [] -> incl l (M_Data.r_x (M_Data.dd_roles s)) -> fit_with fa n_jobs store ext models ->
  make L rd f c s = Ok (C, w0) -> make L rd f c s2 = Ok (C2, w2i) -> later C w0 w -> later C2 w2i w2 -> same_config w w2 -> all_estimates w ->
  forall w2', m_sens (w_obj w) <> None -> fit C2 n_jobs store ext models w2 = (w2', Ok tt) ->
  same_outcome (sensitivity_benchmark L rd f c s (BList l) fa w) (compared f s w w2').
Proof. exact @bench_separate'. Qed.
Print Assumptions C86_separate_model.

(** Directly after a successful fit the benchmark succeeds exactly if the
    separate fit does. *)
Theorem C86_success : forall E P (L : learner E row P) rd f, sound_randomness rd ->
  forall c s s2 l fa n_jobs store ext models C C2 w0 w2i w w2,
  S_Data.constructed f s -> S_Data.constructed f s2 -> without l (M_Data.dd_roles s) (M_Data.dd_roles s2) -> M_Data.dd_other s2 = M_Data.dd_other s ->
  some_features (M_Data.dd_roles s2) (M_Data.dd_other s2) -> l <> [] -> incl l (M_Data.r_x (M_Data.dd_roles s)) -> fit_with fa n_jobs store ext models ->
  make L rd f c s = Ok (C, w0) -> make L rd f c s2 = Ok (C2, w2i) -> later C w0 w -> later C2 w2i w2 -> same_config w w2 ->
  forall nj0 store0 ext0 sm0 w1, later C w0 w1 -> fit C nj0 store0 ext0 sm0 w1 = (w, Ok tt) ->
  (is_ok (sensitivity_benchmark L rd f c s (BList l) fa w) = true <-> exists w2', fit C2 n_jobs store ext models w2 = (w2', Ok tt)).
Proof. exact @bench_success. Qed.
Print Assumptions C86_success.

(** … and then reports, for every treatment, the medians over the repetitions of
    the relative gains, of the implied correlation and of the change of the
    estimate, computed from the numbers the two models report. *)
Theorem C86_values : forall E P (L : learner E row P) rd f, sound_randomness rd ->
  forall c s s2 l fa n_jobs store ext models C C2 w0 w2i w w2,
  S_Data.constructed f s -> S_Data.constructed f s2 -> without l (M_Data.dd_roles s) (M_Data.dd_roles s2) -> M_Data.dd_other s2 = M_Data.dd_other s ->
  some_features (M_Data.dd_roles s2) (M_Data.dd_other s2) -> l <> [] -> incl l (M_Data.r_x (M_Data.dd_roles s)) -> fit_with fa n_jobs store ext models ->
  make L rd f c s = Ok (C, w0) -> make L rd f c s2 = Ok (C2, w2i) -> later C w0 w -> later C2 w2i w2 -> same_config w w2 ->
  forall nj0 store0 ext0 sm0 w1, later C w0 w1 -> fit C nj0 store0 ext0 sm0 w1 = (w, Ok tt) ->
  forall w2' (s2l nl cl s2s ns cs : nat -> nat -> R), fit C2 n_jobs store ext models w2 = (w2', Ok tt) ->
  let k := length (M_Data.r_d (M_Data.dd_roles s)) in let r := m_n_rep (w_obj w) in
  (forall t j, (t < k)%nat -> (j < r)%nat -> reports_numbers w t j (s2l t j) (nl t j) (cl t j) /\ reports_numbers w2' t j (s2s t j) (ns t j) (cs t j)) ->
  exists g, sensitivity_benchmark L rd f c s (BList l) fa w = Ok (k, r, g) /\ forall t, (t < k)%nat ->
    ga_delta g t = medianf r (fun j => cs t j - cl t j) /\
    ga_rho g t = medianf r (fun j => implied_rho (s2l t j) (s2s t j) (nl t j) (ns t j) (cs t j - cl t j)) /\
    (outcome_var f s <> 0 -> (forall j, (j < r)%nat -> s2l t j <> 0) -> ga_cf_y g t = Fin (medianf r (fun j => outcome_gain (s2l t j) (s2s t j)))) /\
    ((forall j, (j < r)%nat -> nl t j <> 0 /\ ns t j <> 0) -> ga_cf_d g t = Fin (medianf r (fun j => riesz_gain (nl t j) (ns t j)))).
Proof. exact @bench_values. Qed.
Print Assumptions C86_values.

(** Refused calls. *)
Theorem C86_rejections : forall E P (L : learner E row P) rd f c s w fa, m_sens (w_obj w) <> None ->
  sensitivity_benchmark L rd f c s BOther fa w = Err TypeError /\
  sensitivity_benchmark L rd f c s (BList []) fa w = Err ValueError /\
  (forall l, ~ incl l (M_Data.r_x (M_Data.dd_roles s)) -> sensitivity_benchmark L rd f c s (BList l) fa w = Err ValueError) /\
  (forall l, l <> [] -> incl l (M_Data.r_x (M_Data.dd_roles s)) -> sensitivity_benchmark L rd f c s (BList l) FitOther w = Err TypeError).
Proof. exact @bench_rejects. Qed.
Print Assumptions C86_rejections.

(** An argument that [fit] does not have. *)
Theorem C86_unknown_argument : forall E P (L : learner E row P) rd f c s C w0 l nj store ext sm w, S_Data.constructed f s -> make L rd f c s = Ok (C, w0) ->
  m_sens (w_obj w) <> None -> l <> [] -> incl l (M_Data.r_x (M_Data.dd_roles s)) ->
  sensitivity_benchmark L rd f c s (BList l) (FitDict false nj store ext sm) w = Err TypeError.
Proof. exact @bench_unknown. Qed.
Print Assumptions C86_unknown_argument.

(** Without any feature left there is no benchmark. *)
Theorem C86_no_features : forall E P (L : learner E row P) rd f, sound_randomness rd ->
  forall c s C w0 w l fa, S_Data.constructed f s -> make L rd f c s = Ok (C, w0) -> later C w0 w ->
  incl (M_Data.r_x (M_Data.dd_roles s)) l -> incl l (M_Data.r_x (M_Data.dd_roles s)) ->
  (M_Data.dd_other s = false \/ exists d, M_Data.r_d (M_Data.dd_roles s) = [d]) -> exists e, sensitivity_benchmark L rd f c s (BList l) fa w = Err e.
Proof. exact @bench_all. Qed.
Print Assumptions C86_no_features.

(** Before the first fit every call raises NotImplementedError, although the
    class supports the analysis. *)
Theorem C86_unfitted : forall E P (L : learner E row P) rd f c s C w0 ops bs fa, make L rd f c s = Ok (C, w0) -> without_fit ops ->
  sensitivity_benchmark L rd f c s bs fa (run C ops w0) = Err NotImplementedError.
Proof. exact @bench_unfitted. Qed.
Print Assumptions C86_unfitted.

(** An interactive regression model with covariates "x" and "c", benchmarked by
    leaving out "c": all hypotheses are met. *)
Example C86_case : exists s s2 C C2 w0 w1 w w2 w2', S_Data.constructed i_frame s /\ M_Data.dd_roles s = b_long /\ make q_learner i_rd i_frame b_call s = Ok (C, w0) /\
  later C w0 w1 /\ fit C PNone (PBool true) ExtNone (PBool false) w1 = (w, Ok tt) /\ later C w0 w /\ m_sens (w_obj w) <> None /\ all_estimates w /\
  S_Data.constructed i_frame s2 /\ without ["c"] (M_Data.dd_roles s) (M_Data.dd_roles s2) /\ M_Data.dd_other s2 = M_Data.dd_other s /\ some_features (M_Data.dd_roles s2) (M_Data.dd_other s2) /\
  make q_learner i_rd i_frame b_call s2 = Ok (C2, w0) /\ later C2 w0 w2 /\ same_config w w2 /\ fit C2 PNone (PBool true) ExtNone (PBool false) w2 = (w2', Ok tt).
Proof. exact b_case. Qed.

(** C30: what the constructor of the data object accepts is usable. *)
Theorem C30_accepted_usable : forall f s, S_Data.constructed f s -> S_Data.usable f (M_Data.dd_roles s) (M_Data.dd_force s).
Proof. exact constructed_usable. Qed.
Print Assumptions C30_accepted_usable.

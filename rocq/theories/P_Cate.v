(** Properties of the effect heterogeneity methods of fitted objects: C88. *)
From Verif Require Import L_CateEnd L_CateCases L_OlsExists L_CateWitness.
Local Open Scope R_scope.
Local Open Scope string_scope.

(** ** C88: cate, gate and policy_tree of a fitted object *)
(** Interactive regression: regressions, group means and the policy tree use the
    doubly robust signal built from the cross-fitted predictions. *)
Theorem C88_interactive : forall (E P X : Type) ols (learn : nat -> vec -> vec -> X -> bool) (L : learner E row P) f g rd fr s ml_g ml_m nf nr wa nm rule thr draw C w0 w nj store ext smod w',
  least_squares_routine ols -> S_Data.reachable fr s -> proper_clusters s -> sound_randomness rd ->
  irm_init L rd fr s ml_g ml_m nf nr (PStr "ATE") wa (PBool nm) rule (PFloat thr) draw = Ok (C, w0) -> later C w0 w -> m_n_rep (w_obj w) = 1%nat ->
  exists dcol mc, binary_treatment fr s dcol /\ mc_order mc = rd_order rd /\ runs_on mc "ml_g" ml_g (ly_classifier ml_g) /\ runs_on mc "ml_m" ml_m true /\
  let n := M_Data.frows fr in let x := covariates fr s dcol in let y := outcome fr s in let d := col fr dcol in
  (sound_learning L f g mc w ->
  labels_everywhere L g mc w n "ml_g" y (fun j => d j = 0) -> labels_everywhere L g mc w n "ml_g" y (fun j => d j = 1) -> labels_everywhere L g mc w n "ml_m" d everyone ->
  fit C nj store ext smod w = (w', Ok tt) ->
  exists fs g0 g1 m0 m, m_smpls (w_obj w) = Some [fs] /\
      used_prediction L f g mc w n ext 0 0 dcol "ml_g0" "ml_g" x y (group_rows n (fun j => d j = 0)) fs g0 /\
      used_prediction L f g mc w n ext 0 0 dcol "ml_g1" "ml_g" x y (group_rows n (fun j => d j = 1)) fs g1 /\
      used_prediction L f g mc w n ext 0 0 dcol "ml_m" "ml_m" x d whole_train fs m0 /\ clipped n true thr m0 m /\
      let W := weights_of wa 0 in
      let ma := ps_adjust n m d nm in
      let s := fun i => wg W i * (g1 i - g0 i) + resid_weights W i * (d i * (y i - g1 i) / ma i - (1 - d i) * (y i - g0 i) / (1 - ma i)) in
      (off_bounds n ma -> forall ops, Forall keeps_results ops -> let v := run C ops w' in
         signal_methods n s (object_cate ols C true v) (object_gate ols C true v) /\ tree_method n s learn (object_tree C learn true v))).
Proof. exact @irm_cate_end. Qed.
Print Assumptions C88_interactive.

Theorem C88_potential_outcome : forall (E P : Type) ols (L : learner E row P) f g rd fr s ml_g ml_m level nf nr score wa nm rule thr draw C w0 w nj store ext smod w',
  least_squares_routine ols -> S_Data.reachable fr s -> proper_clusters s -> sound_randomness rd ->
  apo_init L rd fr s ml_g ml_m level nf nr score wa (PBool nm) rule (PFloat thr) draw = Ok (C, w0) -> later C w0 w -> m_n_rep (w_obj w) = 1%nat ->
  exists dcol mc, M_Data.r_d (M_Data.dd_roles s) = [dcol] /\ mc_order mc = rd_order rd /\ runs_on mc "ml_g" ml_g (ly_classifier ml_g) /\ runs_on mc "ml_m" ml_m true /\
  let n := M_Data.frows fr in let x := covariates fr s dcol in let y := outcome fr s in let lvl := at_level level (col fr dcol) in
  (sound_learning L f g mc w ->
  labels_everywhere L g mc w n "ml_g" y (fun j => lvl j = 0) -> labels_everywhere L g mc w n "ml_g" y (fun j => lvl j = 1) -> labels_everywhere L g mc w n "ml_m" lvl everyone ->
  fit C nj store ext smod w = (w', Ok tt) ->
  exists fs g1 m0 m, m_smpls (w_obj w) = Some [fs] /\
      used_prediction L f g mc w n ext 0 0 dcol "ml_g_d_lvl1" "ml_g" x y (group_rows n (fun j => lvl j = 1)) fs g1 /\
      used_prediction L f g mc w n ext 0 0 dcol "ml_m" "ml_m" x lvl whole_train fs m0 /\ clipped n true thr m0 m /\
      let W := weights_of wa 0 in
      let ma := ps_adjust n m lvl nm in
      let s := fun i => wg W i * g1 i + resid_weights W i * (lvl i * (y i - g1 i) / ma i) in
      ((forall i, (i < n)%nat -> ma i <> 0) -> forall ops, Forall keeps_results ops -> let v := run C ops w' in signal_methods n s (object_cate ols C true v) (object_gate ols C true v))).
Proof. exact @apo_cate_end. Qed.
Print Assumptions C88_potential_outcome.

(** Partially linear regression: the basis is multiplied by the residual of the
    treatment, and the response is the residual of the outcome. *)
Theorem C88_partially_linear : forall (E P : Type) ols (L : learner E row P) f g rd fr s ml_l ml_m ml_g nf nr draw C w0 w nj ext smod w' c,
  least_squares_routine ols -> S_Data.reachable fr s -> proper_clusters s -> sound_randomness rd -> M_Data.r_d (M_Data.dd_roles s) = [c] ->
  plr_init L rd fr s ml_l ml_m ml_g nf nr (PStr "partialling out") draw = Ok (C, w0) -> later C w0 w -> m_n_rep (w_obj w) = 1%nat ->
  exists mc, mc_order mc = rd_order rd /\ runs_on mc "ml_l" ml_l false /\ runs_on mc "ml_m" ml_m (ly_classifier ml_m) /\
  let n := M_Data.frows fr in let x := covariates fr s c in let y := outcome fr s in let d := col fr c in
  (sound_learning L f g mc w -> labels_everywhere L g mc w n "ml_m" d everyone -> fit C nj (PBool true) ext smod w = (w', Ok tt) ->
  exists fs l m, m_smpls (w_obj w) = Some [fs] /\
    used_prediction L f g mc w n ext 0 0 c "ml_l" "ml_l" x y whole_train fs l /\
    used_prediction L f g mc w n ext 0 0 c "ml_m" "ml_m" x d whole_train fs m /\
    forall ops, Forall keeps_results ops -> let v := run C ops w' in
      residual_methods n (fun i => d i - m i) (fun i => y i - l i) (object_plr_cate ols C false y d v) (object_plr_gate ols C false y d v)).
Proof. exact @plr_cate_end. Qed.
Print Assumptions C88_partially_linear.

Theorem C88_partially_linear_iv : forall (E P : Type) ols (L : learner E row P) f g rd fr s ml_l ml_m ml_g nf nr draw C w0 w nj ext smod w' c,
  least_squares_routine ols -> S_Data.reachable fr s -> proper_clusters s -> sound_randomness rd -> M_Data.r_d (M_Data.dd_roles s) = [c] ->
  plr_init L rd fr s ml_l ml_m ml_g nf nr (PStr "IV-type") draw = Ok (C, w0) -> later C w0 w -> m_n_rep (w_obj w) = 1%nat ->
  exists mc, mc_order mc = rd_order rd /\ runs_on mc "ml_l" ml_l false /\ runs_on mc "ml_m" ml_m (ly_classifier ml_m) /\ mc_learner mc "ml_g" = match ml_g with Some l => ly_obj l | None => ln_clone L (ly_obj ml_l) end /\
  let n := M_Data.frows fr in let x := covariates fr s c in let y := outcome fr s in let d := col fr c in
  (sound_learning L f g mc w -> labels_everywhere L g mc w n "ml_m" d everyone -> fit C nj (PBool true) ext smod w = (w', Ok tt) ->
  exists fs m gg theta, m_smpls (w_obj w) = Some [fs] /\ b_at (m_coef (w_obj w')) [0%nat] = Some theta /\
    used_prediction L f g mc w n ext 0 0 c "ml_m" "ml_m" x d whole_train fs m /\
    ((exists e, supplied ext c "ml_g" 0 e /\ forall i, (i < n)%nat -> gg i = e i) \/
     (exists l th, used_prediction L f g mc w n ext 0 0 c "ml_l" "ml_l" x y whole_train fs l /\
        (sumf n (fun i => (d i - m i) ^ 2) <> 0 -> th = sumf n (fun i => (d i - m i) * (y i - l i)) / sumf n (fun i => (d i - m i) ^ 2)) /\
        used_prediction L f g mc w n ext 0 0 c "ml_g" "ml_g" x (fun i => y i - th * d i) whole_train fs gg)) /\
    forall ops, Forall keeps_results ops -> let v := run C ops w' in
      residual_methods n (fun i => d i - m i) (fun i => y i - theta * m i - gg i) (object_plr_cate ols C true y d v) (object_plr_gate ols C true y d v)).
Proof. exact @plr_iv_cate_end. Qed.
Print Assumptions C88_partially_linear_iv.

(** Calls that are refused. *)
Theorem C88_refusals : forall (P : Type) (ols : ols_fun) (C : ctx P) w basis b, object_cate ols C false w basis b = Err ValueError /\
  (m_n_rep (w_obj w) <> 1%nat -> object_cate ols C true w basis b = Err NotImplementedError) /\
  (m_n_rep (w_obj w) = 1%nat -> ~ NoDup (fr_names basis) -> object_cate ols C true w basis b = Err ValueError) /\
  (m_n_rep (w_obj w) = 1%nat -> NoDup (fr_names basis) -> exists r, object_cate ols C true w basis b = Ok r).
Proof. exact @cate_refusals. Qed.
Print Assumptions C88_refusals.

Theorem C88_refusals_linear : forall (P : Type) (ols : ols_fun) (C : ctx P) iv y d w basis b, (length (c_dcols C) <> 1%nat -> c_dcols C <> [] -> object_plr_cate ols C iv y d w basis b = Err NotImplementedError) /\
  (length (c_dcols C) = 1%nat -> m_n_rep (w_obj w) <> 1%nat -> object_plr_cate ols C iv y d w basis b = Err NotImplementedError).
Proof. exact @plr_refusals. Qed.
Print Assumptions C88_refusals_linear.

(** A partially linear object that has never stored predictions refuses. *)
Theorem C88_not_stored : forall (P : Type) (ols : ols_fun) (C : ctx P) nf nr dr g perm w0 ops iv y d basis b, new_object C nf nr dr g perm = Ok w0 -> Forall never_stores ops -> let w := run C ops w0 in
  exists e, object_plr_cate ols C iv y d w basis b = Err e /\ (length (c_dcols C) = 1%nat -> m_n_rep (w_obj w) = 1%nat -> e = ValueError).
Proof. exact @plr_not_stored. Qed.
Print Assumptions C88_not_stored.

(** An object that was never fitted does not refuse: the result is all nan. *)
Theorem C88_unfitted_refuted : forall (P : Type) (ols : ols_fun) (C : ctx P) nf nr dr g perm w basis b, (0 < c_n C)%nat -> new_object C nf nr dr g perm = Ok w -> m_n_rep (w_obj w) = 1%nat -> NoDup (fr_names basis) -> object_cate ols C true w basis b = Ok None.
Proof. exact @unfitted_nan. Qed.
Print Assumptions C88_unfitted_refuted.

(** The same for an object whose results were reset by a new partition. *)
Theorem C88_resplit_refuted : forall (P : Type) (ols : ols_fun) (C : ctx P) s asc w w' basis b, (0 < c_n C)%nat -> set_sample_splitting C s asc w = (w', Ok tt) -> m_n_rep (w_obj w') = 1%nat -> NoDup (fr_names basis) -> object_cate ols C true w' basis b = Ok None.
Proof. exact @split_again. Qed.
Print Assumptions C88_resplit_refuted.

(** A refit that does not store its predictions leaves the methods of the
    partially linear model at those of the earlier fit. *)
Theorem C88_stale_predictions_refuted : forall (P : Type) (ols : ols_fun) (C : ctx P) y d w nj ext smod w', c_dcols C <> [] -> reachable C w -> fit C nj (PBool false) ext smod w = (w', Ok tt) ->
  (forall basis b, object_plr_cate ols C false y d w' basis b = object_plr_cate ols C false y d w basis b) /\ forall cols, object_plr_gate ols C false y d w' cols = object_plr_gate ols C false y d w cols.
Proof. exact @stale_fit. Qed.
Print Assumptions C88_stale_predictions_refuted.

Theorem C88_stale_split_refuted : forall (P : Type) (ols : ols_fun) (C : ctx P) y d s asc w w', set_sample_splitting C s asc w = (w', Ok tt) -> m_n_rep (w_obj w') = m_n_rep (w_obj w) ->
  (forall basis b, object_plr_cate ols C false y d w' basis b = object_plr_cate ols C false y d w basis b) /\ forall cols, object_plr_gate ols C false y d w' cols = object_plr_gate ols C false y d w cols.
Proof. exact @stale_split. Qed.
Print Assumptions C88_stale_split_refuted.

Example C88_case : irm_cate_case.
Proof. exact irm_cate_ex. Qed.
Example C88_case_potential_outcome : exists s, i_data ra1 s /\ fitted_once (apo_call s).
Proof. exact apo_once. Qed.
Example C88_case_partially_linear : forall score, score = "partialling out" \/ score = "IV-type" -> exists s, i_data rd1 s /\ M_Data.r_d (M_Data.dd_roles s) = ["d"] /\ fitted_once (plr_call score s).
Proof. exact plr_once. Qed.
Example C88_case_routine : least_squares_routine some_ols.
Proof. exact ols_exists. Qed.
Example C88_case_stale : stale_case.
Proof. exact stale_ex. Qed.

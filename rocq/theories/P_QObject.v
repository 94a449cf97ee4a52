(** Properties of the objects of the quantile models: C90, C91. *)
From Verif Require Import L_QInit L_QFit L_PqObject L_LpqObject L_QSuccess L_QObjectWitness.
Local Open Scope R_scope.
Local Open Scope string_scope.

(** ** C90: construction of DoubleMLPQ, DoubleMLLPQ and DoubleMLCVAR *)
(** A call returns an object exactly for the documented arguments. *)
Theorem C90_quantile : forall (E P : Type) (L : learner E row P) rd f s, S_Data.constructed f s -> unclustered s -> both_arms f s ->
  forall dflt o (ml_g : pylearner E) (ml_m : pylearner E) treatment quantile nf nr score norm kde rule thr draw,
  succeeds (pq_init L rd f s dflt o ml_g ml_m treatment quantile nf nr score norm kde rule thr draw) <->
  no_instruments s /\ (exists c, binary_treatment f s c /\ split_args (M_Data.frows f) nf nr draw (Some (col f c))) /\
  quantile_options "PQ" score treatment quantile norm rule thr /\ kernel_ok kde /\ predicts_probabilities ml_g /\ predicts_probabilities ml_m.
Proof. exact @pq_accepts. Qed.
Print Assumptions C90_quantile.

Theorem C90_local_quantile : forall (E P : Type) (L : learner E row P) rd f s, S_Data.constructed f s -> unclustered s -> both_arms f s ->
  forall dflt o (ml_g : pylearner E) (ml_m : pylearner E) treatment quantile nf nr score norm kde rule thr draw,
  succeeds (lpq_init L rd f s dflt o ml_g ml_m treatment quantile nf nr score norm kde rule thr draw) <->
  (exists c z, binary_treatment f s c /\ binary_instrument f s z /\ split_args (M_Data.frows f) nf nr draw (Some (fun i => col f c i + 2 * col f z i))) /\
  quantile_options "LPQ" score treatment quantile norm rule thr /\ kernel_ok kde /\ predicts_probabilities ml_g /\ predicts_probabilities ml_m.
Proof. exact @lpq_accepts. Qed.
Print Assumptions C90_local_quantile.

Theorem C90_cvar : forall (E P : Type) (L : learner E row P) rd f s, S_Data.constructed f s -> unclustered s -> both_arms f s ->
  forall o (ml_g : pylearner E) (ml_m : pylearner E) treatment quantile nf nr score norm rule thr draw,
  succeeds (cvar_init L rd f s o ml_g ml_m treatment quantile nf nr score norm rule thr draw) <->
  no_instruments s /\ (exists c, binary_treatment f s c /\ split_args (M_Data.frows f) nf nr draw (Some (col f c))) /\
  quantile_options "CVaR" score treatment quantile norm rule thr /\ predicts_values ml_g /\ predicts_probabilities ml_m.
Proof. exact @cvar_accepts. Qed.
Print Assumptions C90_cvar.

(** The drawn partition is stratified by the treatment, or by the cells of treatment
    and instrument. *)
Theorem C90_quantile_split : forall (E P : Type) (L : learner E row P) rd fr s, S_Data.reachable fr s -> unclustered s -> sound_randomness rd ->
  forall dflt o (ml_g : pylearner E) (ml_m : pylearner E) treatment quantile nf nr score norm kde rule thr K b,
  pq_init L rd fr s dflt o ml_g ml_m treatment quantile nf nr score norm kde rule thr (PBool true) = Ok (K, b) ->
  exists c, M_Data.r_d (M_Data.dd_roles s) = [c] /\ stratified_by (M_Data.frows fr) nf nr (col fr c) (ob_world b).
Proof. exact @pq_drawn. Qed.
Print Assumptions C90_quantile_split.

Theorem C90_local_quantile_split : forall (E P : Type) (L : learner E row P) rd fr s, S_Data.reachable fr s -> unclustered s -> sound_randomness rd ->
  forall dflt o (ml_g : pylearner E) (ml_m : pylearner E) treatment quantile nf nr score norm kde rule thr K b,
  lpq_init L rd fr s dflt o ml_g ml_m treatment quantile nf nr score norm kde rule thr (PBool true) = Ok (K, b) ->
  exists c z, M_Data.r_d (M_Data.dd_roles s) = [c] /\ M_Data.r_z (M_Data.dd_roles s) = Some [z] /\ stratified_by (M_Data.frows fr) nf nr (fun i => col fr c i + 2 * col fr z i) (ob_world b).
Proof. exact @lpq_drawn. Qed.
Print Assumptions C90_local_quantile_split.

Theorem C90_cvar_split : forall (E P : Type) (L : learner E row P) rd fr s, S_Data.reachable fr s -> unclustered s -> sound_randomness rd ->
  forall o (ml_g : pylearner E) (ml_m : pylearner E) treatment quantile nf nr score norm rule thr C w0,
  cvar_init L rd fr s o ml_g ml_m treatment quantile nf nr score norm rule thr (PBool true) = Ok (C, w0) ->
  exists c, M_Data.r_d (M_Data.dd_roles s) = [c] /\ stratified_by (M_Data.frows fr) nf nr (col fr c) w0.
Proof. exact @cvar_drawn. Qed.
Print Assumptions C90_cvar_split.

(** All other calls raise a TypeError or a ValueError. *)
Theorem C90_quantile_refused : forall (E P : Type) (L : learner E row P) rd f s, S_Data.constructed f s -> unclustered s -> both_arms f s ->
  forall dflt o (ml_g : pylearner E) (ml_m : pylearner E) treatment quantile nf nr score norm kde rule thr draw,
  type_or_value_error (pq_init L rd f s dflt o ml_g ml_m treatment quantile nf nr score norm kde rule thr draw).
Proof. exact @pq_refused. Qed.
Print Assumptions C90_quantile_refused.

Theorem C90_local_quantile_refused : forall (E P : Type) (L : learner E row P) rd f s, S_Data.constructed f s -> unclustered s -> both_arms f s ->
  forall dflt o (ml_g : pylearner E) (ml_m : pylearner E) treatment quantile nf nr score norm kde rule thr draw,
  type_or_value_error (lpq_init L rd f s dflt o ml_g ml_m treatment quantile nf nr score norm kde rule thr draw).
Proof. exact @lpq_refused. Qed.
Print Assumptions C90_local_quantile_refused.

Theorem C90_cvar_refused : forall (E P : Type) (L : learner E row P) rd f s, S_Data.constructed f s -> unclustered s -> both_arms f s ->
  forall o (ml_g : pylearner E) (ml_m : pylearner E) treatment quantile nf nr score norm rule thr draw,
  type_or_value_error (cvar_init L rd f s o ml_g ml_m treatment quantile nf nr score norm rule thr draw).
Proof. exact @cvar_refused. Qed.
Print Assumptions C90_cvar_refused.

Example C90_case_quantile : exists s K b, u_data None s /\ both_arms u_frame s /\ u_pq q_learner cls s = Ok (K, b).
Proof. destruct (u_exists None) as (s & U); [auto|]. destruct (u_pq_ok q_learner cls s cls_proba U) as (K & b & Q). exists s, K, b. split; [exact U|]. split; [exact (u_arms _ _ U)|exact Q]. Qed.
Example C90_case_local_quantile : exists s K b, u_data (Some ["z"]) s /\ both_arms u_frame s /\ u_lpq q_learner cls s = Ok (K, b).
Proof. destruct (u_exists (Some ["z"])) as (s & U); [auto|]. destruct (u_lpq_ok q_learner cls s cls_proba U) as (K & b & Q). exists s, K, b. split; [exact U|]. split; [exact (u_arms _ _ U)|exact Q]. Qed.
Example C90_case_cvar : exists s C w, u_data None s /\ both_arms u_frame s /\ u_cvar s = Ok (C, w).
Proof. destruct (u_exists None) as (s & U); [auto|]. destruct (u_cvar_ok s U) as (C & w & Q). exists s, C, w. split; [exact U|]. split; [exact (u_arms _ _ U)|exact Q]. Qed.
Example C90_case_refused : exists s, u_data (Some ["z"]) s /\ both_arms u_frame s /\ forall K b, u_pq q_learner cls s <> Ok (K, b).
Proof.
  destruct (u_exists (Some ["z"])) as (s & U); [auto|]. exists s. split; [exact U|]. split; [exact (u_arms _ _ U)|]. intros K b Q.
  destruct (proj1 (pq_accepts q_learner i_rd u_frame s (proj1 U) (u_plain _ _ U) (u_arms _ _ U) _ _ _ _ _ _ _ _ _ _ _ _ _ _) (ex_intro _ _ Q)) as (Z & _).
  destruct U as (_ & R & _). unfold no_instruments in Z. rewrite R in Z. discriminate.
Qed.

(** ** C91: results of fit for objects of these classes, from the constructor on *)
(** The start value stays among the outcomes whatever is called; after a fit every
    repetition holds cross-fitted or supplied predictions, an estimate among the outcomes at
    which the weighted share crosses the quantile, and the standard error of the score. *)
Theorem C91_quantile : forall (E P : Type) (L : learner E row P) fv gv rd fr s dflt o ml_g ml_m treatment quantile nf nr score nm kde rule thr draw K b0 b sv tol nj store ext smod b' q a,
  S_Data.reachable fr s -> unclustered s -> sound_randomness rd -> (0 < M_Data.frows fr)%nat ->
  pq_init L rd fr s dflt o ml_g ml_m treatment quantile nf nr score (PBool nm) kde rule (PFloat thr) draw = Ok (K, b0) ->
  quantile_ok quantile q -> arm_number treatment a ->
  (forall r k, solver_ok (o r k)) -> brentq_ok sv -> fmin_ok sv -> brentq_near sv tol -> nl_later sv K b0 b ->
  exists dcol h, binary_treatment fr s dcol /\ (kde = KdeNone /\ h = dflt \/ kde = KdeFun h) /\
  let n := M_Data.frows fr in let x := covariates fr s dcol in let y := outcome fr s in let d := col fr dcol in
  among n y (ob_start b) /\
  (nl_fit sv K nj store ext smod b = (b', Ok tt) ->
  exists sm reps F, m_smpls (w_obj (ob_world b)) = Some sm /\ ob_res b' = Some (reps, F) /\ length reps = length sm /\ among n y (ob_start b') /\
    fw_wf F /\ fw_aggregated F /\ fw_n_rep F = length sm /\ fw_n_thetas F = 1%nat /\
    forall r fs, nth_error sm r = Some fs -> exists p c gh mh ipws, nth_error reps r = Some p /\ quantile_setting c false n y a q nm thr /\
      (forall e, supplied ext dcol "ml_g" r e -> forall i, gh i = e i) /\ (forall e, supplied ext dcol "ml_m" r e -> forall i, mh i = e i) /\
      (row_wise L fv gv -> classifier_ok L gv -> clone_ok L ->
       (forall g, In g fs -> let or := o r (length fs) in inner_split d (first_half or d g) (qo_skf or (map d (first_half or d g))) (qo_order or)) ->
       (forall e, ~ supplied ext dcol "ml_g" r e) -> (forall e, ~ supplied ext dcol "ml_m" r e) ->
       (forall k, (k < length fs)%nat -> fold_clone L (params_at (ob_world b) "ml_g" dcol r) (ly_obj ml_g) k (qc_g c k) /\ fold_clone L (params_at (ob_world b) "ml_m" dcol r) (ly_obj ml_m) k (qc_m c k)) /\
       length ipws = length fs /\
       forall i, (i < n)%nat -> exists k g ipw, tested_in fs i k g /\ nth_error ipws k = Some ipw /\
         pq_preliminary L gv (o r (length fs)) c x y d k g ipw /\ pq_cross L L fv fv gv gv (o r (length fs)) c x y d k g ipw i (gh i) (mh i) /\
         nr_preds p "ml_g" i = Some (gh i) /\ nr_preds p "ml_m" i = Some (rclip thr (1 - thr) (mh i))) /\
      let wt := arm_weight n (qc_treated c) nm thr d mh in
      let theta := nr_theta p in
      let share t := wshare n wt (fun i => rleb (y i) t) + meanf n (fun i => (1 - wt i) * gh i) in
      among n y theta /\
      (nr_warn p = false -> forall lo hi, lo < theta - tol -> theta + tol < hi -> share lo <= q <= share hi) /\
      (weights_defined n (qc_treated c) nm thr d mh -> h (fun i => y i - theta) wt <> 0 ->
       estimate_is F n 0 r theta (fun i => wt i * b2r (rleb (y i) theta) + (1 - wt i) * gh i - q) (- (INR n * h (fun i => y i - theta) wt)))).
Proof. exact @pq_end. Qed.
Print Assumptions C91_quantile.

Theorem C91_local_quantile : forall (E P : Type) (L : learner E row P) fv gv rd fr s dflt o ml_g ml_m treatment quantile nf nr score nm kde rule thr draw K b0 b sv tol nj store ext smod b' q a,
  S_Data.reachable fr s -> unclustered s -> sound_randomness rd -> (0 < M_Data.frows fr)%nat ->
  lpq_init L rd fr s dflt o ml_g ml_m treatment quantile nf nr score (PBool nm) kde rule (PFloat thr) draw = Ok (K, b0) ->
  quantile_ok quantile q -> arm_number treatment a ->
  (forall r k, solver_ok (o r k)) -> brentq_ok sv -> fmin_ok sv -> brentq_near sv tol -> nl_later sv K b0 b ->
  exists dcol zcol h, binary_treatment fr s dcol /\ binary_instrument fr s zcol /\ (kde = KdeNone /\ h = dflt \/ kde = KdeFun h) /\
  let n := M_Data.frows fr in let x := covariates fr s dcol in let y := outcome fr s in let d := col fr dcol in let z := col fr zcol in
  among n y (ob_start b) /\
  (nl_fit sv K nj store ext smod b = (b', Ok tt) ->
  exists sm reps F, m_smpls (w_obj (ob_world b)) = Some sm /\ ob_res b' = Some (reps, F) /\ length reps = length sm /\ among n y (ob_start b') /\
    fw_wf F /\ fw_aggregated F /\ fw_n_rep F = length sm /\ fw_n_thetas F = 1%nat /\
    forall r fs, nth_error sm r = Some fs -> exists p c mz d0 d1 g0 g1 ipws, nth_error reps r = Some p /\ local_setting c n y a q nm thr /\
      (forall e, (forall l, In l lpq_names -> supplied ext dcol l r (e l)) ->
        forall i, mz i = e "ml_m_z" i /\ d0 i = e "ml_m_d_z0" i /\ d1 i = e "ml_m_d_z1" i /\ g0 i = e "ml_g_du_z0" i /\ g1 i = e "ml_g_du_z1" i) /\
      (row_wise L fv gv -> classifier_ok L gv -> clone_ok L ->
       (forall g, In g fs -> let or := o r (length fs) in inner_split z (lfirst_half or d z g) (qo_skf or (map (cells4 d z) (lfirst_half or d z g))) (qo_order or)) ->
       (exists l, In l lpq_names /\ forall e, ~ supplied ext dcol l r e) ->
       (forall l k, In l lpq_names -> (k < length fs)%nat -> fold_clone L (params_at (ob_world b) l dcol r) (ln_clone L (ly_obj (local_learner ml_g ml_m l))) k (lc_est c l k)) /\
       length ipws = length fs /\
       forall i, (i < n)%nat -> exists k g ipw, tested_in fs i k g /\ nth_error ipws k = Some ipw /\
         lpq_preliminary L fv gv (o r (length fs)) c x y d z k g ipw /\ lpq_cross L L fv fv gv gv (o r (length fs)) c x y d z k g ipw i (mz i) (d0 i) (d1 i) (g0 i) (g1 i) /\
         nr_preds p "ml_m_z" i = Some (mz i) /\ nr_preds p "ml_m_d_z0" i = Some (d0 i) /\ nr_preds p "ml_m_d_z1" i = Some (d1 i) /\
         nr_preds p "ml_g_du_z0" i = Some (g0 i) /\ nr_preds p "ml_g_du_z1" i = Some (g1 i)) /\
      let m := lpq_adjust n nm thr z mz in
      let share := meanf n (dr_signal d z d0 d1 m) in
      let sign := 2 * a - 1 in
      let theta := nr_theta p in
      let dens := h (fun i => y i - theta) (fun i => sign * (z i / m i - (1 - z i) / (1 - m i)) * arm (lc_treated c) d i / share) in
      among n y theta /\
      (nr_warn p = false -> crosses (fun t => sign * meanf n (dr_signal (event c y d t) z g0 g1 m) / share - q) tol theta) /\
      (propensities_defined n m -> share <> 0 -> dens <> 0 ->
       estimate_is F n 0 r theta (fun i => sign * dr_signal (event c y d theta) z g0 g1 m i / share - q) (- (INR n * dens)))).
Proof. exact @lpq_end. Qed.
Print Assumptions C91_local_quantile.

Theorem C91_cvar : forall (E P : Type) (L : learner E row P) fv gv rd fr s o ml_g ml_m treatment quantile nf nr score nm rule thr draw C w0 w nj store ext smod w' q a,
  S_Data.reachable fr s -> unclustered s -> sound_randomness rd -> (0 < M_Data.frows fr)%nat ->
  cvar_init L rd fr s o ml_g ml_m treatment quantile nf nr score (PBool nm) rule (PFloat thr) draw = Ok (C, w0) -> later C w0 w ->
  quantile_ok quantile q -> arm_number treatment a ->
  exists dcol, binary_treatment fr s dcol /\
  let n := M_Data.frows fr in let x := covariates fr s dcol in let y := outcome fr s in let d := col fr dcol in
  (row_wise L fv gv -> classifier_ok L gv -> clone_ok L ->
  (forall sm r fs h, m_smpls (w_obj w) = Some sm -> nth_error sm r = Some fs -> In h fs ->
     let or := o r (length fs) in inner_split d (first_half or d h) (qo_skf or (map d (first_half or d h))) (qo_order or)) ->
  fit C nj store ext smod w = (w', Ok tt) ->
  ext = ExtNone /\
  exists F sm, fit_done w w' F sm 1 /\ forall r fs, nth_error sm r = Some fs -> exists c gh mh ipws,
    quantile_setting c true n y a q nm thr /\
    (forall k, (k < length fs)%nat -> fold_clone L (params_at w "ml_g" dcol r) (ln_clone L (ly_obj ml_g)) k (qc_g c k) /\ fold_clone L (params_at w "ml_m" dcol r) (ln_clone L (ly_obj ml_m)) k (qc_m c k)) /\
    length ipws = length fs /\
    (forall i, (i < n)%nat -> exists k h ipw, tested_in fs i k h /\ nth_error ipws k = Some ipw /\
       pq_preliminary L gv (o r (length fs)) c x y d k h ipw /\ pq_cross L L fv fv gv gv (o r (length fs)) c x y d k h ipw i (gh i) (mh i)) /\
    let wt := arm_weight n (qc_treated c) nm thr d mh in
    let theta := tail_mean n wt y q (Rmean ipws) + meanf n (fun i => (1 - wt i) * gh i) in
    (weights_defined n (qc_treated c) nm thr d mh ->
     estimate_is F n 0 r theta (fun i => wt i * cvar_target q (Rmean ipws) y i + (1 - wt i) * gh i - theta) (INR n))).
Proof. exact @cvar_end. Qed.
Print Assumptions C91_cvar.

(** Fits succeed for learners that can be trained and inner splits that see both arms. *)
Theorem C91_quantile_success : forall (E P : Type) (L : learner E row P) fv gv rd fr s dflt o ml_g ml_m treatment quantile nf nr score nm kde rule thr draw K b0 b sv nj st md sm dcol a,
  S_Data.reachable fr s -> unclustered s -> sound_randomness rd -> (0 < M_Data.frows fr)%nat ->
  pq_init L rd fr s dflt o ml_g ml_m treatment quantile nf nr score nm kde rule thr draw = Ok (K, b0) -> arm_number treatment a -> binary_treatment fr s dcol ->
  row_wise L fv gv -> classifier_ok L gv -> clone_ok L -> trains L ->
  (forall r k, solver_ok (o r k)) -> brentq_ok sv -> fmin_ok sv -> nl_later sv K b0 b -> m_smpls (w_obj (ob_world b)) = Some sm -> no_jobs_or_int nj ->
  (forall r fs, nth_error sm r = Some fs -> pq_usable (o r (length fs)) a (col fr dcol) fs /\ params_fit (params_at (ob_world b) "ml_g" dcol r) (length fs) /\ params_fit (params_at (ob_world b) "ml_m" dcol r) (length fs)) ->
  exists b', nl_fit sv K nj (PBool st) ExtNone (PBool md) b = (b', Ok tt).
Proof. exact @pq_fit_succeeds. Qed.
Print Assumptions C91_quantile_success.

Theorem C91_local_quantile_success : forall (E P : Type) (L : learner E row P) fv gv rd fr s dflt o ml_g ml_m treatment quantile nf nr score nm kde rule thr draw K b0 b sv nj st md sm dcol zcol,
  S_Data.reachable fr s -> unclustered s -> sound_randomness rd -> (0 < M_Data.frows fr)%nat ->
  lpq_init L rd fr s dflt o ml_g ml_m treatment quantile nf nr score nm kde rule thr draw = Ok (K, b0) -> binary_treatment fr s dcol -> binary_instrument fr s zcol ->
  row_wise L fv gv -> classifier_ok L gv -> clone_ok L -> trains L ->
  (forall r k, solver_ok (o r k)) -> brentq_ok sv -> fmin_ok sv -> nl_later sv K b0 b -> m_smpls (w_obj (ob_world b)) = Some sm -> no_jobs_or_int nj ->
  (forall r fs, nth_error sm r = Some fs -> lpq_usable (o r (length fs)) (col fr dcol) (col fr zcol) fs /\ forall l, In l lpq_names -> params_fit (params_at (ob_world b) l dcol r) (length fs)) ->
  exists b', nl_fit sv K nj (PBool st) ExtNone (PBool md) b = (b', Ok tt).
Proof. exact @lpq_fit_succeeds. Qed.
Print Assumptions C91_local_quantile_success.

Theorem C91_cvar_success : forall (E P : Type) (L : learner E row P) fv gv rd fr s o ml_g ml_m treatment quantile nf nr score nm rule thr draw C w0 w nj st md sm dcol a,
  S_Data.reachable fr s -> unclustered s -> sound_randomness rd -> (0 < M_Data.frows fr)%nat ->
  cvar_init L rd fr s o ml_g ml_m treatment quantile nf nr score nm rule thr draw = Ok (C, w0) -> arm_number treatment a -> binary_treatment fr s dcol ->
  row_wise L fv gv -> classifier_ok L gv -> clone_ok L -> trains L -> later C w0 w -> m_smpls (w_obj w) = Some sm -> no_jobs_or_int nj ->
  (forall r fs, nth_error sm r = Some fs -> pq_usable (o r (length fs)) a (col fr dcol) fs /\ params_fit (params_at w "ml_g" dcol r) (length fs) /\ params_fit (params_at w "ml_m" dcol r) (length fs)) ->
  exists w', fit C nj (PBool st) ExtNone (PBool md) w = (w', Ok tt).
Proof. exact @cvar_fit_succeeds. Qed.
Print Assumptions C91_cvar_success.

(** With a complete set of external predictions nothing is required of the learners. *)
Theorem C91_quantile_given : forall (E P : Type) (L : learner E row P) rd fr s dflt o ml_g ml_m treatment quantile nf nr score nm kde rule thr draw K b0 b sv nj st ext sm dcol,
  S_Data.reachable fr s -> unclustered s -> sound_randomness rd -> (0 < M_Data.frows fr)%nat ->
  pq_init L rd fr s dflt o ml_g ml_m treatment quantile nf nr score nm kde rule thr draw = Ok (K, b0) -> binary_treatment fr s dcol ->
  (forall r k, solver_ok (o r k)) -> brentq_ok sv -> fmin_ok sv -> nl_later sv K b0 b -> m_smpls (w_obj (ob_world b)) = Some sm ->
  no_jobs_or_int nj ->
  well_formed_predictions ext [dcol] ["ml_g"; "ml_m"] (M_Data.frows fr) (length sm) -> complete_predictions ext [dcol] ["ml_g"; "ml_m"] ->
  exists b', nl_fit sv K nj (PBool st) ext (PBool false) b = (b', Ok tt).
Proof. exact @pq_given_succeeds. Qed.
Print Assumptions C91_quantile_given.

Theorem C91_local_quantile_given : forall (E P : Type) (L : learner E row P) rd fr s dflt o ml_g ml_m treatment quantile nf nr score nm kde rule thr draw K b0 b sv nj st ext sm dcol,
  S_Data.reachable fr s -> unclustered s -> sound_randomness rd -> (0 < M_Data.frows fr)%nat ->
  lpq_init L rd fr s dflt o ml_g ml_m treatment quantile nf nr score nm kde rule thr draw = Ok (K, b0) -> binary_treatment fr s dcol ->
  (forall r k, solver_ok (o r k)) -> brentq_ok sv -> fmin_ok sv -> nl_later sv K b0 b -> m_smpls (w_obj (ob_world b)) = Some sm ->
  no_jobs_or_int nj ->
  well_formed_predictions ext [dcol] lpq_names (M_Data.frows fr) (length sm) -> complete_predictions ext [dcol] lpq_names ->
  exists b', nl_fit sv K nj (PBool st) ext (PBool false) b = (b', Ok tt).
Proof. exact @lpq_given_succeeds. Qed.
Print Assumptions C91_local_quantile_given.

(** But with store_models=True a fit from external predictions always raises. *)
Theorem C91_quantile_storing_refuted : forall (E P : Type) (L : learner E row P) rd fr s dflt o ml_g ml_m treatment quantile nf nr score nm kde rule thr draw K b0 b sv nj st ext sm dcol l r e,
  S_Data.reachable fr s -> unclustered s -> sound_randomness rd -> (0 < M_Data.frows fr)%nat ->
  pq_init L rd fr s dflt o ml_g ml_m treatment quantile nf nr score nm kde rule thr draw = Ok (K, b0) -> binary_treatment fr s dcol ->
  (forall r k, solver_ok (o r k)) -> brentq_ok sv -> fmin_ok sv -> nl_later sv K b0 b -> m_smpls (w_obj (ob_world b)) = Some sm ->
  In l ["ml_g"; "ml_m"] -> (r < length sm)%nat -> supplied ext dcol l r e -> snd (nl_fit sv K nj st ext (PBool true) b) <> Ok tt.
Proof. exact @pq_store_fails. Qed.
Print Assumptions C91_quantile_storing_refuted.

Theorem C91_local_quantile_storing_refuted : forall (E P : Type) (L : learner E row P) rd fr s dflt o ml_g ml_m treatment quantile nf nr score nm kde rule thr draw K b0 b sv nj st ext sm dcol r,
  S_Data.reachable fr s -> unclustered s -> sound_randomness rd -> (0 < M_Data.frows fr)%nat ->
  lpq_init L rd fr s dflt o ml_g ml_m treatment quantile nf nr score nm kde rule thr draw = Ok (K, b0) -> binary_treatment fr s dcol ->
  (forall r k, solver_ok (o r k)) -> brentq_ok sv -> fmin_ok sv -> nl_later sv K b0 b -> m_smpls (w_obj (ob_world b)) = Some sm ->
  (r < length sm)%nat -> (forall l, In l lpq_names -> exists e, supplied ext dcol l r e) -> snd (nl_fit sv K nj st ext (PBool true) b) <> Ok tt.
Proof. exact @lpq_store_fails. Qed.
Print Assumptions C91_local_quantile_storing_refuted.

Example C91_case_quantile : exists s K b0 b b', u_data None s /\ u_pq q_learner cls s = Ok (K, b0) /\ nl_later u_sv K b0 b /\ m_smpls (w_obj (ob_world b)) = Some [u_smpls] /\
  (forall h, In h u_smpls -> inner_split u_d (first_half u_o u_d h) (qo_skf u_o (map u_d (first_half u_o u_d h))) (qo_order u_o)) /\
  (forall m, weights_defined 16 true false (1 / 100) u_d m) /\ nl_fit u_sv K PNone (PBool true) ExtNone (PBool true) b = (b', Ok tt).
Proof. exact u_pq_end. Qed.
Example C91_case_local_quantile : exists s K b0 b b', u_data (Some ["z"]) s /\ u_lpq q_learner cls s = Ok (K, b0) /\ nl_later u_sv K b0 b /\ m_smpls (w_obj (ob_world b)) = Some [u_smpls] /\
  (forall h, In h u_smpls -> inner_split u_z (lfirst_half u_o u_d u_z h) (qo_skf u_o (map (cells4 u_d u_z) (lfirst_half u_o u_d u_z h))) (qo_order u_o)) /\
  (forall m, propensities_defined 16 (lpq_adjust 16 false (1 / 100) u_z m)) /\ nl_fit u_sv K PNone (PBool true) ExtNone (PBool true) b = (b', Ok tt).
Proof. exact u_lpq_end. Qed.
Example C91_case_cvar : exists s C w0 w w', u_data None s /\ u_cvar s = Ok (C, w0) /\ later C w0 w /\ m_smpls (w_obj w) = Some [u_smpls] /\
  (forall h, In h u_smpls -> inner_split u_d (first_half u_o u_d h) (qo_skf u_o (map u_d (first_half u_o u_d h))) (qo_order u_o)) /\
  (forall m, weights_defined 16 true false (1 / 100) u_d m) /\ fit C PNone (PBool true) ExtNone (PBool false) w = (w', Ok tt).
Proof. exact u_cvar_end. Qed.
Example C91_case_quantile_given : forall f, exists s K b0 b b', u_data None s /\ u_pq q_learner cls s = Ok (K, b0) /\ nl_later u_sv K b0 b /\ m_smpls (w_obj (ob_world b)) = Some [u_smpls] /\
  nl_fit u_sv K PNone (PBool true) (u_given f ["ml_g"; "ml_m"]) (PBool false) b = (b', Ok tt) /\ snd (nl_fit u_sv K PNone (PBool true) (u_given f ["ml_g"; "ml_m"]) (PBool true) b) <> Ok tt.
Proof. exact u_pq_given. Qed.
Example C91_case_local_quantile_given : forall f, exists s K b0 b b', u_data (Some ["z"]) s /\ u_lpq q_learner cls s = Ok (K, b0) /\ nl_later u_sv K b0 b /\ m_smpls (w_obj (ob_world b)) = Some [u_smpls] /\
  nl_fit u_sv K PNone (PBool true) (u_given f lpq_names) (PBool false) b = (b', Ok tt) /\ snd (nl_fit u_sv K PNone (PBool true) (u_given f lpq_names) (PBool true) b) <> Ok tt.
Proof. exact u_lpq_given. Qed.
Example C91_case_solvers : brentq_ok u_sv /\ fmin_ok u_sv /\ brentq_near u_sv (1 / 1000) /\ solver_ok u_o.
Proof. destruct u_sv_ok as (A & B & C). split; [exact A|]. split; [exact B|]. split; [exact C|exact u_solver]. Qed.
Example C91_case_compliers : meanf 16 (dr_signal u_d u_z (u_guess "ml_m_d_z0") (u_guess "ml_m_d_z1") (lpq_adjust 16 false (1 / 100) u_z (u_guess "ml_m_z"))) = - (1 / 4).
Proof. exact u_share. Qed.

(** Properties of the objects of quantile effects and of average potential
    outcomes: C92, C93. *)
From Verif Require Import L_WrapWitness.
Local Open Scope R_scope.
Local Open Scope string_scope.

(** ** C92: construction of DoubleMLQTE and DoubleMLAPOS *)
(** With a split to be drawn, a call returns an object exactly for the documented arguments. *)
Theorem C92_quantile_effects : forall (E P : Type) (L : learner E row P) rd f s sv, S_Data.constructed f s -> unclustered s -> both_arms f s -> sound_randomness rd -> (0 < M_Data.frows f)%nat -> 
  forall (dflt : vec -> vec -> R) o (ml_g : pylearner E) (ml_m : option (pylearner E)) qs nfv nrv score norm kde rule thr,
  qs <> [] ->
  (succeeds (qte_init L rd f s sv dflt o ml_g ml_m qs nfv nrv score norm kde rule thr true) <->
   (forall q, In q qs -> 0 < q < 1) /\ kernel_ok kde /\ boolean norm /\ trimming_ok rule thr /\
   exists m c, ml_m = Some m /\ binary_treatment f s c /\ split_args (M_Data.frows f) nfv nrv (PBool true) (Some (col f c)) /\ predicts_probabilities m /\ score_setting f s score ml_g).
Proof. exact @qte_accepts. Qed.
Print Assumptions C92_quantile_effects.

Theorem C92_potential_outcomes : forall (E P : Type) (L : learner E row P) rd f s, S_Data.constructed f s -> unclustered s -> sound_randomness rd -> (0 < M_Data.frows f)%nat -> 
  forall (ml_g : pylearner E) (ml_m : pylearner E) levels nfv nrv score weights norm rule thr,
  levels <> [] ->
  (succeeds (apos_init L rd f s ml_g ml_m levels nfv nrv score weights norm rule thr true) <->
   no_instruments s /\ (exists c, M_Data.r_d (M_Data.dd_roles s) = [c] /\ whole_numbers (M_Data.frows f) (col f c) /\ split_args (M_Data.frows f) nfv nrv (PBool true) (Some (col f c)) /\ forall v, In v levels -> frequent f c v) /\
   score = PStr "APO" /\ weights_ok weights ScATE (M_Data.frows f) (Z.to_nat (int_val nrv)) /\ outcome_learner f s ml_g /\ predicts_probabilities ml_m /\ boolean norm /\ trimming_ok rule thr).
Proof. exact @apos_accepts. Qed.
Print Assumptions C92_potential_outcomes.

(** Without, the sub-models are not created and their arguments not all checked. *)
Theorem C92_quantile_effects_unsplit : forall (E P : Type) (L : learner E row P) rd f s sv, S_Data.constructed f s -> 
  forall (dflt : vec -> vec -> R) o (ml_g : pylearner E) (ml_m : option (pylearner E)) qs nfv nrv score norm kde rule thr,
  succeeds (qte_init L rd f s sv dflt o ml_g ml_m qs nfv nrv score norm kde rule thr false) <->
  (forall q, In q qs -> 0 < q < 1) /\ kernel_ok kde /\ (score = PStr "PQ" \/ score = PStr "LPQ" \/ score = PStr "CVaR") /\ (exists c, binary_treatment f s c) /\ trimming_ok rule thr /\ boolean norm /\
  can_clone ml_g /\ exists m, ml_m = Some m /\ can_clone m.
Proof. exact @qte_unsplit. Qed.
Print Assumptions C92_quantile_effects_unsplit.

Theorem C92_potential_outcomes_unsplit : forall (E P : Type) (L : learner E row P) rd f s, S_Data.constructed f s -> (0 < M_Data.frows f)%nat -> 
  forall (ml_g : pylearner E) (ml_m : pylearner E) levels nfv nrv score weights norm rule thr,
  succeeds (apos_init L rd f s ml_g ml_m levels nfv nrv score weights norm rule thr false) <->
   no_instruments s /\ (forall v, In v levels -> occurs f s v) /\ score = PStr "APO" /\ weights_ok weights ScATE (M_Data.frows f) (Z.to_nat (int_val nrv)) /\ outcome_learner f s ml_g /\ predicts_probabilities ml_m /\ boolean norm /\ trimming_ok rule thr.
Proof. exact @apos_unsplit. Qed.
Print Assumptions C92_potential_outcomes_unsplit.

(** The drawn split is spread evenly over the treatment values and held by all sub-models. *)
Theorem C92_quantile_effects_split : forall (E P : Type) (L : learner E row P) rd f s sv, S_Data.constructed f s -> unclustered s -> sound_randomness rd -> (0 < M_Data.frows f)%nat -> 
  forall (dflt : vec -> vec -> R) o (ml_g : pylearner E) (ml_m : option (pylearner E)) qs nfv nrv score norm kde rule thr,
  qs <> [] -> forall  K b,
  qte_init L rd f s sv dflt o ml_g ml_m qs nfv nrv score norm kde rule thr true = Ok (K, b) ->
  exists c sm, binary_treatment f s c /\ wo_smpls b = Some sm /\ spread (M_Data.frows f) nfv nrv (col f c) sm /\ all_on pair_on b sm.
Proof. exact @qte_drawn. Qed.
Print Assumptions C92_quantile_effects_split.

Theorem C92_potential_outcomes_split : forall (E P : Type) (L : learner E row P) rd f s, S_Data.constructed f s -> unclustered s -> sound_randomness rd -> (0 < M_Data.frows f)%nat -> 
  forall (ml_g ml_m : pylearner E) levels nfv nrv score weights norm rule thr,
  levels <> [] -> forall  K b,
  apos_init L rd f s ml_g ml_m levels nfv nrv score weights norm rule thr true = Ok (K, b) ->
  exists c sm, M_Data.r_d (M_Data.dd_roles s) = [c] /\ wo_smpls b = Some sm /\ spread (M_Data.frows f) nfv nrv (col f c) sm /\ all_on apo_on b sm.
Proof. exact @apos_drawn. Qed.
Print Assumptions C92_potential_outcomes_split.

(** All other calls raise a TypeError or a ValueError. *)
Theorem C92_quantile_effects_refused : forall (E P : Type) (L : learner E row P) rd f s sv, S_Data.constructed f s -> unclustered s -> both_arms f s -> sound_randomness rd -> (0 < M_Data.frows f)%nat -> 
  forall (dflt : vec -> vec -> R) o (ml_g : pylearner E) (ml_m : option (pylearner E)) qs nfv nrv score norm kde rule thr draw,
  qs <> [] -> type_or_value_error (qte_init L rd f s sv dflt o ml_g ml_m qs nfv nrv score norm kde rule thr draw).
Proof. exact @qte_refused. Qed.
Print Assumptions C92_quantile_effects_refused.

Theorem C92_potential_outcomes_refused : forall (E P : Type) (L : learner E row P) rd f s, S_Data.constructed f s -> unclustered s -> sound_randomness rd -> (0 < M_Data.frows f)%nat -> 
  forall (ml_g : pylearner E) (ml_m : pylearner E) levels nfv nrv score weights norm rule thr draw,
  levels <> [] -> arrays_given weights -> type_or_value_error (apos_init L rd f s ml_g ml_m levels nfv nrv score weights norm rule thr draw).
Proof. exact @apos_refused. Qed.
Print Assumptions C92_potential_outcomes_refused.

(** The default ml_m=None is never accepted. *)
Theorem C92_default_learner_refuted : forall (E P : Type) (L : learner E row P) rd f s sv, S_Data.constructed f s -> 
  forall (dflt : vec -> vec -> R) o (ml_g : pylearner E) qs nfv nrv score norm kde rule thr,
  forall  draw,
  forall x, qte_init L rd f s sv dflt o ml_g None qs nfv nrv score norm kde rule thr draw <> Ok x.
Proof. exact @qte_needs_m. Qed.
Print Assumptions C92_default_learner_refuted.

(** Objects that are accepted without a split although no sub-model can be created from
    their arguments: whatever is called, fit fails. *)
Theorem C92_quantile_effects_unusable_refuted : forall (E P : Type) (L : learner E row P) rd f s sv, S_Data.constructed f s -> unclustered s -> both_arms f s -> (0 < M_Data.frows f)%nat -> 
  forall (dflt : vec -> vec -> R) o (ml_g : pylearner E) qs nfv nrv score norm kde rule thr,
  qs <> [] -> forall  m K b0 b,
  qte_init L rd f s sv dflt o ml_g (Some m) qs nfv nrv score norm kde rule thr false = Ok (K, b0) ->
  ~ score_setting f s score ml_g \/ ~ predicts_probabilities m -> wlater K (qte_call sv K) b0 b ->
  wo_subs b = None /\ forall nj store smod, qte_fit sv K nj store ExtNone smod b = (b, Err AttributeError).
Proof. exact @qte_unusable. Qed.
Print Assumptions C92_quantile_effects_unusable_refuted.

Theorem C92_potential_outcomes_unusable_refuted : forall (E P : Type) (L : learner E row P) rd f s, S_Data.constructed f s -> unclustered s -> (0 < M_Data.frows f)%nat -> 
  forall (ml_g ml_m : pylearner E) levels nfv nrv score weights norm rule thr,
  levels <> [] -> forall  K b0 b v,
  apos_init L rd f s ml_g ml_m levels nfv nrv score weights norm rule thr false = Ok (K, b0) ->
  In v levels -> ~ (exists c, M_Data.r_d (M_Data.dd_roles s) = [c]) \/ ~ frequent f (M_Data.c_d s) v -> wlater K (apos_call s levels K) b0 b ->
  wo_subs b = None /\ forall nj store smod, apos_fit s levels K nj store AxNone smod b = (b, Err AttributeError).
Proof. exact @apos_unusable. Qed.
Print Assumptions C92_potential_outcomes_unusable_refuted.

Example C92_case_quantile_effects : exists s K b, u_data None s /\ both_arms u_frame s /\ u_qte s 2 true = Ok (K, b).
Proof. destruct (u_exists None) as (s & U); [auto|]. destruct (u_qte_ok s U) as (K & b & Q). exists s, K, b. split; [exact U|]. split; [exact (u_arms _ _ U)|exact Q]. Qed.
Example C92_case_potential_outcomes : exists s K b, u_data None s /\ u_apos s true = Ok (K, b).
Proof. destruct (u_exists None) as (s & U); [auto|]. destruct (u_apos_ok s U) as (K & b & Q). exists s, K, b. split; [exact U|exact Q]. Qed.
Example C92_case_quantile_effects_unusable : exists s K b, u_data None s /\ u_local s = Ok (K, b) /\ ~ score_setting u_frame s (PStr "LPQ") cls.
Proof. exact u_local_ok. Qed.
Example C92_case_potential_outcomes_unusable : exists s K b, i_data ra1 s /\ i_rare s = Ok (K, b) /\ ~ frequent i_frame (M_Data.c_d s) (PInt 0).
Proof. exact i_rare_ok. Qed.

(** ** C93: histories and fits of these objects, from the constructor on *)
(** Whatever is called, all sub-models hold one common split with cross-fitting. *)
Theorem C93_quantile_effects_split : forall (E P : Type) (L : learner E row P) rd f s sv, S_Data.constructed f s -> unclustered s -> sound_randomness rd -> (0 < M_Data.frows f)%nat -> 
  forall (dflt : vec -> vec -> R) o (ml_g : pylearner E) (ml_m : option (pylearner E)) qs nfv nrv score norm kde rule thr,
  qs <> [] -> forall draw K b0 b subs,
  qte_init L rd f s sv dflt o ml_g ml_m qs nfv nrv score norm kde rule thr draw = Ok (K, b0) -> wlater K (qte_call sv K) b0 b -> wo_subs b = Some subs ->
  length subs = length qs /\ exists sm, crossed (M_Data.frows f) sm /\ all_on pair_on b sm.
Proof. exact @qte_history. Qed.
Print Assumptions C93_quantile_effects_split.

Theorem C93_potential_outcomes_split : forall (E P : Type) (L : learner E row P) rd f s, S_Data.constructed f s -> unclustered s -> sound_randomness rd -> (0 < M_Data.frows f)%nat -> 
  forall (ml_g ml_m : pylearner E) levels nfv nrv score weights norm rule thr,
  levels <> [] -> forall draw K b0 b subs,
  apos_init L rd f s ml_g ml_m levels nfv nrv score weights norm rule thr draw = Ok (K, b0) -> wlater K (apos_call s levels K) b0 b -> wo_subs b = Some subs ->
  length subs = length levels /\ exists sm, crossed (M_Data.frows f) sm /\ all_on apo_on b sm.
Proof. exact @apos_history. Qed.
Print Assumptions C93_potential_outcomes_split.

(** It is the reported one, unless no sample splitting is asked for; for potential outcomes,
    unless moreover a split is drawn anew or weights are given for all repetitions. *)
Theorem C93_quantile_effects_reported_partial : forall (E P : Type) (L : learner E row P) rd f s sv, S_Data.constructed f s -> unclustered s -> both_arms f s -> sound_randomness rd -> (0 < M_Data.frows f)%nat -> 
  forall (dflt : vec -> vec -> R) o (ml_g : pylearner E) (ml_m : option (pylearner E)) qs nfv nrv score norm kde rule thr,
  qs <> [] -> forall draw K b0 l subs,
  qte_init L rd f s sv dflt o ml_g ml_m qs nfv nrv score norm kde rule thr draw = Ok (K, b0) -> (forall c, In c l -> wgood c /\ ~ asks_no_split (M_Data.frows f) c) ->
  let b := wcalls K (qte_call sv K) l b0 in wo_subs b = Some subs -> exists sm, wo_smpls b = Some sm /\ all_on pair_on b sm.
Proof. exact @qte_reported. Qed.
Print Assumptions C93_quantile_effects_reported_partial.

Theorem C93_potential_outcomes_reported_partial : forall (E P : Type) (L : learner E row P) rd f s, S_Data.constructed f s -> unclustered s -> sound_randomness rd -> (0 < M_Data.frows f)%nat -> 
  forall (ml_g ml_m : pylearner E) levels nfv nrv score weights norm rule thr,
  levels <> [] -> forall draw K b0 l subs,
  (forall a b x, weights <> WDict a b x) -> apos_init L rd f s ml_g ml_m levels nfv nrv score weights norm rule thr draw = Ok (K, b0) -> (forall c, In c l -> wgood c /\ ~ asks_no_split (M_Data.frows f) c /\ forall g, c <> WcDraw g) ->
  let b := wcalls K (apos_call s levels K) l b0 in wo_subs b = Some subs -> exists sm, wo_smpls b = Some sm /\ all_on apo_on b sm.
Proof. exact @apos_reported. Qed.
Print Assumptions C93_potential_outcomes_reported_partial.

(** Asking for no sample splitting raises, but replaces the reported split. *)
Theorem C93_quantile_effects_no_split_refuted : forall (E P : Type) (L : learner E row P) rd f s sv, S_Data.constructed f s -> unclustered s -> sound_randomness rd -> (0 < M_Data.frows f)%nat -> 
  forall (dflt : vec -> vec -> R) o (ml_g : pylearner E) (ml_m : option (pylearner E)) qs nfv nrv score norm kde rule thr,
  qs <> [] -> forall draw K b0 b sp reps,
  qte_init L rd f s sv dflt o ml_g ml_m qs nfv nrv score norm kde rule thr draw = Ok (K, b0) -> good_split (M_Data.frows f) sp reps -> no_split (M_Data.frows f) reps ->
  exists b' e, wrap_set K sp b = (b', Err e) /\ wo_smpls b' = Some [[(seq 0 (M_Data.frows f), seq 0 (M_Data.frows f))]] /\ wo_subs b' = wo_subs b.
Proof. exact @qte_no_split_set. Qed.
Print Assumptions C93_quantile_effects_no_split_refuted.

Theorem C93_potential_outcomes_no_split_refuted : forall (E P : Type) (L : learner E row P) rd f s, S_Data.constructed f s -> unclustered s -> sound_randomness rd -> (0 < M_Data.frows f)%nat -> 
  forall (ml_g ml_m : pylearner E) levels nfv nrv score weights norm rule thr,
  levels <> [] -> forall draw K b0 b sp reps,
  apos_init L rd f s ml_g ml_m levels nfv nrv score weights norm rule thr draw = Ok (K, b0) -> good_split (M_Data.frows f) sp reps -> no_split (M_Data.frows f) reps ->
  exists b' e, wrap_set K sp b = (b', Err e) /\ wo_smpls b' = Some [[(seq 0 (M_Data.frows f), seq 0 (M_Data.frows f))]] /\ wo_subs b' = wo_subs b.
Proof. exact @apos_no_split_set. Qed.
Print Assumptions C93_potential_outcomes_no_split_refuted.

(** Drawing a split for potential outcomes leaves the sub-models on the old one. *)
Theorem C93_redraw_refuted : forall (E P : Type) (L : learner E row P) rd f s, S_Data.constructed f s -> (0 < M_Data.frows f)%nat -> 
  forall (ml_g ml_m : pylearner E) levels nfv nrv score weights norm rule thr,
  levels <> [] -> forall draw K b0 b g b',
  apos_init L rd f s ml_g ml_m levels nfv nrv score weights norm rule thr draw = Ok (K, b0) -> shuffles g -> wrap_draw K g b = (b', Ok tt) ->
  wo_subs b' = wo_subs b /\ exists sm, wo_smpls b' = Some sm /\ spread (M_Data.frows f) (wo_folds b) (wo_reps b) (col f (M_Data.c_d s)) sm.
Proof. exact @apos_redrawn. Qed.
Print Assumptions C93_redraw_refuted.

(** After a fit: per quantile, the treated minus the control estimate of two models created,
    split and fitted through their public interface on the common split. *)
Theorem C93_quantile_effects : forall (E P : Type) (L : learner E row P) rd f s sv, S_Data.constructed f s -> unclustered s -> sound_randomness rd -> (0 < M_Data.frows f)%nat -> 
  forall (dflt : vec -> vec -> R) o (ml_g : pylearner E) (ml_m : option (pylearner E)) qs nfv nrv score norm kde rule thr,
  qs <> [] -> forall draw K b0 b nj st ext md b',
  qte_init L rd f s sv dflt o ml_g ml_m qs nfv nrv score norm kde rule thr draw = Ok (K, b0) -> wlater K (qte_call sv K) b0 b ->
  qte_fit sv K nj st ext md b = (b', Ok tt) ->
  ext = ExtNone /\ exists sc m h sm F fs, score = PStr sc /\ ml_m = Some m /\ kernel_used dflt kde h /\ crossed (M_Data.frows f) sm /\ all_on pair_on b sm /\ wo_fw b' = Some F /\ length fs = length qs /\ effects_of (M_Data.frows f) (length sm) fs F /\
  forall i q F0 F1, nth_error qs i = Some q -> nth_error fs i = Some (F0, F1) ->
    arm_fitted L rd f s sv sc h (o i false) ml_g m q false norm rule thr nj st md sm F0 /\ arm_fitted L rd f s sv sc h (o i true) ml_g m q true norm rule thr nj st md sm F1.
Proof. exact @qte_end. Qed.
Print Assumptions C93_quantile_effects.

(** Per level, the estimate of a model created, split and fitted likewise, with the
    predictions supplied for the level. *)
Theorem C93_potential_outcomes : forall (E P : Type) (L : learner E row P) rd f s, S_Data.constructed f s -> unclustered s -> sound_randomness rd -> (0 < M_Data.frows f)%nat -> 
  forall (ml_g ml_m : pylearner E) levels nfv nrv score weights norm rule thr,
  levels <> [] -> forall draw K b0 b nj st ext md b',
  apos_init L rd f s ml_g ml_m levels nfv nrv score weights norm rule thr draw = Ok (K, b0) -> wlater K (apos_call s levels K) b0 b ->
  apos_fit s levels K nj st ext md b = (b', Ok tt) ->
  exists dcol sm F fs, M_Data.r_d (M_Data.dd_roles s) = [dcol] /\ crossed (M_Data.frows f) sm /\ all_on apo_on b sm /\ wo_fw b' = Some F /\ length fs = length levels /\ levels_of (M_Data.frows f) (length sm) fs F /\
  forall i v Fi, nth_error levels i = Some v -> nth_error fs i = Some Fi -> exists e, level_predictions dcol ext v e /\ level_fitted L rd f s ml_g ml_m v score weights norm rule thr nj st e md sm Fi.
Proof. exact @apos_end. Qed.
Print Assumptions C93_potential_outcomes.

(** External predictions for some of the levels only: KeyError. *)
Theorem C93_missing_levels_refuted : forall (E P : Type) (L : learner E row P) rd f s, S_Data.constructed f s -> (0 < M_Data.frows f)%nat -> 
  forall (ml_g ml_m : pylearner E) levels nfv nrv score weights norm rule thr,
  forall draw K b0 b nj st md l v,
  apos_init L rd f s ml_g ml_m levels nfv nrv score weights norm rule thr draw = Ok (K, b0) ->
  (forall k e, In (k, e) l -> (exists v', In v' levels /\ exists r, level_number k = Some r /\ level_number v' = Some r) /\ exists il, e = LxDict il /\ forall x, In x il -> In (fst x) ["ml_g_d_lvl0"; "ml_g_d_lvl1"; "ml_m"]) ->
  In v levels -> (forall k e r, In (k, e) l -> level_number k = Some r -> level_number v <> Some r) -> apos_fit s levels K nj st (AxDict l) md b = (b, Err KeyError).
Proof. exact @apos_missing_levels. Qed.
Print Assumptions C93_missing_levels_refuted.

(** Fits succeed for learners that can be trained and folds that see all they have to. *)
Theorem C93_quantile_effects_success : forall (E P : Type) (L : learner E row P) rd f s sv, S_Data.constructed f s -> unclustered s -> sound_randomness rd -> (0 < M_Data.frows f)%nat -> 
  forall (dflt : vec -> vec -> R) o (ml_g : pylearner E) (ml_m : option (pylearner E)) qs nfv nrv score norm kde rule thr draw K b0 b sm fv gv nj st md,
  qs <> [] ->
  qte_init L rd f s sv dflt o ml_g ml_m qs nfv nrv score norm kde rule thr draw = Ok (K, b0) -> wlater K (qte_call sv K) b0 b -> all_on pair_on b sm ->
  row_wise L fv gv -> classifier_ok L gv -> clone_ok L -> trains L -> (forall i tr r k, solver_ok (o i tr r k)) -> brentq_ok sv -> fmin_ok sv -> no_jobs_or_int nj ->
  (forall i tr r fs, (i < length qs)%nat -> nth_error sm r = Some fs -> arm_usable f s score (o i tr r (length fs)) tr fs) ->
  exists b', qte_fit sv K nj (PBool st) ExtNone (PBool md) b = (b', Ok tt).
Proof. exact @qte_success. Qed.
Print Assumptions C93_quantile_effects_success.

Theorem C93_potential_outcomes_success : forall (E P : Type) (L : learner E row P) rd f s, S_Data.constructed f s -> unclustered s -> sound_randomness rd -> (0 < M_Data.frows f)%nat -> 
  forall (ml_g ml_m : pylearner E) levels nfv nrv score weights norm rule thr,
  levels <> [] -> forall draw K b0 b sm fv gv nj st md,
  apos_init L rd f s ml_g ml_m levels nfv nrv score weights norm rule thr draw = Ok (K, b0) -> wlater K (apos_call s levels K) b0 b -> all_on apo_on b sm ->
  row_wise L fv gv -> classifier_ok L gv -> clone_ok L -> trains L -> (forall r t l fs, nth_error sm r = Some fs -> schedule (rd_order rd r t l) (length fs)) -> no_jobs_or_int nj ->
  ly_classifier ml_g = false -> ~ S_Data.zero_one_column f (M_Data.r_y (M_Data.dd_roles s)) -> (forall v fs, In v levels -> In fs sm -> level_usable f s v fs) ->
  exists b', apos_fit s levels K nj (PBool st) AxNone (PBool md) b = (b', Ok tt).
Proof. exact @apos_success. Qed.
Print Assumptions C93_potential_outcomes_success.

Example C93_case_quantile_effects : exists s K b0 b b', u_data None s /\ u_qte s 2 true = Ok (K, b0) /\ wlater K (qte_call u_sv K) b0 b /\ wo_smpls b = Some [u_smpls] /\ all_on pair_on b [u_smpls] /\
  qte_fit u_sv K PNone (PBool true) ExtNone (PBool false) b = (b', Ok tt).
Proof. exact u_qte_end. Qed.
Example C93_case_potential_outcomes : exists s K b0 b b', u_data None s /\ u_apos s true = Ok (K, b0) /\ wlater K (apos_call s u_levels K) b0 b /\ wo_smpls b = Some [u_smpls] /\ all_on apo_on b [u_smpls] /\
  apos_fit s u_levels K PNone (PBool true) AxNone (PBool false) b = (b', Ok tt).
Proof. exact u_apos_end. Qed.
Example C93_case_redraw : exists s K b0 b b', u_data None s /\ u_apos s true = Ok (K, b0) /\ wlater K (apos_call s u_levels K) b0 b /\ all_on apo_on b [u_by_smpls] /\ wrap_draw K g_id b = (b', Ok tt) /\
  wo_smpls b' <> Some [u_by_smpls] /\ all_on apo_on b' [u_by_smpls].
Proof. exact u_redraw. Qed.
Example C93_case_no_split : good_split 16 u_all [[(zs (seq 0 16), zs (seq 0 16))]] /\ no_split 16 [[(zs (seq 0 16), zs (seq 0 16))]].
Proof. exact u_all_good. Qed.
Example C93_case_missing_levels : exists s K b0, u_data None s /\ u_apos s true = Ok (K, b0) /\ forall b nj st md, apos_fit s u_levels K nj st (AxDict [(PInt 0, LxDict [])]) md b = (b, Err KeyError).
Proof. destruct (u_exists None) as (s & U); [auto|]. destruct (u_apos_ok s U) as (K & b & Q). exists s, K, b. split; [exact U|]. split; [exact Q|]. intros b1 nj st md. exact (u_missing s K b b1 nj st md U Q). Qed.

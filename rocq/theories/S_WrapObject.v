(** Vocabulary for the statements about the objects of quantile effects and
    average potential outcomes. *)
From Verif Require Export S_QObject S_Classes S_Multi M_WrapObject.
Local Open Scope R_scope.
Local Open Scope string_scope.

(** The split held by a sub-model. *)
Definition qsub_split {P} (q : @qsub P) : option (list (list fold)) :=
  match q with QNl _ b => m_smpls (w_obj (ob_world b)) | QLin _ w => m_smpls (w_obj w) end.
Definition pair_on {P} (p : @qsub P * @qsub P) (sm : list (list fold)) : Prop := qsub_split (fst p) = Some sm /\ qsub_split (snd p) = Some sm.
Definition apo_on {P} (p : @apo_object P) (sm : list (list fold)) : Prop := m_smpls (w_obj (snd p)) = Some sm.
(** A wrapper all of whose sub-models hold the split [sm]. *)
Definition all_on {B} (on : B -> list (list fold) -> Prop) (b : wobj B) (sm : list (list fold)) : Prop :=
  exists l, wo_subs b = Some l /\ forall m, In m l -> on m sm.

(** Any calls, drawn splits permuting. *)
Definition wgood {A} (c : @wcall A) : Prop := match c with WcDraw g => shuffles g | _ => True end.
Definition wlater {B A} (K : wclass B) (fitting : A -> wobj B -> wobj B * result unit) (b0 b : wobj B) : Prop :=
  exists l, (forall c, In c l -> wgood c) /\ b = wcalls K fitting l b0.
(** A call asking for no sample splitting: one fold, both parts the full sample. *)
Definition asks_no_split {A} (n : nat) (c : @wcall A) : Prop := exists sp reps, c = WcSet sp /\ good_split n sp reps /\ no_split n reps.
(** A drawn split: [n_rep] repetitions of [n_folds] folds, each a partition over
    whose test parts the rows with a common value of [v] are spread evenly, no
    train part missing a value that two or more rows have. *)
Definition spread (n : nat) (n_folds n_rep : pyval) (v : vec) (sm : list (list fold)) : Prop :=
  length sm = Z.to_nat (int_val n_rep) /\
  forall fs, In fs sm -> length fs = Z.to_nat (int_val n_folds) /\ proper_split n fs /\
    (forall h k i, In h fs -> In k fs -> (i < n)%nat -> (value_count v (v i) (snd h) <= value_count v (v i) (snd k) + 1)%nat) /\
    (forall h i, In h fs -> (i < n)%nat -> (2 <= rows_with n v (v i))%nat -> exists j, (j < n)%nat /\ In j (fst h) /\ v j = v i).
(** A split with cross-fitting: at least one repetition, each a list of folds whose
    test parts are a partition of the rows, apart from their train parts. *)
Definition crossed (n : nat) (sm : list (list fold)) : Prop :=
  sm <> [] /\ (exists k, forall fs, In fs sm -> length fs = k) /\
  forall fs, In fs sm -> fs <> [] /\ Permutation (flat_map snd fs) (seq 0 n) /\
    forall h, In h fs -> Sorted lt (fst h) /\ Sorted lt (snd h) /\ forall i, In i (fst h) -> (i < n)%nat /\ ~ In i (snd h).
(** Learners that can be cloned. *)
Definition can_clone {E} (l : pylearner E) : Prop := ly_is_class l = false /\ ly_get l = true.
(** The score, the instruments it needs and what ml_g predicts. *)
Definition score_setting {E} (f : M_Data.frame) (s : M_Data.ddata) (score : pyval) (ml_g : pylearner E) : Prop :=
  score = PStr "PQ" /\ no_instruments s /\ predicts_probabilities ml_g \/
  score = PStr "LPQ" /\ (exists z, binary_instrument f s z) /\ predicts_probabilities ml_g \/
  score = PStr "CVaR" /\ no_instruments s /\ predicts_values ml_g.

(** No parameters of the learners have been set. *)
Definition untuned {P} (w : world P) : Prop := forall l t r, params_at w l t r = None.
(** A fitted potential quantile (or CVaR) model of the arm [treated] for the
    quantile [q]: created by its public constructor from clones of the learners,
    given the split [sm] and fitted, all without external predictions and set
    parameters; [F]: its framework. *)
Section Arm.
Context {E P : Type}.
Variables (L : learner E row P) (rd : randomness) (f : M_Data.frame) (s : M_Data.ddata) (sv : solvers).
Definition arm_fitted (score : string) (h : vec -> vec -> R) (o : nat -> nat -> q_oracles) (ml_g ml_m : pylearner E) (q : R) (treated : bool) (norm rule thr nj store smod : pyval) (sm : list (list fold)) (F : framework) : Prop :=
  let a := PInt (if treated then 1 else 0) in exists n_folds n_rep,
  score = "PQ" /\ (exists K b0 b b' reps, pq_init L rd f s h o (cloned_learner L ml_g) (cloned_learner L ml_m) a (PFloat q) n_folds n_rep (PStr "PQ") norm (KdeFun h) rule thr (PBool false) = Ok (K, b0) /\
     nl_later sv K b0 b /\ m_smpls (w_obj (ob_world b)) = Some sm /\ untuned (ob_world b) /\ nl_fit sv K nj store ExtNone smod b = (b', Ok tt) /\ ob_res b' = Some (reps, F)) \/
  score = "LPQ" /\ (exists K b0 b b' reps, lpq_init L rd f s h o (cloned_learner L ml_g) (cloned_learner L ml_m) a (PFloat q) n_folds n_rep (PStr "LPQ") norm (KdeFun h) rule thr (PBool false) = Ok (K, b0) /\
     nl_later sv K b0 b /\ m_smpls (w_obj (ob_world b)) = Some sm /\ untuned (ob_world b) /\ nl_fit sv K nj store ExtNone smod b = (b', Ok tt) /\ ob_res b' = Some (reps, F)) \/
  score = "CVaR" /\ (exists C w0 w w', cvar_init L rd f s o (cloned_learner L ml_g) (cloned_learner L ml_m) a (PFloat q) n_folds n_rep (PStr "CVaR") norm rule thr (PBool false) = Ok (C, w0) /\
     later C w0 w /\ m_smpls (w_obj w) = Some sm /\ untuned w /\ fit C nj store ExtNone smod w = (w', Ok tt) /\ framework_of w' = Some F).
End Arm.
(** The folds [fs] suffice for one arm: the inner splits exist and carry both
    labels, and there are rows of the arm to predict from. *)
Definition arm_usable (f : M_Data.frame) (s : M_Data.ddata) (score : pyval) (o : q_oracles) (treated : bool) (fs : list fold) : Prop :=
  (score = PStr "PQ" \/ score = PStr "CVaR") /\ (exists d, binary_treatment f s d /\ pq_usable o (if treated then 1 else 0) (col f d) fs) \/
  score = PStr "LPQ" /\ exists d z, binary_treatment f s d /\ binary_instrument f s z /\ lpq_usable o (col f d) (col f z) fs.
(** The folds [fs] suffice for one level: all train parts have rows inside and
    outside of the level. *)
Definition level_usable (f : M_Data.frame) (s : M_Data.ddata) (v : pyval) (fs : list fold) : Prop :=
  exists r, level_number v = Some r /\ forall h, In h fs -> exists i j, In i (fst h) /\ In j (fst h) /\ (i < M_Data.frows f)%nat /\ (j < M_Data.frows f)%nat /\ col f (M_Data.c_d s) i = r /\ col f (M_Data.c_d s) j <> r.
(** Estimates with one parameter per quantile, each the treated minus the control
    estimate, their standard errors those of the differences of the scores. *)
Definition effects_of (n nr : nat) (fs : list (framework * framework)) (h : framework) : Prop :=
  fw_wf h /\ fw_n_thetas h = length fs /\ fw_n_obs h = n /\ fw_n_rep h = nr /\ fw_aggregated h /\ fw_ses_from_scores h /\
  forall k f0 f1, nth_error fs k = Some (f0, f1) ->
    (forall r, at_ (fw_all_thetas h) [k; r] = at_ (fw_all_thetas f1) [0%nat; r] - at_ (fw_all_thetas f0) [0%nat; r]) /\
    (forall i r, at_ (fw_scaled_psi h) [i; k; r] = at_ (fw_scaled_psi f1) [i; 0%nat; r] - at_ (fw_scaled_psi f0) [i; 0%nat; r]).
(** Calls of [fit] with arguments n_jobs_cv, store_predictions, external_predictions
    and store_models. *)
Definition qte_call {P} (sv : solvers) (K : wclass (@qsub P * @qsub P)) (a : pyval * pyval * ext_arg * pyval) (b : wobj (@qsub P * @qsub P)) : wobj (@qsub P * @qsub P) * result unit :=
  let '(nj, store, ext, smod) := a in qte_fit sv K nj store ext smod b.
Definition apos_call {P} (s : M_Data.ddata) (levels : list pyval) (K : wclass (@apo_object P)) (a : pyval * pyval * apos_ext * pyval) (b : wobj (@apo_object P)) : wobj (@apo_object P) * result unit :=
  let '(nj, store, ext, smod) := a in apos_fit s levels K nj store ext smod b.
(** A fitted average potential outcome model of the level [v], [F] its framework. *)
Section Level.
Context {E P : Type}.
Variables (L : learner E row P) (rd : randomness) (f : M_Data.frame) (s : M_Data.ddata).
Definition given_weights (n : nat) (w : warg) : warg := match w with WNone => WArr (mk1 n (fun _ => 1)) | _ => w end.
Definition level_fitted (ml_g ml_m : pylearner E) (v score : pyval) (weights : warg) (norm rule thr nj store : pyval) (ext : ext_arg) (smod : pyval) (sm : list (list fold)) (F : framework) : Prop :=
  exists n_folds n_rep C w0 w w', apo_init L rd f s (cloned_learner L ml_g) (cloned_learner L ml_m) v n_folds n_rep score (given_weights (M_Data.frows f) weights) norm rule thr (PBool false) = Ok (C, w0) /\
    int_val n_rep = Z.of_nat (length sm) /\ later C w0 w /\ m_smpls (w_obj w) = Some sm /\ untuned w /\ fit C nj store ext smod w = (w', Ok tt) /\ framework_of w' = Some F.
End Level.
(** Estimates with one parameter per level, those of the models of the levels. *)
Definition levels_of (n nr : nat) (fs : list framework) (h : framework) : Prop :=
  fw_wf h /\ fw_n_thetas h = length fs /\ fw_n_obs h = n /\ fw_n_rep h = nr /\
  forall k g, nth_error fs k = Some g ->
    at_ (fw_thetas h) [k] = at_ (fw_thetas g) [0%nat] /\ at_ (fw_ses h) [k] = at_ (fw_ses g) [0%nat] /\
    (forall r, at_ (fw_all_thetas h) [k; r] = at_ (fw_all_thetas g) [0%nat; r]) /\ (forall r, at_ (fw_all_ses h) [k; r] = at_ (fw_all_ses g) [0%nat; r]) /\
    (forall i r, at_ (fw_scaled_psi h) [i; k; r] = at_ (fw_scaled_psi g) [i; 0%nat; r]).
(** The external predictions for the level [v], as its model is given them. *)
Definition level_predictions (dcol : string) (ext : apos_ext) (v : pyval) (e : ext_arg) : Prop :=
  ext = AxNone /\ e = ExtNone \/
  exists l k given inner, ext = AxDict l /\ In (k, LxDict given) l /\ (exists r, level_number k = Some r /\ level_number v = Some r) /\ e = ExtDict [(dcol, InnerDict inner)] /\
    forall name, dict_get name inner = if smem name ["ml_g_d_lvl0"; "ml_g_d_lvl1"; "ml_m"] then dict_get name given else None.
(** A level of the treatment in the data. *)
Definition occurs (f : M_Data.frame) (s : M_Data.ddata) (v : pyval) : Prop := exists r i, level_number v = Some r /\ (i < M_Data.frows f)%nat /\ col f (M_Data.c_d s) i = r.
(** At least five rows. *)
Definition frequent (f : M_Data.frame) (c : string) (v : pyval) : Prop := exists r, level_number v = Some r /\ (5 <= rows_with (M_Data.frows f) (col f c) r)%nat.
(** The kernel density estimator: a function, by default the given one. *)
Definition kernel_used (dflt : vec -> vec -> R) (k : kde_arg) (h : vec -> vec -> R) : Prop := k = KdeNone /\ h = dflt \/ k = KdeFun h.

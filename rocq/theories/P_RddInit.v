(** C94: regression discontinuity objects, from constructor to fit. *)
From Verif Require Import L_RddInit L_RddMore L_RddWitness.
From Coq Require Import Lia Lra.
Local Open Scope R_scope.
Local Open Scope string_scope.

(** RDFlex returns an object exactly for these arguments. *)
Theorem C94_accepts : forall (E : Type) (learn : E -> bool -> rd_learner) bwselect robust casefold ty td junk g f s, S_Data.constructed f s ->
  forall (ml_g : rd_learner_arg E) (ml_m : option (rd_learner_arg E)) (fuzzy : bool) cutoff nf nr h spec ka, succeeds (rd_init learn bwselect robust casefold ty td junk g f s ml_g ml_m fuzzy cutoff nf nr h spec ka) <->
  rd_learners_ok f s fuzzy ml_g ml_m /\ exists a, rd_setup bwselect casefold f s fuzzy cutoff nf nr h spec ka a /\ foldable (M_Data.frows f) nf (col f (fs_treatment a)) /\
    weight_left (M_Data.frows f) (fs_score a) (fs_weights a) <> 0 /\ weight_right (M_Data.frows f) (fs_score a) (fs_weights a) <> 0.
Proof. exact @rd_accepts. Qed.
Print Assumptions C94_accepts.

(** With a named kernel and a positive bandwidth: exactly if both sides have a row within the bandwidth. *)
Theorem C94_weight_left : forall n score k h, 0 < h -> (weight_left n score (fun i => kernel k (score i) h) <> 0 <-> exists i, (i < n)%nat /\ score i < 0 /\ within k (score i) h).
Proof. exact weight_left_named. Qed.
Print Assumptions C94_weight_left.

Theorem C94_weight_right : forall n score k h, 0 < h -> (weight_right n score (fun i => kernel k (score i) h) <> 0 <-> exists i, (i < n)%nat /\ 0 < score i /\ within k (score i) h).
Proof. exact weight_right_named. Qed.
Print Assumptions C94_weight_right.

(** A refused call raises one of these … *)
Theorem C94_errors : forall (E : Type) (learn : E -> bool -> rd_learner) bwselect robust casefold ty td junk g f s (ml_g : rd_learner_arg E) (ml_m : option (rd_learner_arg E)) (fuzzy : bool) cutoff nf nr h spec ka e, rd_init learn bwselect robust casefold ty td junk g f s ml_g ml_m fuzzy cutoff nf nr h spec ka = Err e -> e = TypeError \/ e = ValueError \/ e = ZeroDivisionError.
Proof. exact @rd_errors. Qed.
Print Assumptions C94_errors.

(** … the division error exactly if all arguments are valid but one side has no weight. *)
Theorem C94_division_error : forall (E : Type) (learn : E -> bool -> rd_learner) bwselect robust casefold ty td junk g f s, S_Data.constructed f s ->
  forall (ml_g : rd_learner_arg E) (ml_m : option (rd_learner_arg E)) (fuzzy : bool) cutoff nf nr h spec ka, rd_init learn bwselect robust casefold ty td junk g f s ml_g ml_m fuzzy cutoff nf nr h spec ka = Err ZeroDivisionError <->
  rd_learners_ok f s fuzzy ml_g ml_m /\ exists a, rd_setup bwselect casefold f s fuzzy cutoff nf nr h spec ka a /\ (weight_left (M_Data.frows f) (fs_score a) (fs_weights a) = 0 \/ weight_right (M_Data.frows f) (fs_score a) (fs_weights a) = 0).
Proof. exact @rd_division. Qed.
Print Assumptions C94_division_error.

(** A cutoff equal to the smallest or largest score lies in the range of the score but is never accepted. *)
Theorem C94_cutoff_in_range_refuted : forall (E : Type) (learn : E -> bool -> rd_learner) bwselect robust casefold ty td junk g f s, S_Data.constructed f s -> forall ml_g ml_m fuzzy cutoff nf nr h spec ka a, rd_learners_ok f s fuzzy ml_g ml_m -> rd_setup bwselect casefold f s fuzzy cutoff nf nr h spec ka a ->
  (forall i, (i < M_Data.frows f)%nat -> 0 <= fs_score a i) \/ (forall i, (i < M_Data.frows f)%nat -> fs_score a i <= 0) ->
  rd_init learn bwselect robust casefold ty td junk g f s ml_g ml_m fuzzy cutoff nf nr h spec ka = Err ZeroDivisionError.
Proof. exact @cutoff_at_end. Qed.
Print Assumptions C94_cutoff_in_range_refuted.

(** What the object holds, and when the constructor warns. *)
Theorem C94_object : forall (E : Type) (learn : E -> bool -> rd_learner) bwselect robust casefold ty td junk g f s, S_Data.constructed f s ->
  forall (ml_g : rd_learner_arg E) (ml_m : option (rd_learner_arg E)) (fuzzy : bool) cutoff nf nr h spec ka o ws, shuffles g -> rd_init learn bwselect robust casefold ty td junk g f s ml_g ml_m fuzzy cutoff nf nr h spec ka = Ok (o, ws) ->
  exists a, rd_setup bwselect casefold f s fuzzy cutoff nf nr h spec ka a /\
    ro_n o = (M_Data.frows f) /\ ro_y o = outcome f s /\ ro_d o = col f (fs_treatment a) /\ ro_x o = covariates f s (fs_treatment a) /\ ro_score o = fs_score a /\ ro_fuzzy o = fuzzy /\
    ro_spec o = fs_spec_of a /\ ro_kernel o = fs_kern a /\ ro_h_fs o = fs_h a /\ ro_ty o = ty /\ ro_td o = td /\ ro_robust o = robust (fs_score a) /\
    ro_ml_g o = fitted_rule learn ml_g /\ (fuzzy = true -> exists m, ml_m = Some m /\ ro_ml_m o = learn (ly_obj (wl_learner m)) true) /\
    stratified_smpls (M_Data.frows f) nf nr (col f (fs_treatment a)) (ro_smpls o) /\
    (In LooksFuzzy ws <-> fuzzy = false /\ exists i, (i < (M_Data.frows f))%nat /\ col f (fs_treatment a) i <> if Rle_dec 0 (fs_score a i) then 1 else 0) /\
    (In IgnoredLearner ws <-> fuzzy = false /\ ml_m <> None) /\
    (In WrongSide ws <-> / 10 ^ 6 < share_left (M_Data.frows f) (fs_score a) (fs_weights a) (col f (fs_treatment a)) - share_right (M_Data.frows f) (fs_score a) (fs_weights a) (col f (fs_treatment a))).
Proof. exact @rd_made. Qed.
Print Assumptions C94_object.

(** Adding a number to the score and to the cutoff changes nothing. *)
Theorem C94_distance_only : forall (E : Type) (learn : E -> bool -> rd_learner) bwselect robust casefold ty td junk g f f' s s' c a cutoff cutoff' c0, S_Data.constructed f s -> S_Data.constructed f' s' -> M_Data.dd_roles s' = M_Data.dd_roles s -> (exists d, M_Data.r_d (M_Data.dd_roles s) = [d]) -> M_Data.r_s (M_Data.dd_roles s) = Some c -> M_Data.frows f' = M_Data.frows f ->
  (forall c', c' <> c -> M_Data.fcell f' c' = M_Data.fcell f c') -> (forall i, col f' c i = col f c i + a) ->
  level_number cutoff = Some c0 -> level_number cutoff' = Some (c0 + a) ->
  (exists i, (i < M_Data.frows f)%nat /\ forall z, col f c i <> IZR z) -> (exists i, (i < M_Data.frows f)%nat /\ forall z, col f' c i <> IZR z) ->
  forall ml_g ml_m fuzzy nf nr h spec ka, rd_init learn bwselect robust casefold ty td junk g f' s' ml_g ml_m fuzzy cutoff' nf nr h spec ka = rd_init learn bwselect robust casefold ty td junk g f s ml_g ml_m fuzzy cutoff nf nr h spec ka.
Proof. exact @rd_shift. Qed.
Print Assumptions C94_distance_only.

(** A sharp design uses the treatment for its folds only. *)
Theorem C94_sharp_ignores_treatment : forall (E : Type) (learn : E -> bool -> rd_learner) bwselect robust casefold ty td junk g f f' s s' c (ml_g : rd_learner_arg E) (ml_m : option (rd_learner_arg E)) (ml_m' : option (rd_learner_arg E)) cutoff nf nr h spec ka o o' ws ws' k, S_Data.constructed f s -> S_Data.constructed f' s' -> M_Data.dd_roles s' = M_Data.dd_roles s -> M_Data.r_d (M_Data.dd_roles s) = [c] -> M_Data.frows f' = M_Data.frows f ->
  (forall c', c' <> c -> M_Data.fcell f' c' = M_Data.fcell f c') ->
  rd_init learn bwselect robust casefold ty td junk g f s ml_g ml_m false cutoff nf nr h spec ka = Ok (o, ws) -> rd_init learn bwselect robust casefold ty td junk g f' s' ml_g ml_m' false cutoff nf nr h spec ka = Ok (o', ws') -> ro_smpls o = ro_smpls o' -> rd_run o k = rd_run o' k.
Proof. exact @rd_sharp. Qed.
Print Assumptions C94_sharp_ignores_treatment.

(** With learners that ignore the weights, kernel and first-stage bandwidth do not matter, nor do further iterations. *)
Theorem C94_global_learners : forall (E : Type) (learn : E -> bool -> rd_learner) bwselect robust casefold ty td junk g f s (ml_g : rd_learner_arg E) (ml_m : option (rd_learner_arg E)) (fuzzy : bool) cutoff nf nr h h' spec ka ka' o o' ws ws', S_Data.constructed f s ->
  rd_init learn bwselect robust casefold ty td junk g f s ml_g ml_m fuzzy cutoff nf nr h spec ka = Ok (o, ws) -> rd_init learn bwselect robust casefold ty td junk g f s ml_g ml_m fuzzy cutoff nf nr h' spec ka' = Ok (o', ws') ->
  weightless (ro_ml_g o) -> (fuzzy = true -> weightless (ro_ml_m o)) -> (forall k, rd_run o k = rd_run o' k) /\ forall k, (2 <= k)%nat -> rd_run o k = rd_run o 2.
Proof. exact @rd_global. Qed.
Print Assumptions C94_global_learners.

(** The global learners of the package are such learners. *)
Theorem C94_global_rule : forall (B : Type) (plain : B -> bool -> list (list R * R) -> list R -> R) class (base : pylearner B) proba train rule, global_fit plain class base proba train = Ok rule ->
  rule = plain (ly_obj base) proba (map fst train) /\ (if class then ly_classifier base else ly_regressor base) = true.
Proof. exact @global_fit_inv. Qed.
Print Assumptions C94_global_rule.

Theorem C94_global_weightless : forall (B : Type) (plain : B -> bool -> list (list R * R) -> list R -> R) base proba, weightless (global_rule plain base proba).
Proof. exact @global_weightless. Qed.
Print Assumptions C94_global_weightless.

(** A global learner around an estimator of the wrong kind passes the checks of the constructor; only fitting it raises. *)
Theorem C94_wrong_base_refuted : forall (B G : Type) (wrap : B -> G) (plain : B -> bool -> list (list R * R) -> list R -> R) (class : bool) (base : pylearner B) f s,
  (if class then ly_classifier base else ly_regressor base) = false -> (class = true -> S_Data.zero_one_column f (M_Data.r_y (M_Data.dd_roles s))) ->
  rd_learners_ok f s false (global_arg wrap class base) None /\ forall proba train, global_fit plain class base proba train = Err ValueError.
Proof. exact @wrong_base. Qed.
Print Assumptions C94_wrong_base_refuted.

(** Estimation: float columns, any number of iterations. *)
Theorem C94_estimation : forall (E : Type) (learn : E -> bool -> rd_learner) bwselect robust casefold ty td junk g f s (ml_g : rd_learner_arg E) (ml_m : option (rd_learner_arg E)) (fuzzy : bool) cutoff nf nr h spec ka o ws, S_Data.constructed f s -> shuffles g -> rows_only (M_Data.frows f) robust -> ty = DFloat -> (fuzzy = true -> td = DFloat) ->
  rd_init learn bwselect robust casefold ty td junk g f s ml_g ml_m fuzzy cutoff nf nr h spec ka = Ok (o, ws) ->
  exists a, rd_setup bwselect casefold f s fuzzy cutoff nf nr h spec ka a /\
  forall r, (r < Z.to_nat (int_val nr))%nat -> exists smpls fold_of, nth_error (ro_smpls o) r = Some smpls /\ length smpls = Z.to_nat (int_val nf) /\ proper_split (M_Data.frows f) smpls /\ held_out (M_Data.frows f) smpls fold_of /\
    let stage := both_stages robust (fitted_rule learn ml_g) (if fuzzy then option_map (fun m => learn (ly_obj (wl_learner m)) true) ml_m else None) a
                   (covariates f s (fs_treatment a)) (outcome f s) (col f (fs_treatment a)) fold_of in
    forall k, (1 <= k)%nat -> exists (W : nat -> vec) hb, W 0%nat = fs_weights a /\
      (forall t, (S t < k)%nat -> W (S t) = fun i => fs_kern a (fs_score a i) (larger (rr_h (stage (W t) None)))) /\
      (k = 1%nat -> hb = None) /\ (forall t, k = S (S t) -> hb = Some (larger (rr_h (stage (W t) None)), larger (rr_b (stage (W t) None)))) /\
      res_at (rf_res (rd_run o k)) r = stage (W (k - 1)%nat) hb /\ nth r (rf_h (rd_run o k)) None = option_map fst hb.
Proof. exact @rd_stages. Qed.
Print Assumptions C94_estimation.

(** Cluster data are accepted, but the clusters are ignored: a cluster is spread over training and test rows. *)
Theorem C94_clusters_split_refuted : forall (E : Type) (learn : E -> bool -> rd_learner) bwselect robust casefold ty td junk g f s (ml_g : rd_learner_arg E) (ml_m : option (rd_learner_arg E)) (fuzzy : bool) cutoff nf nr h spec ka o ws (cv : nat -> Z), S_Data.constructed f s -> shuffles g -> rd_init learn bwselect robust casefold ty td junk g f s ml_g ml_m fuzzy cutoff nf nr h spec ka = Ok (o, ws) ->
  (forall i j, (i < M_Data.frows f)%nat -> (j < M_Data.frows f)%nat -> cv i = cv j) ->
  forall smpls, In smpls (ro_smpls o) -> exists fo i j, In fo smpls /\ In i (fst fo) /\ In j (snd fo) /\ cv i = cv j.
Proof. exact @rd_cluster_split. Qed.
Print Assumptions C94_clusters_split_refuted.

(** Indeed the object is the one for the data without clusters. *)
Theorem C94_clusters_ignored : forall (E : Type) (learn : E -> bool -> rd_learner) bwselect robust casefold ty td junk g f s, rd_init learn bwselect robust casefold ty td junk g f s = rd_init learn bwselect robust casefold ty td junk g f (drop_clusters s).
Proof. exact @rd_drop_clusters. Qed.
Print Assumptions C94_clusters_ignored.

(** ** Cases *)
(** A sharp and a fuzzy design with eight rows are accepted, also with clusters, with a chosen or a selected bandwidth. *)
Example C94_case_accepted : forall cl, cl = None \/ cl = Some ["c"] -> exists s, S_Data.constructed (v_frame 0 false) s /\ M_Data.dd_roles s = v_roles cl /\
  succeeds (v_init 0 false s v_learner None false (PInt 0) (PFloat 2) (KStr "triangular")) /\ succeeds (v_init 0 false s v_learner (Some v_class) true (PFloat 0) PNone (KStr "uniform")).
Proof.
  intros cl Hc. destruct (v_exists 0 false cl Hc) as (s & Con & Ro). exists s. split; [exact Con|]. split; [exact Ro|]. split.
  - apply (v_accepted 0 false 0 s cl _ _ _ _ _ 2 Triangular _ eq_refl Con Ro (v_learners _ _)); [reflexivity|right; reflexivity|lra|exact v_triangular].
  - apply (v_accepted 0 false 0 s cl _ _ _ _ _ 2 Uniform _ eq_refl Con Ro (v_learners_fuzzy _ _)); [reflexivity|left; split; reflexivity|lra|exact v_uniform].
Qed.
(** The same data with the cutoff at the smallest score. *)
Example C94_case_end : exists s, S_Data.constructed (v_frame 0 false) s /\ rd_learners_ok (v_frame 0 false) s false v_learner None /\
  rd_setup v_bw v_id (v_frame 0 false) s false (PFloat (0 - 7 / 2)) (PInt 2) (PInt 1) (PFloat 2) (PStr "interacted cutoff and score") (KStr "triangular") (v_stage 0 (0 - 7 / 2) 2 Triangular) /\
  (forall i, (i < 8)%nat -> 0 <= fs_score (v_stage 0 (0 - 7 / 2) 2 Triangular) i) /\ v_init 0 false s v_learner None false (PFloat (0 - 7 / 2)) (PFloat 2) (KStr "triangular") = Err ZeroDivisionError.
Proof.
  destruct (v_exists 0 false None (or_introl eq_refl)) as (s & Con & Ro). exists s. split; [exact Con|]. split; [apply v_learners|].
  apply (v_refused 0 false 0 s None _ _ _ _ _ 2 Triangular _ eq_refl Con Ro (v_learners _ _)); [reflexivity|right; reflexivity|exact v_triangular].
Qed.
(** Score and cutoff shifted by five; treatment reversed. *)
Example C94_case_shift : exists s s', S_Data.constructed (v_frame 0 false) s /\ S_Data.constructed (v_frame 5 false) s' /\ M_Data.dd_roles s' = M_Data.dd_roles s /\
  (forall c', c' <> "s" -> M_Data.fcell (v_frame 5 false) c' = M_Data.fcell (v_frame 0 false) c') /\ (forall i, col (v_frame 5 false) "s" i = col (v_frame 0 false) "s" i + 5) /\
  v_init 5 false s' v_learner None false (PInt 5) (PFloat 2) (KStr "triangular") = v_init 0 false s v_learner None false (PInt 0) (PFloat 2) (KStr "triangular") /\
  succeeds (v_init 5 false s' v_learner None false (PInt 5) (PFloat 2) (KStr "triangular")).
Proof. exact v_shifted. Qed.
Example C94_case_reversed : exists s s' o o' ws ws', S_Data.constructed (v_frame 0 false) s /\ S_Data.constructed (v_frame 0 true) s' /\ M_Data.dd_roles s' = M_Data.dd_roles s /\
  v_init 0 false s v_learner None false (PInt 0) (PFloat 2) (KStr "triangular") = Ok (o, ws) /\ v_init 0 true s' v_learner None false (PInt 0) (PFloat 2) (KStr "triangular") = Ok (o', ws') /\
  ro_smpls o = ro_smpls o' /\ ro_d o 0%nat = 0 /\ ro_d o' 0%nat = 1 /\ In LooksFuzzy ws'.
Proof. exact v_reversed. Qed.
(** Global learners with two bandwidths and kernels. *)
Example C94_case_global : exists s o o' ws ws', S_Data.constructed (v_frame 0 false) s /\
  rd_init (global_rule v_plain) v_bw v_robust v_id DFloat DFloat (fun _ => 0) g_id (v_frame 0 false) s v_learner None false (PInt 0) (PInt 2) (PInt 1) (PFloat 2) (PStr "cutoff") (KStr "triangular") = Ok (o, ws) /\
  rd_init (global_rule v_plain) v_bw v_robust v_id DFloat DFloat (fun _ => 0) g_id (v_frame 0 false) s v_learner None false (PInt 0) (PInt 2) (PInt 1) PNone (PStr "cutoff") (KStr "uniform") = Ok (o', ws') /\
  weightless (ro_ml_g o) /\ ro_kernel o 1 2 <> ro_kernel o' 1 2.
Proof. exact v_global. Qed.
(** The estimation theorem applies to the cases above. *)
Example C94_case_oracles : shuffles g_id /\ rows_only 8 v_robust /\ ~ weightless (v_learn [] false).
Proof. split; [exact v_shuffles|]. split; [exact v_rows|exact v_uses_weights]. Qed.

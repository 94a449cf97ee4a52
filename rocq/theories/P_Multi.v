(** Properties of the multi-level potential-outcome and quantile-effect models. *)
From Verif Require Import S_Multi L_Multi L_FwExamples L_Contrast.
From Coq Require Import Lra.
Local Open Scope R_scope.

(** ** C44: sub-models use the reported split *)

(** Quantile effects: in every state reached by drawing, setting and fitting, all
    sub-models hold exactly the reported split. *)
Theorem C44_quantile_effects_split : forall (K : Type) (fit_sub : nat -> K -> list (list fold) -> result (framework * sens4)) (draw : nat -> list (list fold))
    (keys : list K) (combine : list framework -> result framework) (b : bool) (ops : list wop),
  consistent_split keys (qte_run fit_sub draw keys combine ops (qte_new draw keys b)).
Proof. exact @qte_consistent. Qed.
Print Assumptions C44_quantile_effects_split.
(** … and a successful fit estimates every sub-model on it. *)
Theorem C44_quantile_effects_fit : forall (K : Type) (fit_sub : nat -> K -> list (list fold) -> result (framework * sens4)) (draw : nat -> list (list fold))
    (keys : list K) (combine : list framework -> result framework) (b : bool) (ops : list wop) (w' : wrapper),
  wr_fit fit_sub combine (qte_run fit_sub draw keys combine ops (qte_new draw keys b)) = (w', Ok tt) ->
  exists s, wr_smpls w' = Some s /\ estimated_on fit_sub combine keys w' s.
Proof. exact @qte_fit. Qed.
Print Assumptions C44_quantile_effects_fit.
(** The reported quantile effects are treated minus control, per quantile. *)
Theorem C44_quantile_effects_values : forall n nr (qs : list (framework * framework)), level_models n nr (interleave qs) -> qs <> [] ->
  exists h, qte_combine (interleave qs) = Ok h /\ fw_wf h /\ fw_n_thetas h = length qs /\ fw_n_obs h = n /\ fw_n_rep h = nr /\
  fw_aggregated h /\ fw_ses_from_scores h /\
  forall k f0 f1, nth_error qs k = Some (f0, f1) ->
    (forall r, at_ (fw_all_thetas h) [k; r] = at_ (fw_all_thetas f1) [0%nat; r] - at_ (fw_all_thetas f0) [0%nat; r]) /\
    (forall i r, at_ (fw_scaled_psi h) [i; k; r] = at_ (fw_scaled_psi f1) [i; 0%nat; r] - at_ (fw_scaled_psi f0) [i; 0%nat; r]).
Proof. exact qte_full. Qed.
Print Assumptions C44_quantile_effects_values.
(** Potential outcomes: the same as long as the split is not redrawn after
    construction. *)
Theorem C44_potential_outcomes_fit_partial : forall (K : Type) (fit_sub : nat -> K -> list (list fold) -> result (framework * sens4)) (draw : nat -> list (list fold))
    (keys : list K) (combine : list framework -> result framework) (b : bool) (ops : list wop) (w' : wrapper),
  no_draw ops ->
  wr_fit fit_sub combine (apos_run fit_sub draw keys combine ops (apos_new draw keys b)) = (w', Ok tt) ->
  exists s, wr_smpls w' = Some s /\ estimated_on fit_sub combine keys w' s.
Proof. exact @apos_fit. Qed.
Print Assumptions C44_potential_outcomes_fit_partial.
(** In every history the sub-models share one split, so that contrasts are on
    identical folds. *)
Theorem C44_potential_outcomes_common_split : forall (K : Type) (fit_sub : nat -> K -> list (list fold) -> result (framework * sens4)) (draw : nat -> list (list fold))
    (keys : list K) (combine : list framework -> result framework) (b : bool) (ops : list wop) (w' : wrapper),
  wr_fit fit_sub combine (apos_run fit_sub draw keys combine ops (apos_new draw keys b)) = (w', Ok tt) ->
  exists s, estimated_on fit_sub combine keys w' s.
Proof. exact @apos_fit_common. Qed.
Print Assumptions C44_potential_outcomes_common_split.
(** Redrawing and fitting: the reported split is not the one used. *)
Theorem C44_potential_outcomes_redraw_refuted :
  exists (fit_sub : nat -> Z -> list (list fold) -> result (framework * sens4)) (draw : nat -> list (list fold)) keys w',
  wr_fit fit_sub apos_combine (apos_run fit_sub draw keys apos_combine [WDraw] (apos_new draw keys true)) = (w', Ok tt) /\
  forall s, wr_smpls w' = Some s -> ~ estimated_on fit_sub apos_combine keys w' s.
Proof. exact (ex_intro _ _ (ex_intro _ _ (ex_intro _ _ apos_stale))). Qed.
Print Assumptions C44_potential_outcomes_redraw_refuted.
(** Constructed without a split, drawing any number of times does not make the
    model fittable although a split is reported. *)
Theorem C44_potential_outcomes_late_draw_refuted : forall (K : Type) (fit_sub : nat -> K -> list (list fold) -> result (framework * sens4)) (draw : nat -> list (list fold))
    (keys : list K) (combine : list framework -> result framework) (m : nat),
  let w := apos_run fit_sub draw keys combine (repeat WDraw (S m)) (apos_new draw keys false) in
  wr_smpls w <> None /\ snd (wr_fit fit_sub combine w) = Err AttributeError.
Proof. exact @apos_draw_only. Qed.
Print Assumptions C44_potential_outcomes_late_draw_refuted.
Example C44_case : exists w', wr_fit wfit apos_combine (apos_run wfit wdraw [0%Z; 1%Z] apos_combine [WSet (Ok [[]]); WFit] (apos_new wdraw [0%Z; 1%Z] true)) = (w', Ok tt).
Proof.
  destruct (apos_combine_two (INR 1) (INR 1)) as (h & E). unfold apos_run. cbn [fold_left wstep wr_set fst]. unfold wr_fit. cbn -[apos_combine lvl INR].
  unfold sub_frameworks. cbn -[apos_combine INR] in *. repeat rewrite E; cbn -[apos_combine INR]; repeat rewrite E. eexists. reflexivity.
Qed.

(** ** C45: causal contrasts *)

Theorem C45_contrasts : forall n nr show levels models fw arg,
  NoDup levels -> (2 <= length levels)%nat -> length models = length levels -> level_models n nr (map fst models) ->
  (forall m, In m models -> nonneg_sens nr (snd m)) -> NoDup (refs_list arg) -> refs_list arg <> [] -> (forall r, In r (refs_list arg) -> In r levels) ->
  exists h pairs, causal_contrast show levels (Some fw) (map Some models) arg = Ok h /\
    one_per_pair levels (refs_list arg) pairs /\ reports_differences show levels models pairs h /\
    fw_wf h /\ fw_n_obs h = n /\ fw_n_rep h = nr /\ fw_aggregated h /\ fw_ses_from_scores h /\ (forall t, (t < fw_n_thetas h)%nat -> at_ (fw_vs h) [t] = INR n).
Proof. exact contrast_reports. Qed.
Print Assumptions C45_contrasts.
Theorem C45_rejections : forall show levels fw models arg h, causal_contrast show levels fw models arg = Ok h ->
  fw <> None /\ length levels <> 1%nat /\ forall r, In r (refs_list arg) -> In r levels.
Proof. exact contrast_rejects. Qed.
Print Assumptions C45_rejections.
(** A sub-model without estimates (new split set after the fit) is not silently
    contrasted. *)
Theorem C45_unfitted_level : forall show levels fw models arg,
  (exists i, (i < length models)%nat /\ nth i models None = None /\ length models = length levels /\ (exists r, refs_list arg = [r] /\ In r levels /\ zindex r levels <> i)) ->
  fw <> None -> length levels <> 1%nat -> exists e, causal_contrast show levels fw models arg = Err e.
Proof. exact contrast_unfitted. Qed.
Print Assumptions C45_unfitted_level.
(** Repeated treatment levels are not rejected: a self-contrast. *)
Theorem C45_distinct_levels_refuted : exists show models fw h,
  causal_contrast show [0%Z; 0%Z] (Some fw) (map Some models) (RefOne 0%Z) = Ok h /\ fw_names h = Some ["0 vs 0"%string].
Proof. exact (ex_intro _ _ (ex_intro _ _ (ex_intro _ _ self_contrast))). Qed.
Print Assumptions C45_distinct_levels_refuted.
(** An empty list of reference levels is a subset, but gives a type error. *)
Theorem C45_no_reference_refuted : forall show levels fw models, (2 <= length levels)%nat -> causal_contrast show levels (Some fw) models (RefList []) = Err TypeError.
Proof. exact empty_reference. Qed.
Print Assumptions C45_no_reference_refuted.
Example C45_case : let l := [(1, 1, 2); (3, 2, 1); (7, 1, 1)] : list (R * R * R) in
  NoDup [0%Z; 1%Z; 2%Z] /\ length (lvls l) = 3%nat /\ level_models 2 1 (map fst (lvls l)) /\ (forall m, In m (lvls l) -> nonneg_sens 1 (snd m)) /\
  level_pairs [0%Z; 1%Z; 2%Z] (contrast_loop 3 [0%Z; 1%Z; 2%Z] [2%Z; 0%Z] []) = [(0%Z, 2%Z); (1%Z, 2%Z); (1%Z, 0%Z)].
Proof.
  split; [repeat constructor; cbn; intuition discriminate|]. split; [reflexivity|]. split; [exact (lvl_models _)|]. split; [|reflexivity].
  apply lvls_nonneg. intros p [<-|[<-|[<-|[]]]]; cbn; lra.
Qed.

(** ** C60: sensitivity of contrasts *)

(** With equal residual variances of the two levels the bias bound of the contrast
    is at most that of the plain difference. *)
Theorem C60_equal_residual_variance_partial : forall n nr show levels models fw arg h,
  NoDup levels -> (2 <= length levels)%nat -> length models = length levels -> level_models n nr (map fst models) ->
  (forall m, In m models -> nonneg_sens nr (snd m)) -> NoDup (refs_list arg) -> refs_list arg <> [] -> (forall r, In r (refs_list arg) -> In r levels) ->
  (forall m, In m models -> carries_bias n nr (fst m) (snd m)) ->
  causal_contrast show levels (Some fw) (map Some models) arg = Ok h ->
  exists pairs, one_per_pair levels (refs_list arg) pairs /\ fw_n_thetas h = length pairs /\
  forall k i j f sf g sg d r, nth_error pairs k = Some (nth i levels 0%Z, nth j levels 0%Z) -> (i < length levels)%nat -> (j < length levels)%nat ->
     nth_error models i = Some (f, sf) -> nth_error models j = Some (g, sg) -> fw_sub f (OpFw g) = Ok d -> (r < nr)%nat ->
     s4_sigma2 sf r = s4_sigma2 sg r -> maxbias h k r <= maxbias d 0 r.
Proof. exact contrast_bias_smaller. Qed.
Print Assumptions C60_equal_residual_variance_partial.
(** The reported bias bound and its influence component: derivative along the
    influence components of the averaged residual variance and the added second
    moments. *)
Theorem C60_influence : forall n nr show levels models fw arg h,
  NoDup levels -> (2 <= length levels)%nat -> length models = length levels -> level_models n nr (map fst models) ->
  (forall m, In m models -> nonneg_sens nr (snd m)) -> NoDup (refs_list arg) -> refs_list arg <> [] -> (forall r, In r (refs_list arg) -> In r levels) ->
  causal_contrast show levels (Some fw) (map Some models) arg = Ok h ->
  exists pairs, one_per_pair levels (refs_list arg) pairs /\ fw_n_thetas h = length pairs /\
  forall k i j f sf g sg r, nth_error pairs k = Some (nth i levels 0%Z, nth j levels 0%Z) -> (i < length levels)%nat -> (j < length levels)%nat ->
     nth_error models i = Some (f, sf) -> nth_error models j = Some (g, sg) ->
     maxbias h k r = sqrt (contrast_sigma2 sf sg r * contrast_nu2 sf sg r) /\
     (0 < contrast_sigma2 sf sg r * contrast_nu2 sf sg r -> forall o,
       derivable_pt_lim (fun t => sqrt ((contrast_sigma2 sf sg r + t * ((s4_psi_sigma2 sf o r + s4_psi_sigma2 sg o r) / 2)) * (contrast_nu2 sf sg r + t * (s4_psi_nu2 sf o r + s4_psi_nu2 sg o r)))) 0 (psi_maxbias h o k r)).
Proof. exact contrast_influence. Qed.
Print Assumptions C60_influence.
(** In general it can be larger. *)
Theorem C60_sharper_refuted : exists h f sf g sg d, causal_contrast (fun _ => ""%string) [0%Z; 1%Z] (Some f) (map Some [(f, sf); (g, sg)]) (RefOne 0%Z) = Ok h /\
  level_models 2 1 [f; g] /\ carries_bias 2 1 f sf /\ carries_bias 2 1 g sg /\ nonneg_sens 1 sf /\ nonneg_sens 1 sg /\
  fw_sub g (OpFw f) = Ok d /\ maxbias d 0 0 < maxbias h 0 0.
Proof. exact contrast_bias_larger. Qed.
Print Assumptions C60_sharper_refuted.
Example C60_case : let l := [(1, 2, 2); (3, 2, 1)] : list (R * R * R) in
  level_models 2 1 (map fst (lvls l)) /\ (forall m, In m (lvls l) -> carries_bias 2 1 (fst m) (snd m)) /\ (forall m, In m (lvls l) -> nonneg_sens 1 (snd m)).
Proof. split; [exact (lvl_models _)|]. split; [apply lvls_bias|]. apply lvls_nonneg. intros p [<-|[<-|[]]]; cbn; lra. Qed.

(** C50, C65-C67: quantile models. *)
From Verif Require Import S_Quantile L_QScore L_QNested L_QWitness.
From Coq Require Import Lra Lia.
Local Open Scope R_scope.

(** ** C50 *)
Theorem C50_accepted_quantiles : forall v, check_quantile v = Ok tt <-> exists q, v = PFloat q /\ 0 < q < 1.
Proof. exact check_quantile_iff. Qed.
Print Assumptions C50_accepted_quantiles.

(** Between two candidates the score grows by the weighted share of outcomes in between. *)
Theorem C50_step : forall n t norm thr q y d g m c c', (0 < n)%nat -> c <= c' ->
  pq_moment n t norm thr q y d g m c' - pq_moment n t norm thr q y d g m c =
  wshare n (arm_weight n t norm thr d m) (fun i => rltb c (y i) && rleb (y i) c').
Proof. exact pq_step. Qed.
Print Assumptions C50_step.

Theorem C50_monotone : forall n t norm thr q y d g m c c', binary n d -> 0 < thr < 1 / 2 -> (0 < n)%nat -> c <= c' ->
  pq_moment n t norm thr q y d g m c <= pq_moment n t norm thr q y d g m c'.
Proof. exact pq_monotone. Qed.
Print Assumptions C50_monotone.

Theorem C50_label_swap : forall n t norm thr q y d g m theta, binary n d -> 0 < thr < 1 / 2 ->
  pq_moment n (negb t) norm thr q y (compl d) g (compl m) theta = pq_moment n t norm thr q y d g m theta.
Proof. exact pq_label_swap. Qed.
Print Assumptions C50_label_swap.

Theorem C50_normalised_weights : forall n t thr d m, binary n d -> 0 < thr < 1 / 2 -> some_row n (in_arm t d) ->
  (forall i, (i < n)%nat -> in_arm t d i -> 0 < arm_weight n t true thr d m i) /\ meanf n (arm_weight n t true thr d m) = 1.
Proof. exact normalised_weights. Qed.
Print Assumptions C50_normalised_weights.

(** Preliminary estimate: with normalised weights the score runs from -q to 1-q
    and changes sign exactly at a weighted quantile of the arm's outcomes. *)
Theorem C50_preliminary_ends : forall n t thr q y d m c, binary n d -> 0 < thr < 1 / 2 -> some_row n (in_arm t d) ->
  (below n t d y c -> ipw_moment n t true thr q y d m c = - q) /\
  (above n t d y c -> ipw_moment n t true thr q y d m c = 1 - q).
Proof. exact ipw_ends. Qed.
Print Assumptions C50_preliminary_ends.

Theorem C50_preliminary_root : forall n t thr q y d m, binary n d -> 0 < thr < 1 / 2 -> some_row n (in_arm t d) -> 0 < q < 1 ->
  exists i, (i < n)%nat /\ in_arm t d i /\ weighted_quantile n (arm_weight n t true thr d m) y q (y i) /\
    (forall theta, theta < y i -> ipw_moment n t true thr q y d m theta < 0) /\
    (forall theta, y i <= theta -> 0 <= ipw_moment n t true thr q y d m theta).
Proof. exact ipw_root. Qed.
Print Assumptions C50_preliminary_root.

(** Final score: the signs at the ends hold for predictions constant over the rows ... *)
Theorem C50_ends_partial : forall n t thr q y d g m c g0, binary n d -> 0 < thr < 1 / 2 -> some_row n (in_arm t d) -> (forall i, (i < n)%nat -> g i = g0) ->
  (below n t d y c -> pq_moment n t true thr q y d g m c = - q) /\
  (above n t d y c -> pq_moment n t true thr q y d g m c = 1 - q).
Proof. exact pq_ends. Qed.
Print Assumptions C50_ends_partial.

(** ... but not in general, even with normalised weights, *)
Theorem C50_ends_refuted : exists n t thr q y d g m c, binary n d /\ 0 < thr < 1 / 2 /\ some_row n (in_arm t d) /\ 0 < q < 1 /\
  (forall i, 0 <= g i <= 1) /\ (forall i, (i < n)%nat -> c < y i) /\ 0 < pq_moment n t true thr q y d g m c.
Proof. exact ends_refuted. Qed.
Print Assumptions C50_ends_refuted.

(** and without normalisation the preliminary score may have no root. *)
Theorem C50_unnormalised_refuted : exists n t thr q y d m, binary n d /\ 0 < thr < 1 / 2 /\ some_row n (in_arm t d) /\ 0 < q < 1 /\
  forall theta, ipw_moment n t false thr q y d m theta < 0.
Proof. exact unnormalised. Qed.
Print Assumptions C50_unnormalised_refuted.

Theorem C50_cvar_target : forall q theta y i, 0 < q < 1 ->
  cvar_target q theta y i = theta + Rmax 0 (y i - theta) / (1 - q) /\ theta <= cvar_target q theta y i /\ y i <= cvar_target q theta y i.
Proof. exact cvar_target_facts. Qed.
Print Assumptions C50_cvar_target.

(** The estimate is at least the quantile and at least the weighted mean outcome,
    for predictions constant over the rows. *)
Theorem C50_cvar_dominates_partial : forall n t thr q y d g m pq g0, binary n d -> 0 < thr < 1 / 2 -> some_row n (in_arm t d) -> 0 < q < 1 -> (forall i, (i < n)%nat -> g i = g0) ->
  pq <= estimate n (cvar_score t q y d g (pq_adjust n t true thr d m) pq) /\
  meanf n (fun i => arm_weight n t true thr d m i * y i) <= estimate n (cvar_score t q y d g (pq_adjust n t true thr d m) pq).
Proof. exact cvar_dominates. Qed.
Print Assumptions C50_cvar_dominates_partial.

Theorem C50_cvar_dominates_refuted : exists n t thr q y d g m pq, binary n d /\ 0 < thr < 1 / 2 /\ some_row n (in_arm t d) /\ 0 < q < 1 /\
  weighted_quantile n (arm_weight n t true thr d m) y q pq /\ (forall i, (i < n)%nat -> pq <= g i) /\
  estimate n (cvar_score t q y d g (pq_adjust n t true thr d m) pq) < pq.
Proof. exact cvar_refuted. Qed.
Print Assumptions C50_cvar_dominates_refuted.

Theorem C50_cvar_estimate : forall n t norm thr q y d g m pq, (0 < n)%nat ->
  estimate n (cvar_score t q y d g (pq_adjust n t norm thr d m) pq) =
  tail_mean n (arm_weight n t norm thr d m) y q pq + meanf n (fun i => (1 - arm_weight n t norm thr d m i) * g i).
Proof. exact cvar_est. Qed.
Print Assumptions C50_cvar_estimate.

(** The averaged target is smallest at the weighted quantile ... *)
Theorem C50_tail_minimal : forall n w y q t theta, (0 < n)%nat -> (forall i, (i < n)%nat -> 0 <= w i) -> meanf n w = 1 -> 0 < q < 1 ->
  weighted_quantile n w y q t -> tail_mean n w y q t <= tail_mean n w y q theta.
Proof. exact tail_minimal. Qed.
Print Assumptions C50_tail_minimal.

(** ... where it is the mean outcome above the quantile. *)
Theorem C50_tail_mean : forall n w y q t, (0 < n)%nat -> meanf n w = 1 -> 0 < q < 1 -> wshare n w (fun i => rleb (y i) t) = q ->
  tail_mean n w y q t = meanf n (fun i => w i * b2r (rltb t (y i)) * y i) / wshare n w (fun i => rltb t (y i)).
Proof. exact tail_shortfall. Qed.
Print Assumptions C50_tail_mean.

(** The local quantile score is not monotone. *)
Theorem C50_local_monotone_refuted : exists n q y d z m md0 md1 g0 g1 c c', binary n d /\ binary n z /\ inside n m /\ 0 < q < 1 /\ c < c' /\
  (forall i, 0 <= g0 i <= 1) /\ (forall i, 0 <= g1 i <= 1) /\
  let comp := lpq_comp n d z m md0 md1 in 0 < comp /\
  meanf n (lpq_score true q (arm true d) m g0 g1 y z comp c') < meanf n (lpq_score true q (arm true d) m g0 g1 y z comp c).
Proof. exact lpq_not_monotone. Qed.
Print Assumptions C50_local_monotone_refuted.

Example C50_case : binary 2 d2 /\ some_row 2 (in_arm true d2) /\ meanf 2 (arm_weight 2 true true (1 / 100) d2 half) = 1 /\
  weighted_quantile 2 (arm_weight 2 true true (1 / 100) d2 half) (fun _ => 0) (1 / 2) 0.
Proof.
  split; [exact d2_binary|]. split; [apply d2_arm|]. split; [apply weight_mean; [exact d2_binary|lra|apply d2_arm]|].
  unfold weighted_quantile, wshare. rewrite !mean2, !d2_weight by lia. cbn [nth]. rl. cbn [b2r]. lra.
Qed.

(** ** C65 *)
(** Full compliance (d = z, nobody treated without the instrument). *)
Theorem C65_full_compliance : forall n (t : bool) norm thr q y d (g0 g1 m : vec) coef i, binary n d -> (i < n)%nat ->
  (forall j, (j < n)%nat -> (if t then g0 j else g1 j) = 0) ->
  lpq_score t q (arm t d) (lpq_adjust n norm thr d m) g0 g1 y d 1 coef i =
  pq_score q (arm t d) (if t then g1 else g0) (pq_adjust n t norm thr d m) y coef i.
Proof. exact lpq_full. Qed.
Print Assumptions C65_full_compliance.

Theorem C65_complier_share : forall n norm thr d m, binary n d -> (0 < n)%nat ->
  lpq_comp n d d (lpq_adjust n norm thr d m) (fun _ => 0) (fun _ => 1) = 1.
Proof. exact lpq_comp_full. Qed.
Print Assumptions C65_complier_share.

Theorem C65_preliminary : forall n t norm thr q y d m theta i, binary n d -> (i < n)%nat ->
  lpq_ipw_score t q theta d y (lpq_adjust n norm thr d m) d 1 i = ipw_score t q theta d y (pq_adjust n t norm thr d m) i.
Proof. exact lpq_ipw_full. Qed.
Print Assumptions C65_preliminary.

Theorem C65_relabelling : forall n t q y d z g0 g1 m comp coef i, binary n d -> (i < n)%nat ->
  lpq_score t q (arm t d) m g0 g1 y z comp coef i =
  lpq_score (negb t) q (arm (negb t) (compl d)) (compl m) g1 g0 y (compl z) comp coef i.
Proof. exact lpq_swap. Qed.
Print Assumptions C65_relabelling.

(** In general the scores are Wald ratios: the effect of the instrument on the
    event "in the arm and at most c", over its effect on the treatment, both as
    means of doubly robust signals. *)
Theorem C65_compliers : forall n d z m md0 md1, lpq_comp n d z m md0 md1 = meanf n (dr_signal d z md0 md1 m).
Proof. exact lpq_comp_signal. Qed.
Print Assumptions C65_compliers.

Theorem C65_ratio : forall n (t : bool) q y d z g0 g1 m comp c, (0 < n)%nat ->
  meanf n (lpq_score t q (arm t d) m g0 g1 y z comp c) =
  (if t then 1 else -1) * meanf n (dr_signal (fun i => arm t d i * b2r (rleb (y i) c)) z g0 g1 m) / comp - q.
Proof. exact lpq_moment_signal. Qed.
Print Assumptions C65_ratio.

Theorem C65_preliminary_ratio : forall n (t : bool) q y d z m comp theta, (0 < n)%nat ->
  meanf n (lpq_ipw_score t q theta d y m z comp) =
  (if t then 1 else -1) * meanf n (dr_signal (fun i => arm t d i * b2r (rleb (y i) theta)) z (fun _ => 0) (fun _ => 0) m) / comp - q.
Proof. exact lpq_ipw_moment. Qed.
Print Assumptions C65_preliminary_ratio.

Example C65_case : binary 2 d2 /\ lpq_comp 2 d2 d2 (lpq_adjust 2 true (1 / 100) d2 half) (fun _ => 0) (fun _ => 1) = 1.
Proof. split; [exact d2_binary|apply lpq_comp_full; [exact d2_binary|lia]]. Qed.

(** ** C66 *)
(** Predictions for a held-out row depend on the outcomes and treatments of the
    training part only, for given start value and bounds (PQ and CVaR). *)
Theorem C66_no_leakage_partial : forall E X P (G M : learner E X P) o x0 (c : @pq_cfg E) start x x' y y' d d' smpls i k f r r',
  splitters_ok o -> tested_in smpls i k f -> agree_on f x x' y y' d d' ->
  pq_nuisance G M o x0 c start x y d smpls = Ok r -> pq_nuisance G M o x0 c start x' y' d' smpls = Ok r' ->
  po_g r i = po_g r' i /\ po_m r i = po_m r' i.
Proof. exact @pq_no_leak. Qed.
Print Assumptions C66_no_leakage_partial.

(** Start value and bounds are taken from all rows: the prediction for row 2
    changes with its own outcome. *)
Theorem C66_bounds_refuted : exists (G M : learner (option R) nat unit) o x0 (c : R * R -> @pq_cfg (option R)) x y y' d smpls r r' n,
  splitters_ok o /\ solver_ok o /\ partition_of n smpls /\ (forall b, qc_bounds (c b) = b) /\ 
  tested_in smpls 2 0 ([0; 1; 5], [2; 3; 4])%nat /\ (forall j, j <> 2%nat -> y j = y' j) /\
  pq_nuisance G M o x0 (c (pq_bounds n y)) (pq_start n true (qc_q (c (pq_bounds n y))) y d) x y d smpls = Ok r /\
  pq_nuisance G M o x0 (c (pq_bounds n y')) (pq_start n true (qc_q (c (pq_bounds n y'))) y' d) x y' d smpls = Ok r' /\
  po_g r 2%nat = Some 0 /\ po_g r' 2%nat = Some 1.
Proof. exact leak. Qed.
Print Assumptions C66_bounds_refuted.

(** With supplied propensities the preliminary step reads those of other rows. *)
Theorem C66_external_rows_refuted : exists (G M : learner (option R) nat unit) o x0 (c : vec -> @pq_cfg (option R)) start x y d k f me me' r r',
  splitters_ok o /\ solver_ok o /\ (forall m, qc_ext_m (c m) = Some m) /\ (forall i, In i (fst f) -> me i = me' i) /\
  pq_fold G M o x0 (c me) start x y d k f = Ok r /\ pq_fold G M o x0 (c me') start x y d k f = Ok r' /\ fr_ipw r = 10 /\ fr_ipw r' = -10.
Proof. exact external_rows. Qed.
Print Assumptions C66_external_rows_refuted.

Example C66_case : splitters_ok wo /\ agree_on ([0; 1; 5], [2; 3; 4])%nat wx wx (wy 40 100) (wy 40 1000) wd wd /\
  exists r, pq_nuisance wl wl wo 0%nat (wc (-100, 100)) 0 wx (wy 40 100) wd wsmpls = Ok r.
Proof.
  split; [exact wsplit|]. split.
  - split; [intros i [<-|[<-|[<-|[]]]]; repeat split|reflexivity].
  - destruct (wbracket1 100) as (s & B); [lra|]. destruct (wrun_eq 40 100 0 (-100, 100) _ _ B) as (r & E & _); [cbn; lra..|]. exists r. exact E.
Qed.

(** ** C67 *)
Theorem C67_external_predictions_partial : forall E X P (G M : learner E X P) o x0 sv kde (c : @pq_cfg E) start x y d smpls theta s w,
  qc_ext_g c <> None -> qc_ext_m c <> None -> pq_fit G M o x0 sv kde c start x y d smpls = Ok (theta, s, w) ->
  pq_fit G M o x0 sv kde c s x y d smpls = Ok (theta, s, w).
Proof. exact @external_refit. Qed.
Print Assumptions C67_external_predictions_partial.

Theorem C67_cvar : forall E X P (G M : learner E X P) o x0 (c : @pq_cfg E) start x y d smpls theta s,
  cvar_fit G M o x0 c start x y d smpls = Ok (theta, s) -> cvar_fit G M o x0 c s x y d smpls = Ok (theta, s).
Proof. exact @cvar_refit. Qed.
Print Assumptions C67_cvar.

(** Refitting the quantile model on the same splits changes predictions. *)
Theorem C67_quantile_refit_refuted : exists (G M : learner (option R) nat unit) o x0 (c : @pq_cfg (option R)) x y d smpls r r',
  splitters_ok o /\ solver_ok o /\ partition_of (qc_n c) smpls /\ qc_bounds c = pq_bounds (qc_n c) y /\
  pq_nuisance G M o x0 c (pq_start (qc_n c) (qc_treated c) (qc_q c) y d) x y d smpls = Ok r /\
  pq_nuisance G M o x0 c (po_start r) x y d smpls = Ok r' /\ po_g r 2%nat = Some 0 /\ po_g r' 2%nat = Some 1.
Proof. exact refit. Qed.
Print Assumptions C67_quantile_refit_refuted.

Example C67_case : exists r, cvar_fit wl wl wo 0%nat (wc (-100, 100)) 0 wx (wy 40 100) wd wsmpls = Ok (r, 0).
Proof.
  destruct (wbracket1 100) as (s & B); [lra|]. destruct (wrun_eq 40 100 0 (-100, 100) _ _ B) as (r & E & _); [cbn; lra..|].
  unfold cvar_fit. unfold wrun in E. rewrite E. cbn [bind]. eexists. reflexivity.
Qed.

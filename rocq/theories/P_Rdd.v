(** C53, C64: regression discontinuity. *)
From Verif Require Import S_Rdd L_Rdd L_Order L_FwExamples.
From Coq Require Import Lra.
Local Open Scope R_scope.

(** ** C53 *)
Theorem C53_kernel_range : forall k x h, 0 < h -> 0 <= kernel k x h <= 1.
Proof. exact kernel_range. Qed.
Print Assumptions C53_kernel_range.

Theorem C53_kernel_outside : forall k x h, 0 < h -> h < Rabs x -> kernel k x h = 0.
Proof. exact kernel_outside. Qed.
Print Assumptions C53_kernel_outside.

Theorem C53_kernel_symmetric : forall k x h, kernel k (- x) h = kernel k x h.
Proof. exact kernel_symmetric. Qed.
Print Assumptions C53_kernel_symmetric.

Theorem C53_kernel_decreasing : forall k x x' h, 0 < h -> Rabs x <= Rabs x' -> kernel k x' h <= kernel k x h.
Proof. exact kernel_decreasing. Qed.
Print Assumptions C53_kernel_decreasing.

Theorem C53_kernel_at_cutoff : forall k h, 0 < h -> kernel k 0 h = match k with Epanechnikov => 3 / 4 | _ => 1 end.
Proof. exact kernel_centre. Qed.
Print Assumptions C53_kernel_at_cutoff.

(** Named kernels are one of the three; nothing else is accepted besides callables. *)
Theorem C53_kernel_argument : forall casefold a f, set_kernel casefold a = Ok f -> (exists k, f = kernel k) \/ a = KCall f.
Proof. exact set_kernel_inv. Qed.
Print Assumptions C53_kernel_argument.

(** The first-stage bandwidth is not checked to be positive. *)
Theorem C53_negative_bandwidth_refuted : forall default, set_h_fs default (PFloat (-1)) = Ok (-1) /\ kernel Triangular 2 (-1) = 3.
Proof. exact negative_bandwidth. Qed.
Print Assumptions C53_negative_bandwidth_refuted.

(** Float columns: the adjustment is the average of the cross-fitted predictions
    at the cutoff from the left and from the right. *)
Theorem C53_adjustment_partial : forall learn sp score x y w junk smpls i f, tested_only smpls i f ->
  fit_nuisance DFloat learn sp score x y w junk smpls i = cutoff_average (trained learn sp score x y w f) sp (x i).
Proof. exact nuisance_float. Qed.
Print Assumptions C53_adjustment_partial.

(** Every row of a cross-fitting split has its fold. *)
Theorem C53_every_row_adjusted : forall n smpls i, proper_split n smpls -> (i < n)%nat -> exists f, tested_only smpls i f.
Proof. exact proper_tested. Qed.
Print Assumptions C53_every_row_adjusted.

(** Integer columns (such as a 0/1 treatment in a fuzzy design) with predictions
    strictly between -1 and 1: the adjustment vanishes. *)
Theorem C53_integer_column_refuted : forall learn sp score x y w junk smpls i f, tested_only smpls i f ->
  (forall t, t = 0 \/ t = 1 -> -1 < trained learn sp score x y w f (unit_features sp t 0 ++ x i) < 1) ->
  fit_nuisance DInt learn sp score x y w junk smpls i = 0.
Proof. exact nuisance_int. Qed.
Print Assumptions C53_integer_column_refuted.

(** Boolean columns with positive predictions: always one half. *)
Theorem C53_boolean_column_refuted : forall learn sp score x y w junk smpls i f, tested_only smpls i f ->
  (forall t, t = 0 \/ t = 1 -> 0 < trained learn sp score x y w f (unit_features sp t 0 ++ x i)) ->
  fit_nuisance DBool learn sp score x y w junk smpls i = 1 / 2.
Proof. exact nuisance_bool. Qed.
Print Assumptions C53_boolean_column_refuted.

Example C53_case : let smpls := [([2; 3], [0; 1]); ([0; 1], [2; 3])]%nat in
  tested_only smpls 2 ([0; 1], [2; 3])%nat /\ tested_only smpls 1 ([2; 3], [0; 1])%nat /\
  (forall t, t = 0 \/ t = 1 -> 0 < trained (fun _ _ => 3 / 4) Interacted INR (fun _ => []) INR INR ([0; 1], [2; 3])%nat (unit_features Interacted t 0 ++ []) < 1) /\
  cutoff_average (trained (fun _ _ => 3 / 4) Interacted INR (fun _ => []) INR INR ([0; 1], [2; 3])%nat) Interacted [] = 3 / 4.
Proof.
  cbv zeta. split; [|split; [|split]].
  - exists 1%nat. split; [reflexivity|]. split; [cbn; auto|]. intros [|[|j]] g Hj Hg; cbn in Hj; [injection Hj as <-; cbn in Hg; lia|reflexivity|destruct j; discriminate].
  - exists 0%nat. split; [reflexivity|]. split; [cbn; auto|]. intros [|[|j]] g Hj Hg; cbn in Hj; [reflexivity|injection Hj as <-; cbn in Hg; lia|destruct j; discriminate].
  - intros t _. unfold trained. lra.
  - unfold cutoff_average, trained. lra.
Qed.

(** ** C64 *)
(** Repetition r: the weights start from the first-stage bandwidth, are updated
    with the larger of the two bandwidths selected on the adjusted data, and the
    final stage uses the bandwidths of the last update. *)
Theorem C64_repetition : forall o k r smpls, nth_error (ro_smpls o) r = Some smpls -> (1 <= k)%nat ->
  exists (W : nat -> nat -> R) hb, W 0%nat = kernel_weights o (ro_h_fs o) /\
  (forall t, (S t < k)%nat -> W (S t) = kernel_weights o (Rmax (fst (rr_h (fit_rdd o (W t) smpls None))) (snd (rr_h (fit_rdd o (W t) smpls None))))) /\
  (k = 1%nat -> hb = None) /\
  (forall t, k = S (S t) -> hb = let r := fit_rdd o (W t) smpls None in Some (Rmax (fst (rr_h r)) (snd (rr_h r)), Rmax (fst (rr_b r)) (snd (rr_b r)))) /\
  res_at (rf_res (rd_run o k)) r = fit_rdd o (W (k - 1)%nat) smpls hb /\ nth r (rf_h (rd_run o k)) None = option_map fst hb.
Proof. exact run_repetition. Qed.
Print Assumptions C64_repetition.

Theorem C64_estimate : forall o k j, rf_coef (rd_run o k) j = medianf (ro_n_rep o) (fun r => rr_coef (res_at (rf_res (rd_run o k)) r) j).
Proof. exact run_coef. Qed.
Print Assumptions C64_estimate.

Theorem C64_standard_error : forall o k j, rf_se (rd_run o k) j = sqrt (medianf (ro_n_rep o) (fun r => let x := res_at (rf_res (rd_run o k)) r in
  (rr_se x j) ^ 2 + (rr_coef x j - rf_coef (rd_run o k) j) ^ 2 / INR (fst (rr_n x) + snd (rr_n x)))).
Proof. exact run_se. Qed.
Print Assumptions C64_standard_error.

(** One repetition reports that repetition; aggregation never reports a standard
    error below all repetitions' ones. *)
Theorem C64_one_repetition : forall o k smpls j, ro_smpls o = [smpls] -> let x := res_at (rf_res (rd_run o k)) 0 in
  0 <= rr_se x j -> rf_coef (rd_run o k) j = rr_coef x j /\ rf_se (rd_run o k) j = rr_se x j.
Proof. exact one_repetition. Qed.
Print Assumptions C64_one_repetition.

Theorem C64_standard_error_bound : forall o k j, (0 < ro_n_rep o)%nat ->
  forall c, 0 <= c -> (forall r, (r < ro_n_rep o)%nat -> c <= rr_se (res_at (rf_res (rd_run o k)) r) j) -> c <= rf_se (rd_run o k) j.
Proof. exact se_at_least. Qed.
Print Assumptions C64_standard_error_bound.

(** The last accepted fit decides what is reported, whatever was called before
    and whatever rejected fits and interval queries follow. *)
Theorem C64_last_fit : forall o st calls k rest, is_int k = true -> (1 <= int_val k)%Z ->
  (forall c, In c rest -> match c with CallFit j => is_int j = false \/ (int_val j < 1)%Z | CallConfint _ => True end) ->
  fold_left (rd_step o) (calls ++ CallFit k :: rest) st = Some (rd_run o (Z.to_nat (int_val k))).
Proof. exact last_fit_decides. Qed.
Print Assumptions C64_last_fit.

Theorem C64_interval_contains : forall ppf o k, ppf_ok ppf -> (forall r j, 0 <= rr_se (res_at (rf_res (rd_run o k)) r) j) ->
  forall lv g, rd_confint ppf (Some (rd_run o k)) (PFloat lv) = Ok (Some g) -> forall j, fst (g j) <= rf_coef (rd_run o k) j <= snd (g j).
Proof. exact rd_ci_contains. Qed.
Print Assumptions C64_interval_contains.

Theorem C64_interval_nested : forall ppf o k, ppf_ok ppf -> (forall r j, 0 <= rr_se (res_at (rf_res (rd_run o k)) r) j) ->
  forall lv lv' g g', lv <= lv' -> rd_confint ppf (Some (rd_run o k)) (PFloat lv) = Ok (Some g) -> rd_confint ppf (Some (rd_run o k)) (PFloat lv') = Ok (Some g') ->
  forall j, fst (g' j) <= fst (g j) /\ snd (g j) <= snd (g' j).
Proof. exact rd_ci_nested. Qed.
Print Assumptions C64_interval_nested.

(** Before a fit, intervals are not refused but reported as nan. *)
Theorem C64_unfitted_interval_refuted : forall ppf lv, 0 < lv < 1 -> rd_confint ppf None (PFloat lv) = Ok None.
Proof. exact rd_unfitted. Qed.
Print Assumptions C64_unfitted_interval_refuted.

(** With a single iteration the reported final bandwidth is nan. *)
Theorem C64_bandwidth_refuted : forall o r smpls, nth_error (ro_smpls o) r = Some smpls -> nth r (rf_h (rd_run o 1)) None = None.
Proof. exact bandwidth_one_iteration. Qed.
Print Assumptions C64_bandwidth_refuted.

Example C64_case : ppf_ok ex_ppf /\ (forall r j, 0 <= rr_se (res_at (rf_res (rd_run rd_example 2)) r) j) /\ rf_coef (rd_run rd_example 2) 0 = -1 /\
  (exists g, rd_confint ex_ppf (Some (rd_run rd_example 2)) (PFloat (3 / 4)) = Ok (Some g)) /\ (0 < ro_n_rep rd_example)%nat.
Proof.
  split; [exact (strict_inverse_ppf_ok _ _ ex_cdf_strict ex_cdf_symmetric ex_cdf_inverse)|]. split.
  - intros [|[|r]] j; cbn; lra || (unfold res_at; destruct r; cbn; lra).
  - split; [|split; [|cbn; lia]].
    + rewrite run_coef. unfold ro_n_rep. cbn [ro_smpls rd_example length]. rewrite (medianf_ext 2 _ (fun _ => -1)); [apply medianf_const; lia|].
      intros [|[|r]] Hr; [| |lia]; cbn; unfold adjusted_y, fit_nuisance; cbn; lra.
    + destruct (rd_ci_total ex_ppf (Some (rd_run rd_example 2)) (3 / 4)) as (ci & H); [lra|]. destruct (rd_confint_inv _ _ _ _ H) as (lv & g & _ & _ & E & _).
      exists g. rewrite H, E. reflexivity.
Qed.

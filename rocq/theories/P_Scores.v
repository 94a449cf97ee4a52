(** C28, C29, C46-C49, C55: scores of the estimators. *)
From Verif Require Import L_ScoresGuard L_ScoresWitness.
From Coq Require Import Lra.
Local Open Scope R_scope.

(** ** C28 *)
Theorem C28_accepted_thresholds : forall rule thr, check_trimming rule thr = Ok tt <->
  rule = true /\ exists t, thr = PFloat t /\ 0 < t < 1 / 2.
Proof. exact check_trimming_iff. Qed.
Print Assumptions C28_accepted_thresholds.

Theorem C28_range : forall t m i, 0 < t < 1 / 2 -> t <= trimm true t m i <= 1 - t.
Proof. exact trimm_range. Qed.
Print Assumptions C28_range.

Theorem C28_inside_unchanged : forall t m i, t <= m i <= 1 - t -> trimm true t m i = m i.
Proof. exact trimm_id. Qed.
Print Assumptions C28_inside_unchanged.

(** The closest admissible value. *)
Theorem C28_nearest : forall t m i x, 0 < t < 1 / 2 -> t <= x <= 1 - t ->
  Rabs (trimm true t m i - m i) <= Rabs (x - m i).
Proof. exact trimm_nearest. Qed.
Print Assumptions C28_nearest.

Theorem C28_idempotent : forall t m i, 0 < t < 1 / 2 -> trimm true t (trimm true t m) i = trimm true t m i.
Proof. exact trimm_idem. Qed.
Print Assumptions C28_idempotent.

Theorem C28_monotone : forall t (m m' : vec) i, m i <= m' i -> trimm true t m i <= trimm true t m' i.
Proof. exact trimm_mono. Qed.
Print Assumptions C28_monotone.

Theorem C28_symmetric : forall t m i, 0 < t < 1 / 2 -> trimm true t (compl m) i = 1 - trimm true t m i.
Proof. exact trimm_sym. Qed.
Print Assumptions C28_symmetric.

Theorem C28_inverse_weights_bounded : forall t m (d : vec) i, 0 < t < 1 / 2 -> (d i = 0 \/ d i = 1) ->
  0 <= d i / trimm true t m i <= 1 / t /\ 0 <= (1 - d i) / (1 - trimm true t m i) <= 1 / t.
Proof. exact trimm_weights. Qed.
Print Assumptions C28_inverse_weights_bounded.

Example C28_case : check_trimming true (PFloat (1 / 100)) = Ok tt /\ trimm true (1 / 100) (fun _ => 1) 0%nat = 99 / 100.
Proof. split; [apply check_trimming_iff; split; [reflexivity|]; exists (1 / 100); split; [reflexivity|lra]|]. clip; lra. Qed.

(** ** C29 *)
(** IRM and APO (the potential quantile model adjusts its propensities by the same function). *)
Theorem C29_interactive_partial : forall n y d g0 g1 m, binary n d -> inside n m ->
  some_row n (fun i => d i = 1) -> some_row n (fun i => d i = 0) ->
  let w := outcome_weight (fun y => irm_score n false true unit_weights y d g0 g1 m) y in
  arm_mean n d w = 1 /\ arm_mean n (compl d) w = -1.
Proof. exact irm_norm_weights. Qed.
Print Assumptions C29_interactive_partial.

Theorem C29_potential_outcome_partial : forall n y tr g1 m, binary n tr -> inside n m -> some_row n (fun i => tr i = 1) ->
  let w := outcome_weight (fun y => apo_score n true unit_weights y tr g1 m) y in
  arm_mean n tr w = 1 /\ arm_mean n (compl tr) w = 0.
Proof. exact apo_norm_weights. Qed.
Print Assumptions C29_potential_outcome_partial.

(** IIVM: only under full compliance. *)
Theorem C29_full_compliance_partial : forall n y d g0 g1 m r0 r1, binary n d -> inside n m ->
  some_row n (fun i => d i = 1) -> some_row n (fun i => d i = 0) ->
  let w := outcome_weight (fun y => iivm_score n true y d d g0 g1 m r0 r1) y in
  arm_mean n d w = 1 /\ arm_mean n (compl d) w = -1.
Proof. exact iivm_norm_weights. Qed.
Print Assumptions C29_full_compliance_partial.

(** IIVM otherwise: the instrument arm's weights average to two. *)
Theorem C29_instrument_refuted : exists n y z d g0 g1 m r0 r1, binary n z /\ binary n d /\ inside n m /\
  some_row n (fun i => z i = 1) /\ some_row n (fun i => z i = 0) /\ some_row n (fun i => d i = 1) /\ some_row n (fun i => d i = 0) /\
  arm_mean n z (outcome_weight (fun y => iivm_score n true y z d g0 g1 m r0 r1) y) = 2.
Proof. exact iivm_not_normalised. Qed.
Print Assumptions C29_instrument_refuted.

(** Sample selection: the weights average to the share of the arm. *)
Theorem C29_selection_partial : forall n y d s g1 g0 pi m, binary n d -> binary n s -> inside n m -> inside n pi ->
  some_row n (fun i => d i = 1 /\ s i = 1) -> some_row n (fun i => d i = 0 /\ s i = 1) ->
  let w := outcome_weight (fun y => ssm_score n true y d s g1 g0 pi m) y in
  arm_mean n d w = meanf n d /\ arm_mean n (compl d) w = - meanf n (compl d).
Proof. exact ssm_norm_weights. Qed.
Print Assumptions C29_selection_partial.

Theorem C29_selection_refuted : exists n y d s g1 g0 pi m, binary n d /\ binary n s /\ inside n m /\ inside n pi /\
  some_row n (fun i => d i = 1 /\ s i = 1) /\ some_row n (fun i => d i = 0 /\ s i = 1) /\
  arm_mean n d (outcome_weight (fun y => ssm_score n true y d s g1 g0 pi m) y) = 1 / 4.
Proof. exact ssm_not_normalised. Qed.
Print Assumptions C29_selection_refuted.

Example C29_case : binary 4 d4 /\ inside 4 half /\ some_row 4 (fun i => d4 i = 1) /\ some_row 4 (fun i => d4 i = 0).
Proof. split; [rows|]. split; [rows|]. split; [exists 0%nat|exists 2%nat]; split; (lia || reflexivity). Qed.

(** ** C46 *)
Theorem C46_mean_of_signal : forall n norm y d g0 g1 m, (0 < n)%nat ->
  (forall i, (i < n)%nat -> ps_adjust n m d norm i <> 0 /\ ps_adjust n m d norm i <> 1) ->
  estimate n (irm_score n false norm unit_weights y d g0 g1 m) = meanf n (dr_signal y d g0 g1 (ps_adjust n m d norm)).
Proof. exact irm_est_defined. Qed.
Print Assumptions C46_mean_of_signal.

Theorem C46_difference_of_potential_outcomes : forall n norm y d g0 g1 m, (0 < n)%nat ->
  (forall i, (i < n)%nat -> ps_adjust n m d norm i <> 0 /\ ps_adjust n m d norm i <> 1) ->
  estimate n (irm_score n false norm unit_weights y d g0 g1 m) =
  estimate n (apo_score n norm unit_weights y d g1 m) - estimate n (apo_score n norm unit_weights y (compl d) g0 (compl m)).
Proof. exact irm_apo_difference_defined. Qed.
Print Assumptions C46_difference_of_potential_outcomes.

Theorem C46_label_swap : forall n norm y d g0 g1 m, (0 < n)%nat ->
  (forall i, (i < n)%nat -> ps_adjust n m d norm i <> 0 /\ ps_adjust n m d norm i <> 1) ->
  estimate n (irm_score n false norm unit_weights y (compl d) g1 g0 (compl m)) =
  - estimate n (irm_score n false norm unit_weights y d g0 g1 m).
Proof. exact irm_swap_defined. Qed.
Print Assumptions C46_label_swap.

(** One-hot weights divided by the share of the group. *)
Theorem C46_subgroup_mean_partial : forall n norm G y d g0 g1 m, (0 < n)%nat -> sumf n G <> 0 ->
  (forall i, (i < n)%nat -> ps_adjust n m d norm i <> 0 /\ ps_adjust n m d norm i <> 1) ->
  estimate n (irm_score n false norm {| wg := fun i => G i / meanf n G; wg_bar := None |} y d g0 g1 m) =
  group_mean n G (dr_signal y d g0 g1 (ps_adjust n m d norm)).
Proof. exact irm_subgroup_defined. Qed.
Print Assumptions C46_subgroup_mean_partial.

(** Raw 0/1 weights are accepted but scale the effect by the share of the group. *)
Theorem C46_subgroup_mean_refuted : exists n a y d g0 g1 m, check_weights (WArr a) ScATE n 1 = Ok tt /\
  (forall i, in_shape i (shape a) -> at_ a i = 0 \/ at_ a i = 1) /\ binary n d /\ inside n m /\
  (forall i, dr_signal y d g0 g1 m i = 1) /\ estimate n (irm_score n false false (weights_of (WArr a) 0) y d g0 g1 m) = 1 / 2.
Proof. exact raw_weights_not_average. Qed.
Print Assumptions C46_subgroup_mean_refuted.

(** ATTE: mean over the (weighted) treated of the outcome gap to the controls,
    the prediction for the treated state cancels. *)
Theorem C46_effect_on_treated : forall n norm w y d g0 g1 m, (0 < n)%nat -> binary n d ->
  (forall i, (i < n)%nat -> ps_adjust n m d norm i <> 0 /\ ps_adjust n m d norm i <> 1) -> sumf n (fun i => wg w i * d i) <> 0 ->
  estimate n (irm_score n true norm w y d g0 g1 m) =
  sumf n (fun i => wg w i * (d i * (y i - g0 i) - (1 - d i) * (ps_adjust n m d norm i / (1 - ps_adjust n m d norm i)) * (y i - g0 i)))
  / sumf n (fun i => wg w i * d i).
Proof. exact irm_atte_defined. Qed.
Print Assumptions C46_effect_on_treated.

Example C46_case : estimate 4 (irm_score 4 false false unit_weights (v4 3 1 2 0) d4 (fun _ => 1) (fun _ => 2) half) = 1 /\
  sumf 4 d4 <> 0 /\ (forall i, ps_adjust 4 half d4 false i <> 0 /\ ps_adjust 4 half d4 false i <> 1).
Proof.
  split; [|split].
  - rewrite irm_est by lia. unfold dr_signal, dr_level, compl, meanf, sumf, d4, v4, half. cbn. field.
  - unfold sumf, d4, v4. cbn. lra.
  - intro. unfold ps_adjust, half. split; lra.
Qed.

(** ** C47 *)
Theorem C47_own_instrument : forall n iv y d l m g cl,
  let a := pliv_score iv y d d l m m g in let b := plr_score iv y d l m g in
  lin_est_coef n (el_a a) (el_b a) cl = lin_est_coef n (el_a b) (el_b b) cl /\
  forall theta, var_est n (lin_score (el_a a) (el_b a) theta) (el_a a) cl = var_est n (lin_score (el_a b) (el_b b) theta) (el_a b) cl.
Proof. exact pliv_same. Qed.
Print Assumptions C47_own_instrument.

Theorem C47_exact_recovery : forall n iv y d l m g theta, (forall i, (i < n)%nat -> y i = theta * d i + g i) ->
  (forall i, (i < n)%nat -> l i = theta * m i + g i) -> meanf n (el_a (plr_score iv y d l m g)) <> 0 ->
  estimate n (plr_score iv y d l m g) = theta /\ variance n (plr_score iv y d l m g) = Ok (0, INR n).
Proof. exact plr_exact. Qed.
Print Assumptions C47_exact_recovery.

Example C47_case : (forall iv, meanf 4 (el_a (plr_score iv (fun i => 3 * d4 i + INR i) d4 (fun i => 3 * half i + INR i) half INR)) <> 0).
Proof. intros [|]; unfold plr_score, meanf, sumf, d4, v4, half; cbn; lra. Qed.

(** ** C48 *)
Theorem C48_full_compliance : forall n norm y d g0 g1 m, (0 < n)%nat -> binary n d ->
  estimate n (iivm_score n norm y d d g0 g1 m (fun _ => 0) (fun _ => 1)) = estimate n (irm_score n false norm unit_weights y d g0 g1 m) /\
  meanf n (fun i => - el_a (iivm_score n norm y d d g0 g1 m (fun _ => 0) (fun _ => 1)) i) = 1.
Proof. exact iivm_irm. Qed.
Print Assumptions C48_full_compliance.
Example C48_case : (0 < 4)%nat /\ binary 4 d4. Proof. split; [lia|rows]. Qed.

(** ** C49 *)
Theorem C49_panel_weights : forall n obs d m p, binary n d -> inside n m ->
  some_row n (fun i => d i = 1) -> some_row n (fun i => d i = 0) -> forall y g0 g1,
  let w := outcome_weight (fun y => did_score n obs true y d g0 g1 m p) y in
  arm_mean n d w = 1 /\ arm_mean n (compl d) w = -1.
Proof. exact did_arms. Qed.
Print Assumptions C49_panel_weights.

(** Levels of the outcome and of the predictions (each on its own) do not matter. *)
Theorem C49_panel_level_invariant : forall n obs d m p, binary n d -> inside n m ->
  some_row n (fun i => d i = 1) -> some_row n (fun i => d i = 0) -> forall y g0 g1 c c0 c1,
  estimate n (did_score n obs true (fun i => y i + c) d (fun i => g0 i + c0) (fun i => g1 i + c1) m p) =
  estimate n (did_score n obs true y d g0 g1 m p).
Proof. exact did_shift. Qed.
Print Assumptions C49_panel_level_invariant.

Theorem C49_cross_section_weights : forall n obs d t m p lam, binary n d -> binary n t -> inside n m ->
  some_row n (fun i => both d t i = 1) -> some_row n (fun i => both d (compl t) i = 1) ->
  some_row n (fun i => both (compl d) t i = 1) -> some_row n (fun i => both (compl d) (compl t) i = 1) ->
  forall y g00 g01 g10 g11,
  let w := outcome_weight (fun y => cs_score n obs true y d t g00 g01 g10 g11 m p lam) y in
  arm_mean n (both d t) w = 1 /\ arm_mean n (both d (compl t)) w = -1 /\
  arm_mean n (both (compl d) t) w = -1 /\ arm_mean n (both (compl d) (compl t)) w = 1.
Proof. exact cs_arms. Qed.
Print Assumptions C49_cross_section_weights.

Theorem C49_cross_section_level_invariant : forall n obs d t m p lam, binary n d -> binary n t -> inside n m ->
  some_row n (fun i => both d t i = 1) -> some_row n (fun i => both d (compl t) i = 1) ->
  some_row n (fun i => both (compl d) t i = 1) -> some_row n (fun i => both (compl d) (compl t) i = 1) ->
  forall y g00 g01 g10 g11 c c00 c01 c10 c11,
  estimate n (cs_score n obs true (fun i => y i + c) d t (fun i => g00 i + c00) (fun i => g01 i + c01) (fun i => g10 i + c10) (fun i => g11 i + c11) m p lam)
  = estimate n (cs_score n obs true y d t g00 g01 g10 g11 m p lam).
Proof. exact cs_shift. Qed.
Print Assumptions C49_cross_section_level_invariant.

Example C49_case : binary 4 d4 /\ binary 4 t4 /\ inside 4 half /\ some_row 4 (fun i => both d4 t4 i = 1) /\
  some_row 4 (fun i => both d4 (compl t4) i = 1) /\ some_row 4 (fun i => both (compl d4) t4 i = 1) /\ some_row 4 (fun i => both (compl d4) (compl t4) i = 1).
Proof.
  split; [rows|]. split; [rows|]. split; [rows|].
  split; [exists 0%nat; split; [lia|unfold both, d4, t4, v4; lra]|]. split; [exists 1%nat; split; [lia|unfold both, compl, d4, t4, v4; lra]|].
  split; [exists 2%nat|exists 3%nat]; (split; [lia|unfold both, compl, d4, t4, v4; lra]).
Qed.

(** ** C55 *)
Theorem C55_accepted_exactly : forall w sc n n_rep, check_weights w sc n n_rep = Ok tt <-> weights_ok w sc n n_rep.
Proof. exact accepted_iff. Qed.
Print Assumptions C55_accepted_exactly.

Theorem C55_derivative_minus_one_partial : forall w n n_rep r norm y d g0 g1 m, (0 < n)%nat -> check_weights w ScATE n n_rep = Ok tt ->
  meanf n (el_a (irm_score n false norm (weights_of w r) y d g0 g1 m)) = -1 /\
  meanf n (el_a (apo_score n norm (weights_of w r) y d g1 m)) = -1.
Proof. exact accepted_derivative. Qed.
Print Assumptions C55_derivative_minus_one_partial.

(** ATTE: only if a treated row has weight one. *)
Theorem C55_treated_derivative_partial : forall w n n_rep r norm y d g0 g1 m, check_weights w ScATTE n n_rep = Ok tt -> binary n d ->
  some_row n (fun i => d i = 1 /\ wg (weights_of w r) i = 1) ->
  meanf n (el_a (irm_score n true norm (weights_of w r) y d g0 g1 m)) = -1.
Proof. exact accepted_atte_derivative. Qed.
Print Assumptions C55_treated_derivative_partial.

(** ATTE weights without any treated row are accepted: the score divides by zero. *)
Theorem C55_empty_subgroup_refuted : exists n a d, check_weights (WArr a) ScATTE n 1 = Ok tt /\ binary n d /\
  some_row n (fun i => d i = 1) /\ some_row n (fun i => d i = 0) /\ meanf n (fun i => wg (weights_of (WArr a) 0) i * d i) = 0.
Proof. exact atte_empty_subgroup. Qed.
Print Assumptions C55_empty_subgroup_refuted.

Example C55_case : check_weights (WDict (Val (mk1 2 (v4 1 2 0 0))) (Val (mk2 2 1 (fun i _ => v4 1 0 0 0 i))) false) ScATE 2 1 = Ok tt /\
  check_weights (WArr (mk1 2 (v4 1 2 0 0))) ScATTE 2 1 <> Ok tt.
Proof.
  split.
  - apply accepted_iff. split; [reflexivity|]. split; [reflexivity|]. eexists _, _. split; [reflexivity|]. split; [reflexivity|]. split.
    + split; [reflexivity|]. split; [intros [|[|[|i]] [|]] H; cbn in *; try tauto; try lra; lia|]. exists [0%nat]. split; [cbn; lia|cbn; lra].
    + split; [reflexivity|]. split; [intros [|[|[|i]] [|j [|]]] H; cbn in *; try tauto; try lra; lia|]. exists [0%nat; 0%nat]. split; [cbn; lia|cbn; lra].
  - intro H. apply accepted_iff in H as (_ & H). destruct (H eq_refl [1%nat] ltac:(cbn; lia)); cbn in *; lra.
Qed.

(** C26, C59: sensitivity elements of the scores; C55, continued. *)
From Verif Require Import L_ScoresWitness.
From Coq Require Import Lra.
Local Open Scope R_scope.

(** ** C26 *)
Theorem C26_plr_consistent : forall n iv y d l m g theta, (0 < n)%nat -> meanf n (fun i => (d i - m i) ^ 2) <> 0 ->
  let s := plr_sens n iv y d l m g theta in
  sigma2_is n s (fun i => if iv then y i - g i - theta * d i else y i - l i - theta * (d i - m i)) /\ nu2_is_riesz n s /\ centred_elems n s.
Proof. exact plr_consistent. Qed.
Print Assumptions C26_plr_consistent.

(** The maximal bias is the geometric mean of the two parameters and its influence function is centred. *)
Theorem C26_max_bias : forall n iv y d l m g theta, (0 < n)%nat -> meanf n (fun i => (d i - m i) ^ 2) <> 0 ->
  let s := plr_sens n iv y d l m g theta in
  0 <= fst (sens_bias s) /\ (fst (sens_bias s)) ^ 2 = sl_sigma2 s * sl_nu2 s /\ meanf n (snd (sens_bias s)) = 0.
Proof. exact plr_bias. Qed.
Print Assumptions C26_max_bias.

Theorem C26_irm_influence_centred : forall n atte norm w y d g0 g1 m, (0 < n)%nat -> centred_elems n (irm_sens n atte norm w y d g0 g1 m).
Proof. exact irm_centred. Qed.
Print Assumptions C26_irm_influence_centred.
Theorem C26_apo_influence_centred : forall n norm w y tr g0 g1 m, (0 < n)%nat -> centred_elems n (apo_sens n norm w y tr g0 g1 m).
Proof. exact apo_centred. Qed.
Print Assumptions C26_apo_influence_centred.
Theorem C26_did_influence_centred : forall n obs norm y d g0 g1 m, (0 < n)%nat -> centred_elems n (did_sens n obs norm y d g0 g1 m).
Proof. exact did_centred. Qed.
Print Assumptions C26_did_influence_centred.
Theorem C26_cs_influence_centred : forall n obs norm y d t g00 g01 g10 g11 m, (0 < n)%nat ->
  centred_elems n (cs_sens n obs norm y d t g00 g01 g10 g11 m).
Proof. exact cs_centred. Qed.
Print Assumptions C26_cs_influence_centred.

(** Experimental designs: nu2 is the mean squared Riesz representer. *)
Theorem C26_did_experimental : forall n norm y d g0 g1 m, binary n d -> some_row n (fun i => d i = 1) -> some_row n (fun i => d i = 0) ->
  nu2_is_riesz n (did_sens n false norm y d g0 g1 m).
Proof. exact did_exp_nu2. Qed.
Print Assumptions C26_did_experimental.
Theorem C26_cs_experimental : forall n y d t g00 g01 g10 g11 m, binary n d -> binary n t ->
  some_row n (fun i => both d t i = 1) -> some_row n (fun i => both d (compl t) i = 1) ->
  some_row n (fun i => both (compl d) t i = 1) -> some_row n (fun i => both (compl d) (compl t) i = 1) ->
  nu2_is_riesz n (cs_sens n false true y d t g00 g01 g10 g11 m).
Proof. exact cs_exp_nu2. Qed.
Print Assumptions C26_cs_experimental.

Example C26_case : (0 < 4)%nat /\ meanf 4 (fun i => (d4 i - half i) ^ 2) <> 0.
Proof. split; [lia|]. unfold meanf, sumf, d4, v4, half. cbn. lra. Qed.

(** ** C59 *)
Theorem C59_plr : forall n y d l m g theta, meanf n (fun i => (d i - m i) ^ 2) <> 0 ->
  riesz_is_outcome_weight n (fun y => plr_score false y d l m g) y (plr_sens n false y d l m g theta).
Proof. exact plr_riesz. Qed.
Print Assumptions C59_plr.
Theorem C59_irm : forall n atte norm w y d g0 g1 m, meanf n (fst (irm_weights n atte w d (ps_adjust n m d norm))) <> 0 ->
  riesz_is_outcome_weight n (fun y => irm_score n atte norm w y d g0 g1 m) y (irm_sens n atte norm w y d g0 g1 m).
Proof. exact irm_riesz. Qed.
Print Assumptions C59_irm.
Theorem C59_apo : forall n norm w y tr g0 g1 m, meanf n (wg w) <> 0 ->
  riesz_is_outcome_weight n (fun y => apo_score n norm w y tr g1 m) y (apo_sens n norm w y tr g0 g1 m).
Proof. exact apo_riesz. Qed.
Print Assumptions C59_apo.
(** Training folds with the treatment share of the sample. *)
Theorem C59_did_partial : forall n obs norm y d g0 g1 m p, binary n d -> inside n m ->
  some_row n (fun i => d i = 1) -> some_row n (fun i => d i = 0) -> (forall i, (i < n)%nat -> p i = meanf n d) ->
  riesz_is_outcome_weight n (fun y => did_score n obs norm y d g0 g1 m p) y (did_sens n obs norm y d g0 g1 m).
Proof. exact did_riesz. Qed.
Print Assumptions C59_did_partial.
(** All repeated cross-section variants but the observational one without in-sample normalisation. *)
Theorem C59_cs_partial : forall n obs norm y d t g00 g01 g10 g11 m p lam, (obs && negb norm)%bool = false -> binary n d -> binary n t -> inside n m ->
  some_row n (fun i => both d t i = 1) -> some_row n (fun i => both d (compl t) i = 1) ->
  some_row n (fun i => both (compl d) t i = 1) -> some_row n (fun i => both (compl d) (compl t) i = 1) ->
  (forall i, (i < n)%nat -> p i = meanf n d /\ lam i = meanf n t) ->
  riesz_is_outcome_weight n (fun y => cs_score n obs norm y d t g00 g01 g10 g11 m p lam) y (cs_sens n obs norm y d t g00 g01 g10 g11 m).
Proof. exact cs_riesz. Qed.
Print Assumptions C59_cs_partial.
(** ... in which the signs of the periods and groups are dropped. *)
Theorem C59_cs_refuted : exists n y d t g00 g01 g10 g11 m p lam, binary n d /\ binary n t /\ inside n m /\
  some_row n (fun i => both d t i = 1) /\ some_row n (fun i => both d (compl t) i = 1) /\
  some_row n (fun i => both (compl d) t i = 1) /\ some_row n (fun i => both (compl d) (compl t) i = 1) /\
  (forall i, (i < n)%nat -> p i = meanf n d /\ lam i = meanf n t) /\
  ~ riesz_is_outcome_weight n (fun y => cs_score n true false y d t g00 g01 g10 g11 m p lam) y (cs_sens n true false y d t g00 g01 g10 g11 m).
Proof. exact cs_riesz_wrong. Qed.
Print Assumptions C59_cs_refuted.

Example C59_case : meanf 4 (fst (irm_weights 4 true unit_weights d4 (ps_adjust 4 half d4 false))) <> 0 /\
  (forall i, (i < 4)%nat -> half i = meanf 4 d4) /\ (forall i, (i < 4)%nat -> half i = meanf 4 t4).
Proof.
  split; [|split; intros i _].
  - unfold irm_weights, unit_weights, meanf, sumf, d4, v4, half. cbn. lra.
  - unfold half, meanf, sumf, d4, v4. cbn. lra.
  - unfold half, meanf, sumf, t4, v4. cbn. lra.
Qed.

(** ** C55: with accepted weights that do not average to one the estimate is
    not a weighted average of the signals. *)
Theorem C55_weighted_average_refuted : exists n a y d g0 g1 m, check_weights (WArr a) ScATE n 1 = Ok tt /\
  (forall i, in_shape i (shape a) -> at_ a i = 0 \/ at_ a i = 1) /\ binary n d /\ inside n m /\
  (forall i, dr_signal y d g0 g1 m i = 1) /\ estimate n (irm_score n false false (weights_of (WArr a) 0) y d g0 g1 m) = 1 / 2.
Proof. exact raw_weights_not_average. Qed.
Print Assumptions C55_weighted_average_refuted.

(** Counterexamples: normalised weights, Riesz representers, raw subgroup weights. *)
From Verif Require Export L_ScoresSens L_Weights.
From Coq Require Import Lra.
Local Open Scope R_scope.

(** Four rows: instrument 1,1,0,0, treatment 1,0,0,0, propensity one half. *)
Definition v4 (a b c e : R) : vec := fun i => match i with 0%nat => a | 1%nat => b | 2%nat => c | _ => e end.
Definition half : vec := fun _ => 1 / 2.
Ltac rows := let i := fresh in let H := fresh in intros i H; unfold half; do 4 (try (destruct i as [|i]; [cbn; lra|])); lia.
Lemma iivm_not_normalised : exists n y z d g0 g1 m r0 r1, binary n z /\ binary n d /\ inside n m /\
  some_row n (fun i => z i = 1) /\ some_row n (fun i => z i = 0) /\ some_row n (fun i => d i = 1) /\ some_row n (fun i => d i = 0) /\
  arm_mean n z (outcome_weight (fun y => iivm_score n true y z d g0 g1 m r0 r1) y) = 2.
Proof.
  exists 4%nat, (fun _ => 0), (v4 1 1 0 0), (v4 1 0 0 0), (fun _ => 0), (fun _ => 0), half, (fun _ => 0), (fun _ => 1).
  split; [rows|]. split; [rows|]. split; [rows|].
  split; [exists 0%nat; split; [lia|reflexivity]|]. split; [exists 2%nat; split; [lia|reflexivity]|]. split; [exists 0%nat; split; [lia|reflexivity]|]. split; [exists 1%nat; split; [lia|reflexivity]|].
  unfold arm_mean. rewrite (meanf_ext 4 _ (fun i => v4 1 1 0 0 i * (v4 1 1 0 0 i / iivm_adjust 4 true (v4 1 0 0 0) half i - (1 - v4 1 1 0 0 i) / (1 - iivm_adjust 4 true (v4 1 0 0 0) half i)))) by (intros; rewrite iivm_ow; reflexivity).
  unfold iivm_adjust, normalize_ipw, meanf, sumf, half, v4. cbn. field.
Qed.
Lemma ssm_not_normalised : exists n y d s g1 g0 pi m, binary n d /\ binary n s /\ inside n m /\ inside n pi /\
  some_row n (fun i => d i = 1 /\ s i = 1) /\ some_row n (fun i => d i = 0 /\ s i = 1) /\
  arm_mean n d (outcome_weight (fun y => ssm_score n true y d s g1 g0 pi m) y) = 1 / 4.
Proof.
  exists 4%nat, (fun _ => 0), (v4 1 0 0 0), (fun _ => 1), (fun _ => 0), (fun _ => 0), half, half.
  assert (B1 : binary 4 (v4 1 0 0 0)) by rows. assert (B2 : binary 4 (fun _ => 1)) by rows. assert (B3 : inside 4 half) by rows.
  assert (R1 : some_row 4 (fun i => v4 1 0 0 0 i = 1 /\ 1 = 1)) by (exists 0%nat; split; [lia|split; reflexivity]).
  assert (R0 : some_row 4 (fun i => v4 1 0 0 0 i = 0 /\ 1 = 1)) by (exists 1%nat; split; [lia|split; reflexivity]).
  repeat (split; [assumption|]).
  destruct (ssm_norm_weights 4 (fun _ => 0) (v4 1 0 0 0) (fun _ => 1) (fun _ => 0) (fun _ => 0) half half B1 B2 B3 B3 R1 R0) as (-> & _).
  unfold meanf, sumf, v4. cbn. field.
Qed.
(** Repeated cross-sections, one row per cell, all shares one half. *)
Definition d4 := v4 1 1 0 0. Definition t4 := v4 1 0 1 0.
Lemma cs_riesz_wrong : exists n y d t g00 g01 g10 g11 m p lam, binary n d /\ binary n t /\ inside n m /\
  some_row n (fun i => both d t i = 1) /\ some_row n (fun i => both d (compl t) i = 1) /\
  some_row n (fun i => both (compl d) t i = 1) /\ some_row n (fun i => both (compl d) (compl t) i = 1) /\
  (forall i, (i < n)%nat -> p i = meanf n d /\ lam i = meanf n t) /\
  ~ riesz_is_outcome_weight n (fun y => cs_score n true false y d t g00 g01 g10 g11 m p lam) y (cs_sens n true false y d t g00 g01 g10 g11 m).
Proof.
  exists 4%nat, (fun _ => 0), d4, t4, (fun _ => 0), (fun _ => 0), (fun _ => 0), (fun _ => 0), half, half, half.
  split; [rows|]. split; [rows|]. split; [rows|].
  split; [exists 0%nat; split; [lia|unfold both, d4, t4, v4; lra]|]. split; [exists 1%nat; split; [lia|unfold both, compl, d4, t4, v4; lra]|].
  split; [exists 2%nat; split; [lia|unfold both, compl, d4, t4, v4; lra]|]. split; [exists 3%nat; split; [lia|unfold both, compl, d4, t4, v4; lra]|].
  assert (M1 : meanf 4 d4 = 1 / 2) by (unfold meanf, sumf, d4, v4; cbn; field). assert (M2 : meanf 4 t4 = 1 / 2) by (unfold meanf, sumf, t4, v4; cbn; field).
  split; [intros i Hi; rewrite M1, M2; split; reflexivity|].
  intro H. specialize (H 1%nat ltac:(lia)). unfold outcome_weight in H. cbn [cs_score cs_resid_weights cs_weight_a cs_sens centred el_a el_b sl_rr fst snd] in H. rewrite M1, M2 in H.
  assert (M3 : meanf 4 (fun i => -1 * (d4 i / half i)) = -1) by (unfold meanf, sumf, d4, v4, half; cbn; field). rewrite M3 in H.
  unfold d4, t4, v4, half in H. lra.
Qed.
(** Two rows, weight one on the first: all signals are one, the estimate is one half. *)
Lemma raw_weights_not_average : exists n a y d g0 g1 m, check_weights (WArr a) ScATE n 1 = Ok tt /\
  (forall i, in_shape i (shape a) -> at_ a i = 0 \/ at_ a i = 1) /\ binary n d /\ inside n m /\
  (forall i, dr_signal y d g0 g1 m i = 1) /\ estimate n (irm_score n false false (weights_of (WArr a) 0) y d g0 g1 m) = 1 / 2.
Proof.
  exists 2%nat, (mk1 2 (v4 1 0 0 0)), (v4 1 0 0 0), (v4 1 0 0 0), (fun _ => 0), (fun _ => 1), half.
  assert (A : forall i, in_shape i [2%nat] -> at_ (mk1 2 (v4 1 0 0 0)) i = 0 \/ at_ (mk1 2 (v4 1 0 0 0)) i = 1).
  { intros [|[|[|i]] [|]] H; cbn in *; try tauto; try lra; try lia. }
  split; [|split; [exact A|split; [rows|split; [rows|]]]].
  - apply accepted_iff. split; [|discriminate]. split; [reflexivity|]. split.
    + intros i Hi. destruct (A i Hi) as [-> | ->]; lra.
    + exists [0%nat]. split; [cbn; lia|]. cbn. lra.
  - assert (S : forall i, dr_signal (v4 1 0 0 0) (v4 1 0 0 0) (fun _ => 0) (fun _ => 1) half i = 1).
    { intro i. unfold dr_signal, dr_level, compl, half, v4. destruct i as [|[|[|i]]]; field. }
    split; [exact S|]. rewrite irm_est_weighted.
    + cbn [weights_of wg]. rewrite (meanf_ext 2 _ (fun i => v4 1 0 0 0 i)); [unfold meanf, sumf, v4; cbn; field|]. intros i Hi. cbn [ps_adjust]. rewrite S. cbn. ring.
    + cbn [weights_of wg]. unfold meanf, sumf, mk1, v4. cbn. lra.
    + reflexivity.
Qed.
(** ATTE weights on untreated rows only are accepted; the subgroup is empty. *)
Lemma atte_empty_subgroup : exists n a d, check_weights (WArr a) ScATTE n 1 = Ok tt /\ binary n d /\
  some_row n (fun i => d i = 1) /\ some_row n (fun i => d i = 0) /\ meanf n (fun i => wg (weights_of (WArr a) 0) i * d i) = 0.
Proof.
  exists 2%nat, (mk1 2 (v4 0 1 0 0)), (v4 1 0 0 0). split; [|split; [rows|split; [|split]]].
  - apply accepted_iff. assert (A : forall i, in_shape i [2%nat] -> at_ (mk1 2 (v4 0 1 0 0)) i = 0 \/ at_ (mk1 2 (v4 0 1 0 0)) i = 1).
    { intros [|[|[|i]] [|]] H; cbn in *; try tauto; try lra; try lia. }
    split; [|intros _; exact A]. split; [reflexivity|]. split.
    + intros i Hi. destruct (A i Hi) as [-> | ->]; lra.
    + exists [1%nat]. split; [cbn; lia|]. cbn. lra.
  - exists 0%nat. split; [lia|reflexivity].
  - exists 1%nat. split; [lia|reflexivity].
  - cbn [weights_of wg]. unfold meanf, sumf, mk1, v4. cbn. lra.
Qed.

(** Specifications for the score properties. *)
From Verif Require Export M_Scores S_Estimation.
Local Open Scope R_scope.

(** 0/1 vectors, propensities strictly inside (0,1), non-empty groups. *)
Definition binary (n : nat) (d : vec) : Prop := forall i, (i < n)%nat -> d i = 0 \/ d i = 1.
Definition inside (n : nat) (m : vec) : Prop := forall i, (i < n)%nat -> 0 < m i < 1.
Definition some_row (n : nat) (G : nat -> Prop) : Prop := exists i, (i < n)%nat /\ G i.
(** Reported estimate of a linear score without clusters, and the variance
    estimate reported with it. *)
Definition estimate (n : nat) (e : elems) : R := lin_est_coef n (el_a e) (el_b e) None.
Definition variance (n : nat) (e : elems) : result (R * R) :=
  var_est n (lin_score (el_a e) (el_b e) (estimate n e)) (el_a e) None.
(** Weight with which the outcome of row i enters the score: the change of the
    score element when all outcomes are raised by one, predictions unchanged. *)
Definition outcome_weight (sc : vec -> elems) (y : vec) (i : nat) : R := el_b (sc (fun j => y j + 1)) i - el_b (sc y) i.
(** Average over the sample of the weights of one arm (other rows count as 0). *)
Definition arm_mean (n : nat) (arm w : vec) : R := meanf n (fun i => arm i * w i).
Definition compl (d : vec) : vec := fun i => 1 - d i.
Definition both (d t : vec) : vec := fun i => d i * t i.
(** Mean of a vector over a 0/1 group. *)
Definition group_mean (n : nat) (G x : vec) : R := sumf n (fun i => G i * x i) / sumf n G.

(** Doubly robust signals. *)
Definition dr_level (y a g m : vec) : vec := fun i => g i + a i * (y i - g i) / m i.
Definition dr_signal (y d g0 g1 m : vec) : vec := fun i => dr_level y d g1 m i - dr_level y (compl d) g0 (compl m) i.

(** Influence components of the two sensitivity parameters average to zero. *)
Definition centred_elems (n : nat) (s : sens_elems) : Prop := meanf n (sl_psi_sigma2 s) = 0 /\ meanf n (sl_psi_nu2 s) = 0.
Definition sigma2_is (n : nat) (s : sens_elems) (resid : vec) : Prop := sl_sigma2 s = meanf n (fun i => (resid i) ^ 2).
Definition nu2_is_riesz (n : nat) (s : sens_elems) : Prop := sl_nu2 s = meanf n (fun i => (sl_rr s i) ^ 2).
(** The reported Riesz representer is the weight of the outcome in the score,
    after scaling the score to derivative minus one. *)
Definition riesz_is_outcome_weight (n : nat) (sc : vec -> elems) (y : vec) (s : sens_elems) : Prop :=
  forall i, (i < n)%nat -> outcome_weight sc y i = - meanf n (el_a (sc y)) * sl_rr s i.

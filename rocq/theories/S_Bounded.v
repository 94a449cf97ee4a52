(** Bounds on estimates: terms of the statements. *)
From Verif Require Export S_Classes.
Local Open Scope R_scope.

(** All n values lie between -B and B. *)
Definition within (n : nat) (B : R) (v : vec) : Prop := forall i, (i < n)%nat -> - B <= v i <= B.
(** Estimate and standard error of parameter t in repetition r are bounded: the
    estimate by K, its standard error by K divided by the root of the sample size. *)
Definition bounded_estimate (F : framework) (n t r : nat) (K : R) : Prop :=
  - K <= at_ (fw_all_thetas F) [t; r] <= K /\ at_ (fw_all_ses F) [t; r] <= K / sqrt (INR n).

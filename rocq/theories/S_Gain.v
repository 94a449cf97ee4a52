(** Specification of the benchmark statistics. *)
From Verif Require Export M_Gain.
Local Open Scope R_scope.

(** Relative gain of the long over the short model in residual variance of the
    outcome, and relative gain in variation of the representer, capped to [0,1]. *)
Definition cap01 (x : R) : R := if Rle_dec x 0 then 0 else if Rle_dec x 1 then x else 1.
Definition outcome_gain (s2_long s2_short : R) : R := cap01 (s2_short / s2_long - 1).
Definition riesz_gain (nu_long nu_short : R) : R := cap01 (nu_long / nu_short - 1).
(** A model with sensitivity elements of shape (1, k, r) and coefficients of shape (k, r). *)
Definition model_of (k r : nat) (s2 nu coef : nat -> nat -> R) : gmodel :=
  {| gm_sens := Some (Val (mk3 1 k r (fun _ => s2)), Val (mk3 1 k r (fun _ => nu))); gm_coef := Some (mk2 k r coef) |}.
(** Well-formed input: arrays of shape (1, k, r) and (k, r). *)
Definition gain_input (m : gmodel) (k r : nat) : Prop :=
  exists s v c, gm_sens m = Some (Val s, Val v) /\ gm_coef m = Some c /\ shape s = [1%nat; k; r] /\ shape c = [k; r] /\ length (shape v) = 3%nat /\ dim 0 v = 1%nat.
Definition same_nu_shape (m1 m2 : gmodel) : Prop :=
  exists s1 v1 s2 v2, gm_sens m1 = Some (s1, Val v1) /\ gm_sens m2 = Some (s2, Val v2) /\ shape v1 = shape v2.
Definition same_sign (x y : R) : Prop := (0 < x <-> 0 < y) /\ (x < 0 <-> y < 0).
(** Correlation implied by the change of the estimate: |delta| relative to
    sqrt (gain in sigma2 * gain in nu2), at most one; full (one) if one of the
    gains is not positive; signed like delta. *)
Definition implied_rho (s2_long s2_short nu_long nu_short delta : R) : R :=
  let size := if Rlt_dec s2_long s2_short then (if Rlt_dec nu_short nu_long then Rmin 1 (Rabs delta / sqrt ((s2_short - s2_long) * (nu_long - nu_short))) else 1) else 1 in
  if Rlt_dec 0 delta then size else if Rlt_dec delta 0 then - size else 0.

(** C25: benchmark statistics. *)
From Verif Require Import L_Gain.
From Coq Require Import Lra.
Local Open Scope R_scope.

Theorem C25_accepted : forall vy long short, is_ok (gain_statistics vy long short) = true <->
  exists k r, gain_input long k r /\ gain_input short k r /\ same_nu_shape long short.
Proof. exact gain_accepted. Qed.
Print Assumptions C25_accepted.

(** Every number reported is in range. *)
Theorem C25_range : forall vy long short k r g, gain_statistics vy long short = Ok (k, r, g) -> (0 < r)%nat -> forall t,
  (forall x, ga_cf_y g t = Fin x -> 0 <= x <= 1) /\ (forall x, ga_cf_d g t = Fin x -> 0 <= x <= 1) /\ -1 <= ga_rho g t <= 1.
Proof. exact gain_range. Qed.
Print Assumptions C25_range.

(** And it is a number when the outcome varies and no variance is zero; the
    values do not depend on the outcome's variance. *)
Theorem C25_values : forall vy k r s2l nl cl s2s ns cs t, vy <> 0 -> (forall j, (j < r)%nat -> s2l t j <> 0 /\ nl t j <> 0 /\ ns t j <> 0) -> exists g,
  gain_statistics vy (model_of k r s2l nl cl) (model_of k r s2s ns cs) = Ok (k, r, g) /\
  ga_cf_y g t = Fin (medianf r (fun j => outcome_gain (s2l t j) (s2s t j))) /\
  ga_cf_d g t = Fin (medianf r (fun j => riesz_gain (nl t j) (ns t j))) /\
  ga_delta g t = medianf r (fun j => cs t j - cl t j).
Proof. exact gain_values. Qed.
Print Assumptions C25_values.

(** rho is the change of the estimate relative to what the gains allow. *)
Theorem C25_rho : forall vy k r s2l nl cl s2s ns cs t, exists g,
  gain_statistics vy (model_of k r s2l nl cl) (model_of k r s2s ns cs) = Ok (k, r, g) /\
  ga_rho g t = medianf r (fun j => implied_rho (s2l t j) (s2s t j) (nl t j) (ns t j) (cs t j - cl t j)).
Proof. exact gain_rho. Qed.
Print Assumptions C25_rho.

(** One repetition: rho has the sign of delta_theta. *)
Theorem C25_sign : forall vy k s2l nl cl s2s ns cs t, exists g,
  gain_statistics vy (model_of k 1 s2l nl cl) (model_of k 1 s2s ns cs) = Ok (k, 1%nat, g) /\ same_sign (ga_rho g t) (ga_delta g t).
Proof. exact gain_one_rep. Qed.
Print Assumptions C25_sign.

(** Several repetitions that agree on the direction. *)
Theorem C25_sign_agreeing_repetitions : forall vy k r s2l nl cl s2s ns cs t, (0 < r)%nat -> (forall j, (j < r)%nat -> cl t j <= cs t j) -> exists g,
  gain_statistics vy (model_of k r s2l nl cl) (model_of k r s2s ns cs) = Ok (k, r, g) /\ 0 <= ga_rho g t /\ 0 <= ga_delta g t.
Proof. exact rho_sign_pos. Qed.
Print Assumptions C25_sign_agreeing_repetitions.

Theorem C25_same_model_partial : forall vy k r s2 nu c t, (0 < r)%nat -> vy <> 0 -> (forall j, (j < r)%nat -> s2 t j <> 0 /\ nu t j <> 0) -> exists g,
  gain_statistics vy (model_of k r s2 nu c) (model_of k r s2 nu c) = Ok (k, r, g) /\
  ga_cf_y g t = Fin 0 /\ ga_cf_d g t = Fin 0 /\ ga_rho g t = 0 /\ ga_delta g t = 0.
Proof. exact gain_same. Qed.
Print Assumptions C25_same_model_partial.

(** Measuring the outcome in another unit changes delta_theta only. *)
Theorem C25_outcome_unit : forall vy k r s2l nl cl s2s ns cs t c, 0 < c -> (0 < r)%nat -> vy <> 0 -> exists g h,
  gain_statistics vy (model_of k r s2l nl cl) (model_of k r s2s ns cs) = Ok (k, r, g) /\
  gain_statistics (c ^ 2 * vy) (model_of k r (fun t j => c ^ 2 * s2l t j) nl (fun t j => c * cl t j)) (model_of k r (fun t j => c ^ 2 * s2s t j) ns (fun t j => c * cs t j)) = Ok (k, r, h) /\
  ga_cf_y h t = ga_cf_y g t /\ ga_cf_d h t = ga_cf_d g t /\ ga_rho h t = ga_rho g t /\ ga_delta h t = c * ga_delta g t.
Proof. exact gain_scale. Qed.
Print Assumptions C25_outcome_unit.

(** Coinciding models that fit the outcome perfectly: nan, not 0. *)
Theorem C25_perfect_fit_refuted : exists g,
  gain_statistics 1 (model_of 1 1 (fun _ _ => 0) (fun _ _ => 1) (fun _ _ => 0)) (model_of 1 1 (fun _ _ => 0) (fun _ _ => 1) (fun _ _ => 0)) = Ok (1%nat, 1%nat, g) /\
  ga_cf_y g 0%nat = NaN.
Proof. exact gain_nan. Qed.
Print Assumptions C25_perfect_fit_refuted.

(** With several repetitions the medians of rho and delta_theta need not have the same sign. *)
Example C25_case_medians : exists g,
  gain_statistics 1 (model_of 1 2 (fun _ _ => 1) (fun _ _ => 2) (fun _ _ => 0)) (model_of 1 2 (fun _ _ => 2) (fun _ _ => 1) (fun _ j => if Nat.eqb j 0 then -3 else 2)) = Ok (1%nat, 2%nat, g) /\
  ga_delta g 0%nat < 0 /\ ga_rho g 0%nat = 0.
Proof. exact gain_sign_differs. Qed.
Example C25_case_values : outcome_gain 4 5 = 1 / 4 /\ riesz_gain 3 1 = 1 /\ riesz_gain 1 2 = 0.
Proof. unfold outcome_gain, riesz_gain, cap01. repeat destruct Rle_dec; lra. Qed.

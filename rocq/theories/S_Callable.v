(** Specifications: models whose score is a function of the user. *)
From Verif Require Export M_Callable S_Init.
Local Open Scope R_scope.

(** Estimate, standard error and scaled scores of treatment t in repetition r
    solve the score [psi_a * theta + psi_b] that the function returned. *)
Definition solves (F : framework) (n t r : nat) (e : elems) : Prop :=
  sumf n (el_a e) <> 0 ->
  let theta := - sumf n (el_b e) / sumf n (el_a e) in
  estimate_is F n t r theta (fun i => el_a e i * theta + el_b e i) (- sumf n (el_a e)).

(** A user function that computes the partialling-out elements. *)
Definition my_partialling_out : plr_user := fun y d l m _ _ => Ok {| el_a := fun i => - (d i - m i) ^ 2; el_b := fun i => (d i - m i) * (y i - l i) |}.

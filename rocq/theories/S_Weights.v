(** Which weights are admissible. *)
From Verif Require Export S_Scores.
Local Open Scope R_scope.
Definition all_nonneg (a : nd) : Prop := forall i, in_shape i (shape a) -> 0 <= at_ a i.
Definition some_positive (a : nd) : Prop := exists i, in_shape i (shape a) /\ 0 < at_ a i.
Definition admissible (a : nd) (s : list nat) : Prop := shape a = s /\ all_nonneg a /\ some_positive a.
Definition weights_ok (w : warg) (sc : wscore) (n n_rep : nat) : Prop :=
  match w with
  | WNone => True
  | WArr a => admissible a [n] /\ (sc = ScATTE -> forall i, in_shape i (shape a) -> at_ a i = 0 \/ at_ a i = 1)
  | WDict ew eb extra => sc = ScATE /\ extra = false /\
      exists a b, ew = Val a /\ eb = Val b /\ admissible a [n] /\ admissible b [n; n_rep]
  | WOther => False
  end.

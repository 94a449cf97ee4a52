(** Different formulations of one estimation problem: specifications. *)
From Verif Require Export S_Units.
Local Open Scope R_scope.
Local Open Scope string_scope.

Section Equal.
Context {E P : Type} (L : learner E row P) (f : E -> row -> R) (g : E -> row -> list R).
(** Exchanging the two classes in training exchanges their probabilities. *)
Definition label_symmetric : Prop := forall e data m m', (forall q, In q data -> snd q = 0 \/ snd q = 1) ->
  ln_fit L e data = Ok m -> ln_fit L e (map (fun q => (fst q, 1 - snd q)) data) = Ok m' ->
  forall v p p', nth_error (g m v) 1 = Some p -> nth_error (g m' v) 1 = Some p' -> p' = 1 - p.
(** Predictions [name] of one object correspond to predictions [name'] of another: both supplied and equal, or
    both learned with the same parameters. *)
Definition matched (w w' : world P) (ext ext' : ext_arg) (col name col' name' : string) (r : nat) : Prop :=
  (forall e, ~ supplied ext col name r e) /\ (forall e, ~ supplied ext' col' name' r e) /\ nth r (m_params (w_obj w') name' col') None = nth r (m_params (w_obj w) name col) None \/
  exists e, supplied ext col name r e /\ supplied ext' col' name' r e.
(** The same for probabilities of opposite labels. *)
Definition mirrored (w w' : world P) (ext ext' : ext_arg) (col name col' name' : string) (r : nat) : Prop :=
  (forall e, ~ supplied ext col name r e) /\ (forall e, ~ supplied ext' col' name' r e) /\ nth r (m_params (w_obj w') name' col') None = nth r (m_params (w_obj w) name col) None /\ label_symmetric \/
  exists e e', supplied ext col name r e /\ supplied ext' col' name' r e' /\ forall i, e' i = 1 - e i.
End Equal.
(** Both groups occur. *)
Definition both_groups (n : nat) (d : vec) : Prop := (exists i, (i < n)%nat /\ d i = 0) /\ exists i, (i < n)%nat /\ d i = 1.
(** Two objects on the same rows and outcome, with the same split. *)
Record same_problem {P} (fr : M_Data.frame) (s : M_Data.ddata) (w : world P) (fr' : M_Data.frame) (s' : M_Data.ddata) (w' : world P) : Prop := {
  sp_rows : M_Data.frows fr' = M_Data.frows fr;
  sp_y : forall i, (i < M_Data.frows fr)%nat -> outcome fr' s' i = outcome fr s i;
  sp_split : m_smpls (w_obj w') = m_smpls (w_obj w) }.
(** Estimates of treatment t and repetition r, related by a sign. *)
Definition signed (F F' : framework) (t r : nat) (k : R) : Prop :=
  at_ (fw_all_thetas F') [t; r] = k * at_ (fw_all_thetas F) [t; r] /\ at_ (fw_all_ses F') [t; r] = at_ (fw_all_ses F) [t; r].
(** F is the difference of F1 and F0: estimates and scaled scores (which determine the standard errors of the
    difference object F1 - F0). *)
Definition difference_of (n t r : nat) (F F1 F0 : framework) : Prop :=
  at_ (fw_all_thetas F) [t; r] = at_ (fw_all_thetas F1) [t; r] - at_ (fw_all_thetas F0) [t; r] /\
  forall i, (i < n)%nat -> at_ (fw_scaled_psi F) [i; t; r] = at_ (fw_scaled_psi F1) [i; t; r] - at_ (fw_scaled_psi F0) [i; t; r].

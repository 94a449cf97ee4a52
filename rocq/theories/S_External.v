(** Specifications: fits from predictions computed elsewhere.  The learners of
    the object are then never trained, so nothing is required of them. *)
From Verif Require Export S_Classes.
Local Open Scope R_scope.
Local Open Scope string_scope.

(** A well-formed argument [external_predictions]: a dictionary of known
    treatments, each with a dictionary of known learners and arrays of shape
    (number of rows, number of repetitions). *)
Definition well_formed_predictions (ext : ext_arg) (dcols learners : list string) (n n_rep : nat) : Prop :=
  exists el, ext = ExtDict el /\ forall d inner, In (d, inner) el -> In d dcols /\
    exists il, inner = InnerDict il /\ forall l e, In (l, e) il -> In l learners /\ exists a, e = Val a /\ shape a = [n; n_rep].
(** Predictions of all [names] are given for every treatment. *)
Definition complete_predictions (ext : ext_arg) (dcols names : list string) : Prop :=
  forall d l r, In d dcols -> In l names -> exists v, supplied ext d l r v.
(** Given predictions of a 0/1 variable that are not all 0 or 1 themselves. *)
Definition soft_predictions (ext : ext_arg) (d l : string) (n : nat) : Prop :=
  forall r v, supplied ext d l r v -> exists i, (i < n)%nat /\ v i <> 0 /\ v i <> 1.
(** Trimmed propensities. *)
Definition clip (truncate : bool) (thr : R) (m0 : vec) : vec := fun i => if truncate then Rmin (Rmax (m0 i) thr) (1 - thr) else m0 i.

(** A fit with the predictions [ext] succeeds, and its results object [F]
    satisfies [est F r t fs col] for every repetition r (split [fs]) and
    treatment t (column [col]). *)
Definition fit_from {P} (C : ctx P) (w : world P) (nj : pyval) (store : bool) (ext : ext_arg) (smod : bool)
  (est : framework -> nat -> nat -> list fold -> string -> Prop) : Prop :=
  exists w' F sm, fit C nj (PBool store) ext (PBool smod) w = (w', Ok tt) /\ fit_done w w' F sm (length (c_dcols C)) /\
    forall r t fs col, nth_error sm r = Some fs -> nth_error (c_dcols C) t = Some col -> est F r t fs col.

(** Learners that can never be trained, as the dummy learners of the package. *)
Definition untrainable {E X P} (L : learner E X P) : Prop := forall e data, exists x, ln_fit L e data = Err x.
(** All [names] were supplied for every repetition and treatment. *)
Definition all_supplied {P} (C : ctx P) (w : world P) (ext : ext_arg) (names : list string) : Prop :=
  forall r l col, (r < m_n_rep (w_obj w))%nat -> In col (c_dcols C) -> In l names -> exists v, supplied ext col l r v.
(** The split of every repetition has at least one fold. *)
Definition some_folds {P} (w : world P) : Prop := forall sm fs, m_smpls (w_obj w) = Some sm -> In fs sm -> fs <> [].
(** A fit of the object succeeds only if all [names] were supplied. *)
Definition requires {P} (C : ctx P) (names : list string) : Prop :=
  forall w nj store ext smod w', reachable C w -> some_folds w -> fit C nj store ext smod w = (w', Ok tt) -> all_supplied C w ext names.
(** The estimates do not depend on the external predictions. *)
Definition ignores_predictions {P} (C : ctx P) : Prop :=
  forall w nj nj' store store' ext ext' smod smod' w1 w2, reachable C w -> fit C nj store ext smod w = (w1, Ok tt) -> fit C nj' store' ext' smod' w = (w2, Ok tt) ->
    exists F1 F2, current_fw w1 F1 /\ current_fw w2 F2 /\ fw_n_rep F1 = fw_n_rep F2 /\ fw_n_thetas F1 = fw_n_thetas F2 /\
      forall t r, (t < fw_n_thetas F1)%nat -> (r < fw_n_rep F1)%nat -> at_ (fw_all_thetas F1) [t; r] = at_ (fw_all_thetas F2) [t; r] /\ at_ (fw_all_ses F1) [t; r] = at_ (fw_all_ses F2) [t; r].

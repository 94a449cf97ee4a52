(** Specifications: which learning problems hyperparameter tuning solves. *)
From Verif Require Export M_TuneClasses S_Tune S_NuisFit.
Local Open Scope R_scope.
Local Open Scope string_scope.

Section Spec.
Context {P S : Type}.
Variable best : S -> P.

(** [ps] has one entry per fold: the best parameters of the search that saw, for
    that fold, the selected training rows with features [x] and target [y]. *)
Definition tuned_for (srch : string -> nat -> list (row * R) -> result S) (name : string) (x : nat -> row) (y : vec) (sel : rows_sel) (smpls : list fold) (ps : list P) : Prop :=
  length ps = length smpls /\
  forall k h, nth_error smpls k = Some h -> exists rows so, sel (fst h) rows /\ srch name k (map (fun j => (x j, y j)) rows) = Ok so /\ nth_error ps k = Some (best so).
End Spec.

(** Fitted values [v] of the searches: each row is predicted by the search object
    of the last fold it was trained in (and cast to the array's type). *)
Definition last_trained {S} (spred : S -> row -> R) (cast : R -> R) (srch : string -> nat -> list (row * R) -> result S) (n : nat) (name : string) (x : nat -> row) (y : vec) (smpls : list fold) (v : vec) : Prop :=
  forall i, (i < n)%nat -> exists k h so, nth_error smpls k = Some h /\ In i (fst h) /\ (forall k' h', nth_error smpls k' = Some h' -> In i (fst h') -> (k' <= k)%nat) /\
    srch name k (map (fun j => (x j, y j)) (fst h)) = Ok so /\ v i = cast (spred so (x i)).
(** Every row is a training row of some fold. *)
Definition all_trained (n : nat) (smpls : list fold) : Prop := forall i, (i < n)%nat -> exists h, In h smpls /\ In i (fst h).
(** The preliminary slope of y - l on d - r with instrument z - m. *)
Definition prelim_slope (n : nat) (y d z l r m : vec) (theta : R) : Prop :=
  sumf n (fun i => (z i - m i) * (d i - r i)) <> 0 -> theta = sumf n (fun i => (z i - m i) * (y i - l i)) / sumf n (fun i => (z i - m i) * (d i - r i)).
(** The q-quantile of the outcome among all rows with treatment level [tr]. *)
Definition level_quantile (n : nat) (q tr : R) (y d : vec) (u : R) : Prop :=
  exists rows, group_rows n (fun j => d j = tr) (seq 0 n) rows /\ u = quantile (map y rows) q.

(** The two ways to choose training rows. *)
Definition by_rows (sel : rows_sel) : Prop := sel = whole_train \/ exists n G, sel = group_rows n G.

(** Row i is predicted by a model fitted with the parameters the search found on
    the very rows the model is fitted on. *)
Definition predicted_after_tuning {E P S} (L : learner E row P) (f : E -> row -> R) (g : E -> row -> list R) (best : S -> P) (srch : string -> nat -> list (row * R) -> result S)
  (learner : E) (proba : bool) (name : string) (x : nat -> row) (y c : vec) (sel : rows_sel) (smpls : list fold) (i : nat) (v : R) : Prop :=
  exists k h rows so m, tested_in smpls i k h /\ sel (fst h) rows /\ srch name k (map (fun j => (x j, y j)) rows) = Ok so /\
    fitted L learner (Some (best so)) (map (fun j => (x j, c j)) rows) m /\
    if proba then nth_error (g m (x i)) 1 = Some v else v = f m (x i).
(** … every row, for the learner under the key [lrn]. *)
Definition tuned_prediction {E P S} (L : learner E row P) (f : E -> row -> R) (g : E -> row -> list R) (mc : machinery E P) (n : nat) (best : S -> P) (srch : string -> nat -> list (row * R) -> result S)
  (name lrn : string) (x : nat -> row) (y : vec) (sel : rows_sel) (smpls : list fold) (v : vec) : Prop :=
  exists c, (if mc_proba mc lrn then codes n y c else c = y) /\
    forall i, (i < n)%nat -> predicted_after_tuning L f g best srch (mc_learner mc lrn) (mc_proba mc lrn) name x y c sel smpls i (v i).

(** On the current split the tuner finds, for every treatment and repetition, one
    parameter setting per fold for nuisance functions of the model. *)
Definition tuner_returns {P T} (C : ctx P) (tn : nat -> option nat -> list fold -> result (tune_out P T)) (w : world P) : Prop :=
  forall t sm, (t < length (c_dcols C))%nat -> m_smpls (w_obj w) = Some sm -> exists nm, incl nm (c_learners C) /\
    forall r fs, nth_error sm r = Some fs -> exists res, tn t (Some r) fs = Ok res /\ map fst (to_params res) = nm /\ per_fold (m_n_folds (w_obj w)) res.

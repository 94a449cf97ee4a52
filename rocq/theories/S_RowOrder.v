(** Order of the rows: two fits of the same model on data with rearranged rows. *)
From Verif Require Export S_Units.
From Coq Require Export Permutation.
Local Open Scope R_scope.
Local Open Scope string_scope.

(** Row i of the first data set is row [sg i] of the second. *)
Definition rearrangement (n : nat) (sg : nat -> nat) : Prop := (forall i, (i < n)%nat -> (sg i < n)%nat) /\ forall i j, (i < n)%nat -> (j < n)%nat -> sg i = sg j -> i = j.
Definition moved {A} (n : nat) (sg : nat -> nat) (v v' : nat -> A) : Prop := forall i, (i < n)%nat -> v' (sg i) = v i.
(** The folds consist of the same observations, listed in any order. *)
Definition moved_fold (sg : nat -> nat) (h h' : fold) : Prop := Permutation (map sg (fst h)) (fst h') /\ Permutation (map sg (snd h)) (snd h').
(** Fold k of the first split is fold [pi k] of the second. *)
Definition moved_folds (sg pi : nat -> nat) (fs fs' : list fold) : Prop := length fs' = length fs /\ rearrangement (length fs) pi /\
  forall k h, nth_error fs k = Some h -> exists h', nth_error fs' (pi k) = Some h' /\ moved_fold sg h h'.
(** Repetition r of the first split is repetition [ro r] of the second, with its folds in the order [om r]. *)
Definition moved_split (sg : nat -> nat) (om : nat -> nat -> nat) (ro : nat -> nat) (sm sm' : list (list fold)) : Prop := length sm' = length sm /\ rearrangement (length sm) ro /\
  forall r fs, nth_error sm r = Some fs -> exists fs', nth_error sm' (ro r) = Some fs' /\ moved_folds sg (om r) fs fs'.
(** Parameters of the learners, one entry per fold, in the order of the folds. *)
Definition moved_params {P} (pi : nat -> nat) (o o' : option (list P)) : Prop :=
  match o, o' with None, None => True | Some l, Some l' => forall k, (k < length l)%nat -> nth_error l' (pi k) = nth_error l k | _, _ => False end.

Section Order.
Context {E P : Type} (L : learner E row P) (f : E -> row -> R) (g : E -> row -> list R).
(** The order of the training rows has no influence on predictions. *)
Definition order_free : Prop := forall e data data' m m', Permutation data data' -> ln_fit L e data = Ok m -> ln_fit L e data' = Ok m' ->
  forall v, f m' v = f m v /\ nth_error (g m' v) 1 = nth_error (g m v) 1.
(** The predictions of [name] follow the rows: supplied in both orders, or learned without regard to the order. *)
Definition followed (n : nat) (sg : nat -> nat) (ext ext' : ext_arg) (col name : string) (r r' : nat) : Prop :=
  (forall e, ~ supplied ext col name r e) /\ (forall e, ~ supplied ext' col name r' e) /\ order_free \/
  exists e e', supplied ext col name r e /\ supplied ext' col name r' e' /\ moved n sg e e'.
End Order.
(** The same observations in another order: outcome, treatment variables and covariates; the split moves along,
    possibly with other orders of its folds and repetitions, and so do the parameters. *)
Record rearranged {P} (sg : nat -> nat) (om : nat -> nat -> nat) (ro : nat -> nat) (fr : M_Data.frame) (s : M_Data.ddata) (w : world P) (fr' : M_Data.frame) (s' : M_Data.ddata) (w' : world P) : Prop := {
  ra_order : rearrangement (M_Data.frows fr) sg;
  ra_rows : M_Data.frows fr' = M_Data.frows fr;
  ra_names : M_Data.r_d (M_Data.dd_roles s') = M_Data.r_d (M_Data.dd_roles s);
  ra_y : moved (M_Data.frows fr) sg (outcome fr s) (outcome fr' s');
  ra_d : forall c, In c (M_Data.r_d (M_Data.dd_roles s)) -> moved (M_Data.frows fr) sg (col fr c) (col fr' c) /\ moved (M_Data.frows fr) sg (covariates fr s c) (covariates fr' s' c);
  ra_split : forall sm, m_smpls (w_obj w) = Some sm -> exists sm', m_smpls (w_obj w') = Some sm' /\ moved_split sg om ro sm sm';
  ra_params : forall l c r, moved_params (om r) (nth r (m_params (w_obj w) l c) None) (nth (ro r) (m_params (w_obj w') l c) None) }.
(** Weights that move with the rows. *)
Definition moved_weights (n : nat) (sg ro : nat -> nat) (wa wa' : warg) : Prop :=
  forall r, moved n sg (wg (weights_of wa r)) (wg (weights_of wa' (ro r))) /\ moved n sg (resid_weights (weights_of wa r)) (resid_weights (weights_of wa' (ro r))).
(** Equal estimates and standard errors of treatment t in repetition r of one fit and repetition r' of the other. *)
Definition same_estimates_at (F F' : framework) (t r r' : nat) : Prop :=
  at_ (fw_all_thetas F') [t; r'] = at_ (fw_all_thetas F) [t; r] /\ at_ (fw_all_ses F') [t; r'] = at_ (fw_all_ses F) [t; r].
(** Equal results after the aggregation over the repetitions, wherever those of all repetitions are equal. *)
Definition same_aggregates (F F' : framework) (ro : nat -> nat) (nrep k : nat) : Prop :=
  forall t, (t < k)%nat -> (forall r, (r < nrep)%nat -> same_estimates_at F F' t r (ro r)) ->
    at_ (fw_thetas F') [t] = at_ (fw_thetas F) [t] /\ at_ (fw_ses F') [t] = at_ (fw_ses F) [t].

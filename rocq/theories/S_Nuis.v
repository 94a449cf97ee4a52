(** Specifications for the nuisance estimation of the model classes. *)
From Verif Require Export M_Nuis S_CrossFit S_Scores S_Model.
Local Open Scope R_scope.
Local Open Scope string_scope.

(** Training rows a nuisance function may use in a fold. *)
Definition rows_sel := list nat -> list nat -> Prop.
(** All rows of the train part, as given. *)
Definition whole_train : rows_sel := fun train rows => rows = train.
(** The rows of the train part in a subgroup, in increasing order. *)
Definition group_rows (n : nat) (G : nat -> Prop) : rows_sel := fun train rows =>
  Sorted lt rows /\ forall j, In j rows <-> (j < n)%nat /\ G j /\ In j train.

Section Spec.
Context {E P : Type}.
Variable L : learner E row P.
Variables (f : E -> row -> R) (g : E -> row -> list R).
Variable su : setup E P.

(** The assumptions on learners, schedules and splits. *)
Record setting (smpls : list fold) : Prop := {
  st_row : row_wise L f g;
  st_clone : clone_ok L;
  st_part : partition_of (su_n su) smpls;
  st_range : train_in_range (su_n su) smpls;
  st_sched : forall l, schedule (su_order su l) (length smpls) }.
(** Where a learner predicts probabilities, every label of its target occurs
    among its training rows in every fold. *)
Definition labels_ok (lrn : string) (y : vec) (G : nat -> Prop) (smpls : list fold) : Prop :=
  su_proba su lrn = true -> classifier_ok L g /\
    forall h i, In h smpls -> (i < su_n su)%nat -> exists j, (j < su_n su)%nat /\ G j /\ In j (fst h) /\ y j = y i.

(** Labels are needed only where the function is fitted. *)
Definition fit_ok (name lrn : string) (y : vec) (G : nat -> Prop) (smpls : list fold) : Prop := su_ext su name = None -> labels_ok lrn y G smpls.
Definition everyone : nat -> Prop := fun _ => True.
(** Slope of the instrument residuals: the root of the first-stage moment. *)
Definition slope_of (y d z l r m : vec) (theta : R) : Prop :=
  sumf (su_n su) (fun i => (z i - m i) * (d i - r i)) <> 0 ->
  theta * sumf (su_n su) (fun i => (z i - m i) * (d i - r i)) = sumf (su_n su) (fun i => (z i - m i) * (y i - l i)).

(** [v] is the cross-fitted prediction of target [y] from features [x]: row i is
    predicted by a clone of the learner, with the parameters of row i's fold,
    fitted on the selected training rows of that fold.  Classifiers are fitted
    on the codes of the labels. *)
Definition cross_fitted (name lrn : string) (x : nat -> row) (y : vec) (sel : rows_sel) (smpls : list fold) (v : vec) : Prop :=
  exists c, (if su_proba su lrn then codes (su_n su) y c else c = y) /\
    forall i, (i < su_n su)%nat -> exists k h rows p m, tested_in smpls i k h /\ sel (fst h) rows /\ param_of (su_params su name) k p /\
      fitted L (su_learner su lrn) p (map (fun j => (x j, c j)) rows) m /\
      if su_proba su lrn then nth_error (g m (x i)) 1 = Some (v i) else v i = f m (x i).
(** External predictions replace the fit. *)
Definition nuisance (name lrn : string) (x : nat -> row) (y : vec) (sel : rows_sel) (smpls : list fold) (v : vec) : Prop :=
  match su_ext su name with
  | Some e => forall i, v i = e i
  | None => cross_fitted name lrn x y sel smpls v
  end.
(** Reported predictions. *)
Definition reported (out : nuis_out) (name : string) (v : vec) : Prop := forall i, (i < su_n su)%nat -> no_preds out name i = Some (v i).
(** Propensities after trimming. *)
Definition trimmed (truncate : bool) (thr : R) (m0 m : vec) : Prop :=
  forall i, (i < su_n su)%nat -> m i = if truncate then Rmin (Rmax (m0 i) thr) (1 - thr) else m0 i.
(** The score elements, given by formulas or by a score function. *)
Definition score_is (out : nuis_out) (a b : vec) : Prop := forall i, (i < su_n su)%nat -> no_a out i = a i /\ no_b out i = b i.
Definition scored (out : nuis_out) (e : elems) : Prop := no_a out = el_a e /\ no_b out = el_b e.
(** Reported targets: the outcome of the nuisance function on the rows of its
    subgroup, missing elsewhere. *)
Definition target_on (out : nuis_out) (name : string) (y : vec) (G : nat -> Prop) : Prop :=
  exists t, no_targets out name = Some t /\ forall i, (i < su_n su)%nat -> (G i -> t i = Some (y i)) /\ (~ G i -> t i = None).
(** 0/1 target with a row labelled 0. *)
Definition zero_one (y : vec) : Prop := binary (su_n su) y /\ some_row (su_n su) (fun i => y i = 0).
(** Share of [d] in the train part of the fold that tests the row. *)
Definition share_of (smpls : list fold) (d p : vec) : Prop := forall i k h, tested_in smpls i k h -> p i = Rmean (map d (fst h)).

(** Prediction of a 0/1 variable: the second of two class probabilities, the
    plain prediction of other learners. *)
Definition prob_at (e : E) (v : row) (p : R) : Prop :=
  (length (g e v) = 2%nat -> nth_error (g e v) 1 = Some p) /\ (length (g e v) <> 2%nat -> p = f e v).
(** [e] is learner [lrn] with the parameters of fold [k], fitted on [rows]. *)
Definition fitted_on (name lrn : string) (k : nat) (x : nat -> row) (y : vec) (rows : list nat) (e : E) : Prop :=
  exists p, param_of (su_params su name) k p /\ fitted L (su_learner su lrn) p (map (fun j => (x j, y j)) rows) e.
(** Projected instruments: ml_m predicts the treatment from covariates and
    instruments, ml_r predicts the train predictions of that same model from
    the covariates. *)
Definition projected (x xz : nat -> row) (d : vec) (smpls : list fold) (m mt : vec) : Prop :=
  forall i, (i < su_n su)%nat -> exists k h e e', tested_in smpls i k h /\ fitted_on "ml_m" "ml_m" k xz d (fst h) e /\ m i = f e (xz i) /\
    fitted_on "ml_r" "ml_r" k x (fun j => f e (xz j)) (fst h) e' /\ mt i = f e' (x i).
(** Sample selection with nested cross-fitting: the selection probability is
    fitted on one half of the train part; its predictions are a covariate of the
    other functions, which are fitted on the other half. *)
Definition nested_selection (halves : list nat -> list R -> list nat * list nat) (x zrow : nat -> row) (y d s : vec) (smpls : list fold) (pi m g1 g0 : vec) : Prop :=
  forall i, (i < su_n su)%nat -> exists k h (q : vec) rows1 rows0 ep em e1 e0,
    let A := fst (halves (fst h) (map (fun j => d j + 2 * s j) (fst h))) in
    let B := snd (halves (fst h) (map (fun j => d j + 2 * s j) (fst h))) in
    let xq := fun j => (x j ++ [q j])%list in
    tested_in smpls i k h /\ 
    fitted_on "ml_pi" "ml_pi" k (fun j => x j ++ d j :: zrow j)%list s A ep /\
    (forall j, (j < su_n su)%nat -> prob_at ep (x j ++ d j :: zrow j)%list (q j)) /\ pi i = q i /\
    fitted_on "ml_m" "ml_m" k xq d B em /\ prob_at em (xq i) (m i) /\
    group_rows (su_n su) (fun j => d j = 1 /\ s j = 1) B rows1 /\ fitted_on "ml_g_d1" "ml_g" k xq y rows1 e1 /\ g1 i = f e1 (xq i) /\
    group_rows (su_n su) (fun j => d j = 0 /\ s j = 1) B rows0 /\ fitted_on "ml_g_d0" "ml_g" k xq y rows0 e0 /\ g0 i = f e0 (xq i).
(** Always- and never-takers: fitted only if they may exist. *)
Definition taker_fn (have : bool) (name : string) (x : nat -> row) (d : vec) (G : nat -> Prop) (dflt : R) (smpls : list fold) (r : vec) : Prop :=
  if have then nuisance name "ml_r" x d (group_rows (su_n su) G) smpls r else forall i, (i < su_n su)%nat -> r i = dflt.
(** The labels are their own codes, or no codes are used. *)
Definition plain_labels (lrn : string) (y : vec) : Prop := su_proba su lrn = false \/ zero_one y.
(** ** Own rows *)
(** Vectors that agree except at row i. *)
Definition agree_off (i : nat) (u v : vec) : Prop := forall j, (j < su_n su)%nat -> j <> i -> u j = v j.
(** Train parts avoid their test parts. *)
Definition avoids (smpls : list fold) : Prop := forall h i, In h smpls -> In i (fst h) -> ~ In i (snd h).
(** Fitting conditions for two versions of the data. *)
Definition free_fit (name lrn : string) (y y' : vec) (G G' : nat -> Prop) (smpls : list fold) : Prop :=
  fit_ok name lrn y G smpls /\ fit_ok name lrn y' G' smpls /\ (su_proba su lrn = true -> same_labels (su_n su) y y').
(** scikit-learn's contract for train_test_split: two disjoint parts. *)
Definition halving (halves : list nat -> list R -> list nat * list nat) : Prop := forall rows st,
  (forall j, In j (fst (halves rows st)) -> In j rows) /\ (forall j, In j (snd (halves rows st)) -> In j rows) /\
  forall j, In j (fst (halves rows st)) -> ~ In j (snd (halves rows st)).
End Spec.

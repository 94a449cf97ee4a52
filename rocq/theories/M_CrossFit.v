(** Model of the cross-fitting engine [_dml_cv_predict]
    (doubleml/utils/_estimation.py:46-147) and of the part of scikit-learn's
    cross_val_predict it calls. *)
From Verif Require Export M_Splitting.
Local Open Scope R_scope.
Local Open Scope res_scope.

(** A scikit-learn estimator class as oracles: estimators [E], rows [X],
    parameter dictionaries [P].  Estimators are values: [clone] returns a fresh
    estimator, so fitting one clone cannot change another.  Predicting takes the
    whole batch of rows.  Class labels are the integer codes of LabelEncoder. *)
Record learner (E X P : Type) := {
  ln_clone : E -> E;
  ln_set : E -> P -> result E;
  ln_fit : E -> list (X * R) -> result E;
  ln_predict : E -> list X -> list R;
  ln_proba : E -> list X -> list (list R);
  ln_classes : E -> list nat }.
Arguments ln_clone {E X P}. Arguments ln_set {E X P}. Arguments ln_fit {E X P}.
Arguments ln_predict {E X P}. Arguments ln_proba {E X P}. Arguments ln_classes {E X P}.

Inductive params (P : Type) := NoParams | OneDict (p : P) | FoldDicts (l : list P).
Arguments NoParams {P}. Arguments OneDict {P}. Arguments FoldDicts {P}.
(** y is a vector, or a list with one vector of train targets per fold. *)
Inductive target := YVec (y : nat -> R) | YFolds (l : list (list R)).

(** [LabelEncoder.fit_transform] (and the encoding in cross_val_predict):
    position among the sorted distinct values. *)
Fixpoint runiq (l : list R) : list R :=
  match l with [] => [] | x :: r => if existsb (reqb x) r then runiq r else x :: runiq r end.
Definition labels (n : nat) (y : nat -> R) : list R := rsort (runiq (map y (seq 0 n))).
Fixpoint rindex (x : R) (l : list R) : nat :=
  match l with [] => 0 | y :: r => if reqb x y then 0 else S (rindex x r) end.
Definition encode (n : nat) (y : nat -> R) (i : nat) : R := INR (rindex (y i) (labels n y)).

(** joblib's Parallel: the tasks are executed in some order, results are
    returned in the order of submission; an exception of a task is raised. *)
Fixpoint par_exec {A} (order : list nat) (task : nat -> result A) (slots : nat -> option A) : result (nat -> option A) :=
  match order with
  | [] => Ok slots
  | k :: r => let! v := task k in par_exec r task (fun j => if Nat.eqb j k then Some v else slots j)
  end.
Definition parallel {A} (order : list nat) (n_tasks : nat) (task : nat -> result A) : result (list A) :=
  let! slots := par_exec order task (fun _ => None) in
  map_res (fun k => match slots k with Some v => Ok v | None => Err RuntimeError end) (seq 0 n_tasks).

Definition zf (f : fold) : zfold := (map Z.of_nat (fst f), map Z.of_nat (snd f)).
(** [v[index] = values] for vectors of the same length (wrong lengths, which
    numpy rejects, are not modelled). *)
Definition scatter (ix : list nat) (vals : list R) (v : nat -> option R) : nat -> option R :=
  fold_left (fun w (p : nat * R) => fun j => if Nat.eqb j (fst p) then Some (snd p) else w j) (combine ix vals) v.

(** [p[:, 1]]. *)
Definition col1 (rows : list (list R)) : result (list R) :=
  map_res (fun r => match nth_error r 1 with Some v => Ok v | None => Err IndexError end) rows.

Section CrossFit.
Context {E X P : Type}.
Variable L : learner E X P.

(** [clone(estimator)] with [set_params] (lines 60-66, 94-112). *)
Definition prepare (est : E) (p : option P) : result E :=
  match p with None => Ok (ln_clone L est) | Some p => ln_set L (ln_clone L est) p end.
Definition fold_params (ps : params P) (k : nat) : result (option P) :=
  match ps with
  | NoParams => Ok None
  | OneDict p => Ok (Some p)
  | FoldDicts l => match nth_error l k with Some p => Ok (Some p) | None => Err IndexError end
  end.

(** scikit-learn: [_enforce_prediction_order]: if the train part lacks classes,
    their columns are filled with zeros. *)
Definition enforce_order (n_classes : nat) (classes : list nat) (rows : list (list R)) : list (list R) :=
  if Nat.eqb n_classes (length classes) then rows
  else map (fun r => map (fun c => match find (fun p : nat * R => Nat.eqb (fst p) c) (combine classes r) with
                                   | Some p => snd p | None => 0 end) (seq 0 n_classes)) rows.

(** scikit-learn's cross_val_predict for splits that form a partition (a tested
    index set that is not a permutation raises ValueError there; the caller has
    checked it).  Predictions are concatenated in fold order and reordered by
    the inverse of the concatenated test indices. *)
Fixpoint position (i : nat) (l : list nat) : nat :=
  match l with [] => 0 | j :: r => if Nat.eqb i j then 0 else S (position i r) end.
Definition cross_val_predict (order : list nat) (est : E) (n : nat) (x : nat -> X) (y : nat -> R) (smpls : list fold)
  (proba : bool) : result (list (list R)) :=
  let y' := if proba then encode n y else y in
  let n_classes := length (labels n y) in
  let! per_fold := parallel order (length smpls) (fun k =>
      let f := nth k smpls ([], []) in
      let! m := ln_fit L (ln_clone L est) (map (fun i => (x i, y' i)) (fst f)) in
      Ok (if proba then enforce_order n_classes (ln_classes L m) (ln_proba L m (map x (snd f)))
          else map (fun v => [v]) (ln_predict L m (map x (snd f))))) in
  let all := concat per_fold in
  let test := flat_map snd smpls in
  Ok (map (fun i => nth (position i test) all []) (seq 0 n)).

Record cvres := {
  cv_preds : nat -> option R;
  cv_targets : option (nat -> option R);
  cv_train : option (list (list (list R)) * list (list R));
  cv_models : option (list E) }.

Definition is_list_params (ps : params P) : bool := match ps with FoldDicts _ => true | _ => false end.
Definition is_fold_target (y : target) : bool := match y with YFolds _ => true | _ => false end.

(** Fast path (lines 58-72). *)
Definition cv_fast (order : list nat) (est : E) (n : nat) (x : nat -> X) (y : nat -> R) (smpls : list fold)
  (ps : params P) (proba : bool) : result cvres :=
  let! e := match ps with
            | NoParams => Ok (ln_clone L est)
            | OneDict p => ln_set L (ln_clone L est) p
            | FoldDicts _ => Err AssertionError
            end in
  let! rows := cross_val_predict order e n x y smpls proba in
  let! preds := if proba then col1 rows else Ok (map (fun r => nth 0 r 0) rows) in
  Ok {| cv_preds := fun i => nth_error preds i;
        cv_targets := Some (fun i => if Nat.ltb i n then Some (y i) else None);
        cv_train := None; cv_models := None |}.

(** The y handed to [_fit] in fold k (lines 84-92), restricted to the train rows
    ([y[train_index]], line 42). *)
Definition fold_targets (y : target) (k : nat) (f : fold) : result (list R) :=
  match y with
  | YVec y => Ok (map y (fst f))
  | YFolds l =>
      match nth_error l k with
      | None => Err IndexError
      | Some v => require (Nat.eqb (length v) (length (fst f))) ValueError (Ok v)
      end
  end.

(** The loop over the folds (lines 118-139). *)
Fixpoint fold_loop (k : nat) (smpls : list fold) (models : list E) (x : nat -> X) (y : target) (proba want_train : bool)
  (preds targets : nat -> option R) (tr : list (list (list R))) (tgs : list (list R))
  : result ((nat -> option R) * (nat -> option R) * list (list (list R)) * list (list R)) :=
  match smpls with
  | [] => Ok (preds, targets, tr, tgs)
  | f :: rest =>
      match nth_error models k with
      | None => Err IndexError
      | Some m =>
          let! vals := if proba then col1 (ln_proba L m (map x (snd f))) else Ok (ln_predict L m (map x (snd f))) in
          let preds' := scatter (snd f) vals preds in
          let targets' := match y with YVec v => scatter (snd f) (map v (snd f)) targets | YFolds _ => targets end in
          if want_train then
            match y with
            | YFolds _ => Err TypeError        (* y[train_index] of a list *)
            | YVec v =>
                fold_loop (S k) rest models x y proba want_train preds' targets'
                  (tr ++ [if proba then ln_proba L m (map x (fst f)) else map (fun a => [a]) (ln_predict L m (map x (fst f)))])
                  (tgs ++ [map v (fst f)])
            end
          else fold_loop (S k) rest models x y proba want_train preds' targets' tr tgs
      end
  end.

(** Manual path (lines 73-146).  The fold number returned by [_fit] is not
    modelled; [parallel] keeps the order of submission. *)
Definition cv_manual (order : list nat) (est : E) (n : nat) (x : nat -> X) (y : target) (smpls : list fold)
  (ps : params P) (proba want_train want_models is_part : bool) : result cvres :=
  require (is_part || negb (is_fold_target y)) AssertionError (
  require (is_part || Nat.eqb (length smpls) 1) AssertionError (
  require (negb (proba && is_fold_target y)) AssertionError (
  let y := match y with YVec v => if proba then YVec (encode n v) else YVec v | YFolds l => YFolds l end in
  let! y_list := map_res (fun k => fold_targets y k (nth k smpls ([], []))) (seq 0 (length smpls)) in
  require (match ps with FoldDicts l => Nat.eqb (length l) (length smpls) | _ => true end) AssertionError (
  let! models := parallel order (length smpls) (fun k =>
      let! p := fold_params ps k in
      let! e := prepare est p in
      ln_fit L e (combine (map x (fst (nth k smpls ([], [])))) (nth k y_list []))) in
  let! res := fold_loop 0 smpls models x y proba want_train (fun _ => None) (fun _ => None) [] [] in
  let '(preds, targets, tr, tgs) := res in
  Ok {| cv_preds := preds;
        cv_targets := if is_fold_target y then None else Some targets;
        cv_train := if want_train then Some (tr, tgs) else None;
        cv_models := if want_models then Some models else None |})))).

(** [_dml_cv_predict] (lines 46-147). *)
Definition cv_predict (order : list nat) (est : E) (n : nat) (x : nat -> X) (y : target) (smpls : list fold)
  (ps : params P) (proba want_train want_models : bool) : result cvres :=
  let! is_part := check_is_partition n (map zf smpls) in
  match y with
  | YVec v =>
      if negb (negb is_part || want_train || is_list_params ps || want_models)
      then cv_fast order est n x v smpls ps proba
      else cv_manual order est n x y smpls ps proba want_train want_models is_part
  | YFolds _ => cv_manual order est n x y smpls ps proba want_train want_models is_part
  end.
End CrossFit.
Arguments cvres : clear implicits.

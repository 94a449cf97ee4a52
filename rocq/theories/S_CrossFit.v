(** Specifications for cross-fitting. *)
From Verif Require Export M_CrossFit S_Splitting.
Local Open Scope R_scope.

(** The test sets contain every observation exactly once. *)
Definition partition_of (n : nat) (smpls : list fold) : Prop := Permutation (flat_map snd smpls) (seq 0 n).
(** An execution order of K tasks. *)
Definition schedule (order : list nat) (K : nat) : Prop := Permutation order (seq 0 K).

Section Spec.
Context {E X P : Type}.
Variable L : learner E X P.

(** scikit-learn's contract for clone: an unfitted copy with the same parameters. *)
Definition clone_ok : Prop :=
  (forall e, ln_clone L (ln_clone L e) = ln_clone L e) /\
  (forall e p e', ln_set L (ln_clone L e) p = Ok e' -> ln_clone L e' = e').
(** Predictions are made row by row: [f] for predict, [g] for predict_proba. *)
Definition row_wise (f : E -> X -> R) (g : E -> X -> list R) : Prop :=
  forall e xs, ln_predict L e xs = map (f e) xs /\ ln_proba L e xs = map (g e) xs.
(** A fitted classifier knows the codes of its train data, in increasing order,
    and returns one probability for each of them. *)
Definition classifier_ok (g : E -> X -> list R) : Prop :=
  forall e data m, ln_fit L e data = Ok m ->
    Sorted lt (ln_classes L m) /\ (forall c, In c (ln_classes L m) <-> exists x, In (x, INR c) data) /\
    forall x, length (g m x) = length (ln_classes L m).

(** [m] results from fitting a clone with parameters [p] on [data]. *)
Definition fitted (est : E) (p : option P) (data : list (X * R)) (m : E) : Prop :=
  match p with
  | None => ln_fit L (ln_clone L est) data = Ok m
  | Some q => exists e, ln_set L (ln_clone L est) q = Ok e /\ ln_fit L e data = Ok m
  end.
Definition param_of (ps : params P) (k : nat) (p : option P) : Prop :=
  match ps with NoParams => p = None | OneDict q => p = Some q | FoldDicts l => exists q, nth_error l k = Some q /\ p = Some q end.
(** The train data of a fold. *)
Definition train_rows (x : nat -> X) (y : nat -> R) (f : fold) : list (X * R) := map (fun i => (x i, y i)) (fst f).
Definition train_data (x : nat -> X) (y : target) (k : nat) (f : fold) (data : list (X * R)) : Prop :=
  match y with
  | YVec v => data = train_rows x v f
  | YFolds l => exists v, nth_error l k = Some v /\ length v = length (fst f) /\ data = combine (map x (fst f)) v
  end.
(** Row i is in the test part of fold k, and of no other fold. *)
Definition tested_in (smpls : list fold) (i k : nat) (f : fold) : Prop :=
  nth_error smpls k = Some f /\ In i (snd f) /\ forall k' f', nth_error smpls k' = Some f' -> In i (snd f') -> k' = k.

(** Every label of the data occurs in every train part. *)
Definition labels_in_train (n : nat) (y : nat -> R) (smpls : list fold) : Prop :=
  forall f i, In f smpls -> (i < n)%nat -> exists j, In j (fst f) /\ y j = y i.
Definition same_labels (n : nat) (y y' : nat -> R) : Prop :=
  forall z, (exists i, (i < n)%nat /\ y i = z) <-> (exists i, (i < n)%nat /\ y' i = z).
Definition train_in_range (n : nat) (smpls : list fold) : Prop := forall f i, In f smpls -> In i (fst f) -> (i < n)%nat.
End Spec.
(** Codes of the labels: positions in the increasing list of occurring values. *)
Definition label_list (n : nat) (y : nat -> R) (lab : list R) : Prop :=
  StronglySorted Rlt lab /\ forall z, In z lab <-> exists i, (i < n)%nat /\ y i = z.
Definition codes (n : nat) (y c : nat -> R) : Prop :=
  exists lab, label_list n y lab /\ forall i, (i < n)%nat -> exists p, nth_error lab p = Some (y i) /\ c i = INR p.

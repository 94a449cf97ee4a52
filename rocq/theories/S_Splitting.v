(** Specifications for sample splitting. *)
From Verif Require Export M_Splitting S_Estimation.
From Coq Require Export Permutation Sorted.

(** All rows of a data set with n observations, as the user writes them. *)
Definition all_rows (n : nat) : list Z := map Z.of_nat (seq 0 n).
Definition rows_ok (n : nat) (l : list Z) : Prop := NoDup l /\ forall z, In z l -> (0 <= z < Z.of_nat n)%Z.
Definition apart {A} (a b : list A) : Prop := forall z, In z a -> ~ In z b.

(** The splits a user may write: a tuple, a list of tuples (one repetition), or
    a list of lists of tuples. *)
Definition tup (f : zfold) : pysplit := STup [IxInt (fst f); IxInt (snd f)].
Inductive writes : pysplit -> list (list zfold) -> Prop :=
| w_tuple f : writes (tup f) [[f]]
| w_list fs : writes (SList (map tup fs)) [fs]
| w_nested reps : reps <> [] -> (forall r, In r reps -> r <> []) ->
    writes (SList (map (fun fs => SList (map tup fs)) reps)) reps.

(** Cross-fitting repetition: the test sets contain every row exactly once and
    are apart from their train sets. *)
Definition cross_fit (n : nat) (fs : list zfold) : Prop :=
  fs <> [] /\ Permutation (flat_map snd fs) (all_rows n) /\
  forall f, In f fs -> rows_ok n (fst f) /\ rows_ok n (snd f) /\ apart (fst f) (snd f).
(** The documented no-splitting form: one fold, both parts the full sample. *)
Definition no_split (n : nat) (reps : list (list zfold)) : Prop :=
  exists tr te, reps = [[(tr, te)]] /\ Permutation tr (all_rows n) /\ Permutation te (all_rows n).
Definition is_tuple (s : pysplit) : Prop := exists l, s = STup l.
Definition is_nested (s : pysplit) : Prop := exists l r, s = SList (SList l :: r).

(** Which written splits are fine. *)
Definition good_split (n : nat) (s : pysplit) (reps : list (list zfold)) : Prop :=
  writes s reps /\
  ((~ is_nested s /\ no_split n reps) \/
   (~ is_tuple s /\ (exists k, forall r, In r reps -> length r = k) /\ forall r, In r reps -> cross_fit n r)).
(** What is stored: the same folds with sorted parts. *)
Definition sorted_of (f g : zfold) : Prop :=
  Permutation (fst f) (fst g) /\ Permutation (snd f) (snd g) /\ Sorted Z.le (fst g) /\ Sorted Z.le (snd g).
Definition stored (reps : list (list zfold)) (ck : checked) : Prop :=
  Forall2 (Forall2 sorted_of) reps (ck_smpls ck) /\
  ck_n_rep ck = length reps /\ forall r, In r reps -> ck_n_folds ck = length r.

(** Drawn splits. *)
Definition proper_fold (n : nat) (f : fold) : Prop :=
  Sorted lt (fst f) /\ Sorted lt (snd f) /\ forall i, In i (fst f) <-> i < n /\ ~ In i (snd f).
Definition proper_split (n : nat) (fs : list fold) : Prop :=
  Permutation (flat_map snd fs) (seq 0 n) /\ forall f, In f fs -> proper_fold n f.
Definition balanced (fs : list fold) : Prop :=
  forall f g, In f fs -> In g fs -> length (snd f) <= length (snd g) + 1.
(** Shuffling permutes. *)
Definition shuffles (g : rng) : Prop :=
  (forall r l, Permutation (rng_perm g r l) l) /\ (forall r c l, Permutation (rng_shuffle g r c l) l).
(** Number of observations of label z in an index list. *)
Definition label_count (y : nat -> Z) (z : Z) (l : list nat) : nat := length (filter (fun i => Z.eqb (y i) z) l).
(** Stratified: the test sets' counts of every label differ by at most one. *)
Definition label_balanced (n : nat) (y : nat -> Z) (fs : list fold) : Prop :=
  forall f g i, In f fs -> In g fs -> i < n -> label_count y (y i) (snd f) <= label_count y (y i) (snd g) + 1.

(** Cluster cells: no cluster value of any dimension occurs in both parts. *)
Definition no_shared_cluster (cvars : list (nat -> Z)) (f : fold) : Prop :=
  forall cv i j, In cv cvars -> In i (fst f) -> In j (snd f) -> cv i <> cv j.

(** [parts] splits the cluster values occurring in the data into two. *)
Definition splits_values (n : nat) (cv : nat -> Z) (a b : list Z) : Prop :=
  NoDup (a ++ b) /\ forall z, In z (a ++ b) <-> exists i, i < n /\ cv i = z.
(** A cell: per dimension the cluster values are split in two; test (train) rows
    are the rows all of whose clusters are test (train) clusters. *)
Definition cell_ok (n : nat) (cvars : list (nat -> Z)) (f : fold) (g : cfold) : Prop :=
  Sorted lt (fst f) /\ Sorted lt (snd f) /\ (forall i, In i (fst f ++ snd f) -> i < n) /\
  no_shared_cluster cvars f /\ length (fst g) = length cvars /\ length (snd g) = length cvars /\
  (forall v cv, nth_error cvars v = Some cv -> splits_values n cv (nth v (fst g) []) (nth v (snd g) [])) /\
  (forall i, i < n -> (In i (snd f) <-> forall v cv, nth_error cvars v = Some cv -> In (cv i) (nth v (snd g) []))) /\
  (forall i, i < n -> (In i (fst f) <-> forall v cv, nth_error cvars v = Some cv -> In (cv i) (nth v (fst g) []))).

(** Specification: the sample-splitting arguments of a constructor, with and
    without cluster variables. *)
From Verif Require Export S_Init.
From Coq Require Import Permutation.
Local Open Scope R_scope.

(** The number of different values of a column. *)
Definition distinct_values (n : nat) (v : vec) : nat := length (nodup Req_EM_T (map v (seq 0 n))).
(** The split is drawn over the clusters: at most two cluster columns, and every
    one of them has at least as many different values as there are folds. *)
Definition clustered_split_args (f : M_Data.frame) (cs : list string) (n_folds n_rep draw : pyval) : Prop :=
  is_int n_folds = true /\ (1 <= int_val n_folds)%Z /\ is_int n_rep = true /\ (1 <= int_val n_rep)%Z /\ (length cs <= 2)%nat /\
  exists b, draw = PBool b /\
    (b = true -> forall c, In c cs -> (2 <= Z.to_nat (int_val n_folds) <= distinct_values (M_Data.frows f) (col f c))%nat).
(** The data object decides which of the two applies; strata must be whole
    numbers and are irrelevant for clusters. *)
Definition data_split (f : M_Data.frame) (s : M_Data.ddata) (n_folds n_rep draw : pyval) (strata : option vec) : Prop :=
  match M_Data.r_cl (M_Data.dd_roles s) with
  | None => split_args (M_Data.frows f) n_folds n_rep draw strata /\ (draw = PBool true -> match strata with Some v => whole_numbers (M_Data.frows f) v | None => True end)
  | Some cs => clustered_split_args f cs n_folds n_rep draw
  end.
Definition two_clusters (s : M_Data.ddata) : Prop := match M_Data.r_cl (M_Data.dd_roles s) with None => True | Some cs => (length cs <= 2)%nat end.
(** The split of an object for clustered data: [n_rep] repetitions of [n_folds]
    cells per cluster column; every row is in the test part of exactly one cell;
    no train row has a cluster in common with a test row; the cluster values kept
    beside the cell are those its rows were chosen by. *)
Definition cluster_split_drawn {P} (f : M_Data.frame) (cs : list string) (n_folds n_rep : pyval) (w : world P) : Prop :=
  exists sm sc, m_smpls (w_obj w) = Some sm /\ m_smpls_cluster (w_obj w) = Some sc /\
    length sm = Z.to_nat (int_val n_rep) /\ length sc = Z.to_nat (int_val n_rep) /\
    Forall2 (fun fs gs => length fs = Nat.pow (Z.to_nat (int_val n_folds)) (length cs) /\ Permutation (flat_map snd fs) (seq 0 (M_Data.frows f)) /\
      Forall2 (cell_ok (M_Data.frows f) (map (fun c => value_codes (col f c)) cs)) fs gs /\
      forall h i j c, In h fs -> In i (fst h) -> In j (snd h) -> In c cs -> col f c i <> col f c j) sm sc.

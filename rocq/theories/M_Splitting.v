(** Model of the sample splitting code: doubleml/utils/resampling.py,
    doubleml/utils/_checks.py (54-108, 390-512) and the parts of
    scikit-learn's KFold / StratifiedKFold it relies on. *)
From Verif Require Export M_Estimation.
Local Open Scope res_scope.

(** ** Sorting *)
Fixpoint zins (x : Z) (l : list Z) : list Z :=
  match l with
  | [] => [x]
  | y :: r => if Z.leb x y then x :: l else y :: zins x r
  end.
(** [np.sort] of an integer vector. *)
Fixpoint zsort (l : list Z) : list Z := match l with [] => [] | x :: r => zins x (zsort r) end.
(** [np.unique]: the sorted distinct values. *)
Definition np_unique (l : list Z) : list Z := zsort (zuniq l).
Fixpoint zlist_eqb (a b : list Z) : bool :=
  match a, b with
  | [], [] => true
  | x :: a', y :: b' => Z.eqb x y && zlist_eqb a' b'
  | _, _ => false
  end.

(** ** User-supplied splits *)

(** What a user may put into a train or test slot: something numpy turns into a
    one-dimensional array of integer dtype, or something it turns into an array
    of another dtype (floats, booleans, strings; also the empty Python list,
    which becomes a float array).  Arrays of higher dimension are not modelled. *)
Inductive ixs := IxInt (l : list Z) | IxOther.
(** The argument all_smpls, as far as the isinstance checks look at it. *)
Inductive pysplit :=
| STup (l : list ixs)
| SList (l : list pysplit)
| SOther.
Definition zfold := (list Z * list Z)%type.

Definition zmem_any (a b : list Z) : bool := existsb (fun x => zmem x b) a.
Definition in_range (n : nat) (l : list Z) : bool := forallb (fun z => Z.leb 0 z && Z.ltb z (Z.of_nat n)) l.

(** [_check_smpl_split_tpl] (utils/_checks.py:79-108); the caller guarantees a
    tuple with two elements. *)
Definition check_tpl (n : nat) (check_intersect : bool) (tr te : ixs) : result zfold :=
  match tr, te with
  | IxOther, _ => Err TypeError
  | _, IxOther => Err TypeError
  | IxInt tr, IxInt te =>
      let tr := zsort tr in
      let te := zsort te in
      require (negb (check_intersect && zmem_any tr te)) ValueError (
      require (Nat.eqb (length (zuniq tr)) (length tr)) ValueError (
      require (Nat.eqb (length (zuniq te)) (length te)) ValueError (
      require (in_range n tr) ValueError (
      require (in_range n te) ValueError (
      Ok (tr, te))))))
  end.
(** [tpl[0], tpl[1]] of a tuple of length two. *)
Definition check_tuple (n : nat) (ci : bool) (t : list ixs) : result zfold :=
  match t with
  | [tr; te] => check_tpl n ci tr te
  | _ => Err IndexError
  end.
(** [_check_smpl_split] (72-76) and [_check_all_smpls] (65-69). *)
Definition check_smpl_split (n : nat) (ci : bool) (l : list (list ixs)) : result (list zfold) :=
  map_res (check_tuple n ci) l.
Definition check_all_smpls (n : nat) (ci : bool) (l : list (list (list ixs))) : result (list (list zfold)) :=
  map_res (check_smpl_split n ci) l.
(** Checked folds passed to a second check. *)
Definition as_tuple (f : zfold) : list ixs := [IxInt (fst f); IxInt (snd f)].

(** [_check_is_partition] (54-62).  [np.concatenate] of an empty list raises;
    an index outside [-n, n) raises IndexError, a negative index counts from
    the end. *)
Definition np_index (n : nat) (z : Z) : option nat :=
  if Z.leb 0 z && Z.ltb z (Z.of_nat n) then Some (Z.to_nat z)
  else if Z.leb (- Z.of_nat n) z && Z.ltb z 0 then Some (Z.to_nat (z + Z.of_nat n))
  else None.
Definition check_is_partition (n : nat) (smpls : list zfold) : result bool :=
  match smpls with
  | [] => Err ValueError
  | _ =>
      let test := flat_map snd smpls in
      if negb (Nat.eqb (length test) n) then Ok false
      else
        let! hits := map_res (fun z => match np_index n z with Some i => Ok i | None => Err IndexError end) test in
        Ok (forallb (fun i => existsb (Nat.eqb i) hits) (seq 0 n))
  end.

Definition swap_fold (f : zfold) : zfold := (snd f, fst f).

(** [all([isinstance(tpl, tuple) for tpl in l])] and the contents. *)
Fixpoint as_tuples (l : list pysplit) : option (list (list ixs)) :=
  match l with
  | [] => Some []
  | STup t :: r => match as_tuples r with Some r' => Some (t :: r') | None => None end
  | _ => None
  end.
Fixpoint as_lists (l : list pysplit) : option (list (list pysplit)) :=
  match l with
  | [] => Some []
  | SList t :: r => match as_lists r with Some r' => Some (t :: r') | None => None end
  | _ => None
  end.
Fixpoint all_some {A} (l : list (option A)) : option (list A) :=
  match l with
  | [] => Some []
  | Some x :: r => match all_some r with Some r' => Some (x :: r') | None => None end
  | None :: _ => None
  end.
Definition is_pair (t : list ixs) : bool := Nat.eqb (length t) 2.

Record checked := { ck_smpls : list (list zfold); ck_n_rep : nat; ck_n_folds : nat }.

(** [_check_sample_splitting] (utils/_checks.py:441-505), without the cluster part.
    [&] on Python booleans evaluates both operands. *)
Definition check_sample_splitting (n : nat) (all_smpls : pysplit) : result checked :=
  match all_smpls with
  | STup t =>
      require (is_pair t) ValueError (
      let! f := check_tuple n false t in
      let! p1 := check_is_partition n [f] in
      let! p2 := check_is_partition n [swap_fold f] in
      if p1 && p2 then Ok {| ck_smpls := [[f]]; ck_n_rep := 1; ck_n_folds := 1 |} else Err ValueError)
  | SOther => Err TypeError
  | SList l =>
      match as_tuples l with
      | Some ts =>
          require (forallb is_pair ts) ValueError (
          let! sm := check_smpl_split n false ts in
          let! p := check_is_partition n sm in
          if p then
            let first := nth 0 sm ([], []) in
            let! p1 := check_is_partition n [swap_fold first] in
            if Nat.eqb (length sm) 1 && p1 then Ok {| ck_smpls := [sm]; ck_n_rep := 1; ck_n_folds := 1 |}
            else
              let! sm2 := check_all_smpls n true [map as_tuple sm] in
              Ok {| ck_smpls := sm2; ck_n_rep := 1; ck_n_folds := length sm |}
          else Err ValueError)
      | None =>
          match as_lists l with
          | None => Err ValueError
          | Some ls =>
              match all_some (map as_tuples ls) with
              | None => Err TypeError
              | Some tss =>
                  require (forallb (forallb is_pair) tss) ValueError (
                  let n_folds := length (nth 0 tss []) in
                  require (forallb (fun s => Nat.eqb (length s) n_folds) tss) ValueError (
                  let! sms := check_all_smpls n false tss in
                  let! ps := map_res (check_is_partition n) sms in
                  if forallb (fun b => b) ps then
                    let! sms2 := check_all_smpls n true (map (map as_tuple) sms) in
                    Ok {| ck_smpls := sms2; ck_n_rep := length sms; ck_n_folds := n_folds |}
                  else Err ValueError))
              end
          end
      end
  end.

(** ** Cluster part of the check (utils/_checks.py:406-438) *)

(** [_check_cluster_partitions] (406-412); the two lists are train and test clusters. *)
Definition check_cluster_partition (tr te values : list Z) : bool :=
  let t := tr ++ te in
  Nat.eqb (length t) (length values) && zlist_eqb (zsort t) (zsort values).
(** [_check_cluster_sample_splitting] (415-438).  Note the indices [0][0]:
    the same fold is inspected in every repetition. *)
Definition check_cluster_splitting (n : nat) (cvars : list (nat -> Z)) (asc : option (list (list cfold)))
  (n_rep n_folds : nat) : result (list (list cfold)) :=
  match asc with
  | None => Err ValueError
  | Some asc =>
      require (Nat.eqb (length asc) n_rep) ValueError (
      let! _ := all_ok (fun i_rep =>
        require (Nat.eqb (length (nth i_rep asc [])) n_folds) ValueError (
        all_ok (fun p : nat * (nat -> Z) =>
          let i_cluster := fst p in
          let clusters := np_unique (map (snd p) (seq 0 n)) in
          match asc with
          | (c :: _) :: _ =>
              match nth_error (fst c) i_cluster, nth_error (snd c) i_cluster with
              | Some tr, Some te => require (check_cluster_partition tr te clusters) ValueError (Ok tt)
              | _, _ => Err IndexError
              end
          | _ => Err IndexError
          end) (combine (seq 0 (length cvars)) cvars))) (seq 0 n_rep) in
      Ok asc)
  end.

(** ** Drawn splits *)

(** sklearn KFold: fold sizes (n // k, the first n % k folds one more). *)
Definition fold_sizes (n k : nat) : list nat :=
  map (fun i => n / k + (if Nat.ltb i (n mod k) then 1 else 0)) (seq 0 k).
Fixpoint take_folds (sizes : list nat) (idx : list nat) : list (list nat) :=
  match sizes with
  | [] => []
  | s :: r => firstn s idx :: take_folds r (skipn s idx)
  end.
Definition nmem (i : nat) (l : list nat) : bool := existsb (Nat.eqb i) l.
(** sklearn BaseCrossValidator.split: train = indices[~mask], test = indices[mask]. *)
Definition mask_split (n : nat) (mask : nat -> bool) : fold :=
  (filter (fun i => negb (mask i)) (seq 0 n), filter mask (seq 0 n)).
(** sklearn KFold(n_splits=k, shuffle=True).split; [perm] is the shuffled index
    vector (oracle).  More folds than samples raises ValueError. *)
Definition kfold (n k : nat) (perm : list nat) : result (list fold) :=
  if Nat.leb k 1 then Err ValueError
  else if Nat.ltb n k then Err ValueError
  else Ok (map (fun test => mask_split n (fun i => nmem i test)) (take_folds (fold_sizes n k) perm)).

(** sklearn StratifiedKFold(n_splits=k, shuffle=True)._make_test_folds.
    Classes are numbered in order of first appearance. *)
Fixpoint appearance (l : list Z) (seen : list Z) : list Z :=
  match l with
  | [] => rev seen
  | x :: r => if zmem x seen then appearance r seen else appearance r (x :: seen)
  end.
Fixpoint zindex (x : Z) (l : list Z) : nat :=
  match l with [] => 0 | y :: r => if Z.eqb x y then 0 else S (zindex x r) end.
Definition classes (n : nat) (y : nat -> Z) : list Z := appearance (map y (seq 0 n)) [].
Definition y_encoded (n : nat) (y : nat -> Z) (i : nat) : nat := zindex (y i) (classes n y).
Fixpoint nins (x : nat) (l : list nat) : list nat :=
  match l with
  | [] => [x]
  | y :: r => if Nat.leb x y then x :: l else y :: nins x r
  end.
Fixpoint nsort (l : list nat) : list nat := match l with [] => [] | x :: r => nins x (nsort r) end.
Definition ncount (x : nat) (l : list nat) : nat := length (filter (Nat.eqb x) l).
(** [l[i::k]] for i < k: the entries at positions congruent to i. *)
Definition stride (k i : nat) (l : list nat) : list nat :=
  map (fun p => nth p l 0) (filter (fun p => Nat.eqb (p mod k) i) (seq 0 (length l))).
Definition allocation (n k : nat) (y : nat -> Z) (i c : nat) : nat :=
  ncount c (stride k i (nsort (map (y_encoded n y) (seq 0 n)))).
(** [np.arange(k).repeat(allocation[:, c])]. *)
Definition folds_for_class (n k : nat) (y : nat -> Z) (c : nat) : list nat :=
  flat_map (fun i => repeat i (allocation n k y i c)) (seq 0 k).
(** [test_folds[y_encoded == c] = folds_for_class]: the p-th observation of the
    class gets the p-th entry.  [shuffle c] is the generator's shuffle (oracle). *)
Definition test_fold (n k : nat) (y : nat -> Z) (shuffle : nat -> list nat -> list nat) (j : nat) : nat :=
  let c := y_encoded n y j in
  nth (length (filter (fun j' => Nat.eqb (y_encoded n y j') c) (seq 0 j))) (shuffle c (folds_for_class n k y c)) 0.
Definition stratified_kfold (n k : nat) (y : nat -> Z) (shuffle : nat -> list nat -> list nat) : result (list fold) :=
  if Nat.leb k 1 then Err ValueError
  else if forallb (fun c => Nat.ltb (ncount c (map (y_encoded n y) (seq 0 n))) k) (seq 0 (length (classes n y))) then Err ValueError
  else if Nat.ltb n k then Err ValueError
  else Ok (map (fun i => mask_split n (fun j => Nat.eqb (test_fold n k y shuffle j) i)) (seq 0 k)).

(** Oracles of one repetition of a drawn split. *)
Record rng := { rng_perm : nat -> list nat -> list nat; rng_shuffle : nat -> nat -> list nat -> list nat }.
(** [DoubleMLResampling] (utils/resampling.py:5-28): all repetitions in one list,
    sliced by repetition. *)
Definition resampling (n_folds n_rep n : nat) (stratify : option (nat -> Z)) (g : rng) : result (list (list fold)) :=
  require (Nat.leb 2 n_folds) ValueError (
  let! all := map_res (fun r => match stratify with
                                | None => kfold n n_folds (rng_perm g r (seq 0 n))
                                | Some y => stratified_kfold n n_folds y (rng_shuffle g r)
                                end) (seq 0 n_rep) in
  let flat := concat all in
  Ok (map (fun r => firstn ((r + 1) * n_folds - r * n_folds) (skipn (r * n_folds) flat)) (seq 0 n_rep))).

(** [clusters[train], clusters[test]] (utils/resampling.py:48-53). *)
Definition take_ix (l : list Z) (ix : list nat) : list Z := map (fun i => nth i l 0%Z) ix.
Definition cluster_var_folds (n k : nat) (cv : nat -> Z) (perm : list nat -> list nat) : result (list (list Z * list Z)) :=
  let clusters := np_unique (map cv (seq 0 n)) in
  let! fs := kfold (length clusters) k (perm (seq 0 (length clusters))) in
  Ok (map (fun f : fold => (take_ix clusters (fst f), take_ix clusters (snd f))) fs).
(** Rows of [cart] (57-59) for v variables, in the order of the rows. *)
Fixpoint cart (k v : nat) : list (list nat) :=
  match v with
  | 0 => [[]]
  | S v' => flat_map (fun i => map (cons i) (cart k v')) (seq 0 k)
  end.
(** One cell (60-76): the conjunction over the cluster variables. *)
Definition cell (n : nat) (cvars : list (nat -> Z)) (vf : list (list (list Z * list Z))) (row : list nat) : fold * cfold :=
  let parts := map (fun p : nat * list (list Z * list Z) => nth (fst p) (snd p) ([], [])) (combine row vf) in
  let inside := fun (side : (list Z * list Z) -> list Z) i =>
      forallb (fun p : (nat -> Z) * (list Z * list Z) => zmem (fst p i) (side (snd p))) (combine cvars parts) in
  ((filter (inside fst) (seq 0 n), filter (inside snd) (seq 0 n)), (map fst parts, map snd parts)).
(** [DoubleMLClusterResampling.split_samples] (40-79); [perm r v] is the shuffle
    of repetition r and variable v. *)
Definition cluster_resampling (n_folds n_rep n : nat) (cvars : list (nat -> Z)) (perm : nat -> nat -> list nat -> list nat)
  : result (list (list fold) * list (list cfold)) :=
  let! reps := map_res (fun r =>
      let! vf := map_res (fun p : nat * (nat -> Z) => cluster_var_folds n n_folds (snd p) (perm r (fst p)))
                         (combine (seq 0 (length cvars)) cvars) in
      Ok (map (cell n cvars vf) (cart n_folds (length cvars)))) (seq 0 n_rep) in
  Ok (map (map fst) reps, map (map snd) reps).

(** ** Subgroup samples (utils/_estimation.py:23-38) *)
(** [np.intersect1d(np.where(cond)[0], train)]: sorted distinct common values. *)
Definition intersect_where (n : nat) (cond : nat -> bool) (train : list nat) : list nat :=
  filter (fun i => cond i && nmem i train) (seq 0 n).
Definition cond_smpls (n : nat) (cond : nat -> bool) (smpls : list fold) : list fold :=
  map (fun f : fold => (intersect_where n cond (fst f), snd f)) smpls.
Definition get_cond_smpls (n : nat) (v : nat -> Z) (smpls : list fold) : list fold * list fold :=
  (cond_smpls n (fun i => Z.eqb (v i) 0) smpls, cond_smpls n (fun i => Z.eqb (v i) 1) smpls).
Definition get_cond_smpls_2d (n : nat) (v w : nat -> Z) (smpls : list fold) : list fold * list fold * list fold * list fold :=
  let c := fun a b i => Z.eqb (v i) a && Z.eqb (w i) b in
  (cond_smpls n (c 0%Z 0%Z) smpls, cond_smpls n (c 0%Z 1%Z) smpls, cond_smpls n (c 1%Z 0%Z) smpls, cond_smpls n (c 1%Z 1%Z) smpls).

(** Sums, means, sorting, medians, quantiles, clipping.  Definitions only.
    These model the numpy functions named in the comments on exact reals. *)
From Verif Require Export Base.
Local Open Scope R_scope.

Definition rleb (x y : R) : bool := if Rle_dec x y then true else false.
Definition rltb (x y : R) : bool := if Rlt_dec x y then true else false.
Definition reqb (x y : R) : bool := if Req_EM_T x y then true else false.

(** [np.sum]. *)
Fixpoint Rsum (l : list R) : R :=
  match l with [] => 0 | x :: r => x + Rsum r end.
(** [np.mean]; numpy returns NaN on an empty list, so theorems ask for a non-empty one. *)
Definition Rmean (l : list R) : R := Rsum l / INR (length l).

(** Sum and mean of [f 0, ..., f (n-1)]. *)
Definition sumf (n : nat) (f : nat -> R) : R := Rsum (map f (seq 0 n)).
Definition meanf (n : nat) (f : nat -> R) : R := sumf n f / INR n.

(** [np.sort]. *)
Fixpoint rinsert (x : R) (l : list R) : list R :=
  match l with
  | [] => [x]
  | y :: r => if Rle_dec x y then x :: l else y :: rinsert x r
  end.
Fixpoint rsort (l : list R) : list R :=
  match l with [] => [] | x :: r => rinsert x (rsort r) end.

(** [np.median]: middle element, or the mean of the two middle elements. *)
Definition median (l : list R) : R :=
  let s := rsort l in
  let n := length l in
  if Nat.even n then (nth (n / 2 - 1) s 0 + nth (n / 2) s 0) / 2
  else nth (n / 2) s 0.
(** Median of [f 0, ..., f (n-1)]. *)
Definition medianf (n : nat) (f : nat -> R) : R := median (map f (seq 0 n)).

(** [np.quantile(a, q)] with numpy's default linear interpolation at
    position [q * (n - 1)]. *)
Definition quantile (l : list R) (q : R) : R :=
  let s := rsort l in
  let h := q * INR (length l - 1) in
  let k := Z.to_nat (Int_part h) in
  nth k s 0 + (h - INR k) * (nth (Nat.min (S k) (length l - 1)) s 0 - nth k s 0).

(** [np.amax] of a non-empty list. *)
Definition rmax_list (x : R) (l : list R) : R := fold_left Rmax l x.
Definition maxf (n : nat) (f : nat -> R) : R :=
  match map f (seq 0 n) with [] => 0 | x :: r => rmax_list x r end.

(** [np.clip(x, lo, hi)] = [minimum(maximum(x, lo), hi)]. *)
Definition rclip (lo hi x : R) : R := Rmin (Rmax x lo) hi.

(** [np.sign]. *)
Definition rsign (x : R) : R :=
  if Rlt_dec x 0 then -1 else if Rlt_dec 0 x then 1 else 0.

(** Share of list elements satisfying a boolean predicate ([np.mean] of a mask). *)
Definition rcount {A} (p : A -> bool) (l : list A) : nat := length (filter p l).
Definition rshare {A} (p : A -> bool) (l : list A) : R :=
  INR (rcount p l) / INR (length l).

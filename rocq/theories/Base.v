(** Result type (Python exceptions as values), Python argument values,
    numpy-like arrays.  Definitions only. *)
From Coq Require Export String.
From Coq Require Export Arith ZArith Bool Lia Reals List.
Export ListNotations.

(** ** Exceptions as values *)
Inductive exn :=
| TypeError | ValueError | KeyError | IndexError | NotImplementedError
| AttributeError | AssertionError | RuntimeError | ZeroDivisionError.

Inductive result (A : Type) := Ok (a : A) | Err (e : exn).
Arguments Ok {A} _.
Arguments Err {A} _.

Definition bind {A B} (r : result A) (f : A -> result B) : result B :=
  match r with Ok a => f a | Err e => Err e end.

Declare Scope res_scope.
Delimit Scope res_scope with res.
Notation "'let!' x ':=' r 'in' k" := (bind r (fun x => k))
  (at level 200, x pattern, r at level 100, k at level 200) : res_scope.
(** [require b e k]: [if not b: raise e]. *)
Definition require {A} (b : bool) (e : exn) (k : result A) : result A :=
  if b then k else Err e.

(** [for x in l: check x] where only the exception matters. *)
Fixpoint all_ok {A} (f : A -> result unit) (l : list A) : result unit :=
  match l with
  | [] => Ok tt
  | x :: r => bind (f x) (fun _ => all_ok f r)
  end.

(** [[f x for x in l]] where [f] may raise. *)
Fixpoint map_res {A B} (f : A -> result B) (l : list A) : result (list B) :=
  match l with
  | [] => Ok []
  | x :: r => bind (f x) (fun y => bind (map_res f r) (fun ys => Ok (y :: ys)))
  end.

Definition is_ok {A} (r : result A) : bool :=
  match r with Ok _ => true | Err _ => false end.

(** A dictionary entry: key missing, present with a value of the wrong type,
    or present with a proper value. *)
Inductive entry (A : Type) := Absent | Wrong | Val (a : A).
Arguments Absent {A}.
Arguments Wrong {A}.
Arguments Val {A} _.

Definition present {A} (e : entry A) : bool :=
  match e with Absent => false | _ => true end.

(** ** numpy arrays: a shape and an index function.
    Entries outside the shape are meaningless; theorems only speak about
    indices inside the shape. *)
Record nd := mk_nd { shape : list nat; at_ : list nat -> R }.

Fixpoint shape_eqb (a b : list nat) : bool :=
  match a, b with
  | [], [] => true
  | x :: a', y :: b' => Nat.eqb x y && shape_eqb a' b'
  | _, _ => false
  end.

(** [idx] is a valid index of an array of shape [s]. *)
Fixpoint in_shape (idx s : list nat) : Prop :=
  match idx, s with
  | [], [] => True
  | i :: idx', n :: s' => i < n /\ in_shape idx' s'
  | _, _ => False
  end.

(** Equality of arrays as observed through indexing. *)
Definition nd_eq (a b : nd) : Prop :=
  shape a = shape b /\ forall idx, in_shape idx (shape a) -> at_ a idx = at_ b idx.

Definition nd_map (f : R -> R) (a : nd) : nd :=
  mk_nd (shape a) (fun i => f (at_ a i)).
(** Elementwise binary operation; only used on arrays of equal shape. *)
Definition nd_map2 (f : R -> R -> R) (a b : nd) : nd :=
  mk_nd (shape a) (fun i => f (at_ a i) (at_ b i)).

Definition dim (k : nat) (a : nd) : nat := nth k (shape a) 0.

(** All valid indices of a shape (row-major), used for [np.any]/[np.all]. *)
Fixpoint indices (s : list nat) : list (list nat) :=
  match s with
  | [] => [[]]
  | n :: s' => flat_map (fun i => map (cons i) (indices s')) (seq 0 n)
  end.

(** [np.concatenate([a, b], axis=ax)] for arrays agreeing on the other axes. *)
Fixpoint set_nth {A} (k : nat) (x : A) (l : list A) : list A :=
  match l, k with
  | [], _ => []
  | _ :: r, 0 => x :: r
  | y :: r, S k' => y :: set_nth k' x r
  end.
Definition nd_concat2 (ax : nat) (a b : nd) : nd :=
  mk_nd (set_nth ax (dim ax a + dim ax b) (shape a))
        (fun i => let j := nth ax i 0 in
                  if Nat.ltb j (dim ax a) then at_ a i
                  else at_ b (set_nth ax (j - dim ax a) i)).
(** [np.concatenate] of a non-empty list, left to right. *)
Definition nd_concat (ax : nat) (a : nd) (l : list nd) : nd :=
  fold_left (nd_concat2 ax) l a.

(** ** Python argument values, as far as the argument checks distinguish them.
    [isinstance(True, int)] holds in Python, hence [PBool] counts as int. *)
Inductive pyval :=
| PFloat (x : R)
| PInt (z : Z)
| PBool (b : bool)
| PStr (s : string)
| PNone
| PArr (a : nd)
| POther.

Definition is_float (v : pyval) : bool := match v with PFloat _ => true | _ => false end.
Definition is_bool (v : pyval) : bool := match v with PBool _ => true | _ => false end.
Definition is_int (v : pyval) : bool :=
  match v with PInt _ | PBool _ => true | _ => false end.
Definition is_str (v : pyval) : bool := match v with PStr _ => true | _ => false end.
Definition int_val (v : pyval) : Z :=
  match v with PInt z => z | PBool true => 1%Z | _ => 0%Z end.

(** Arrays of one, two and three dimensions given by an index function. *)
Definition mk1 (n : nat) (f : nat -> R) : nd := mk_nd [n] (fun i => f (nth 0 i 0)).
Definition mk2 (n m : nat) (f : nat -> nat -> R) : nd :=
  mk_nd [n; m] (fun i => f (nth 0 i 0) (nth 1 i 0)).
Definition mk3 (n m k : nat) (f : nat -> nat -> nat -> R) : nd :=
  mk_nd [n; m; k] (fun i => f (nth 0 i 0) (nth 1 i 0) (nth 2 i 0)).

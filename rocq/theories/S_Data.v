(** Specification for the data containers (C30-C35, C68), stated on the
    attributes of a data object. *)
From Verif Require Import Base M_Data.
Open Scope string_scope.
Open Scope list_scope.

(** All columns that have a role, role by role. *)
Definition role_columns (r : roles) : list string :=
  [r_y r] ++ r_d r ++ r_x r ++ optl (r_z r) ++ opt1 (r_t r) ++ opt1 (r_s r) ++ optl (r_cl r).
(** No column has two roles or the same role twice, and all are data columns. *)
Definition well_formed (f : frame) (r : roles) : Prop :=
  NoDup (role_columns r) /\ incl (role_columns r) (fcols f).
(** Each role on its own: no repetition, data columns only. *)
Definition each_role (f : frame) (r : roles) : Prop :=
  forall l, In l [[r_y r]; r_d r; r_x r; optl (r_z r); opt1 (r_t r); opt1 (r_s r); optl (r_cl r)] ->
    NoDup l /\ incl l (fcols f).

(** The object was built by the constructor. *)
Definition constructed (f : frame) (s : ddata) : Prop :=
  exists cl y d x z t v other fo, construct f cl y d x z t v other fo = Ok s.
(** … and afterwards all assignments succeeded. *)
Inductive reachable (f : frame) : ddata -> Prop :=
| R_new s : constructed f s -> reachable f s
| R_set s o s' : reachable f s -> assign f s o = (s', None) -> reachable f s'.

(** An assignment to one of the role attributes. *)
Definition sets_role (o : op) : bool :=
  match o with SetY _ | SetD _ | SetX _ | SetZ _ | SetT _ | SetS _ | SetCluster _ => true | _ => false end.

(** The arrays y, z, t, s, d and cluster_vars hold the columns named by the roles. *)
Definition arrays_current (s : ddata) : Prop :=
  let r := dd_roles s in
  c_y s = r_y r /\ c_z s = r_z r /\ c_t s = r_t r /\ c_s s = r_s r /\ c_cl s = r_cl r /\
  In (c_d s) (r_d r).

(** Features for the active treatment [d]: the covariates, then the other
    treatments in their order when they are to be used. *)
Definition features (r : roles) (other : bool) (d : string) : list string :=
  r_x r ++ (if other then filter (fun c => negb (String.eqb d c)) (r_d r) else []).

(** The assignment of the old value of the attribute that [o] assigns. *)
Definition undo (s : ddata) (o : op) : op :=
  let r := dd_roles s in
  match o with
  | SetY _ => SetY (CStr (r_y r)) | SetD _ => SetD (CList (r_d r)) | SetX _ => SetX (CList (r_x r))
  | SetZ _ => SetZ (olist (r_z r)) | SetT _ => SetT (ostr (r_t r)) | SetS _ => SetS (ostr (r_s r))
  | SetCluster _ => SetCluster (olist (r_cl r))
  | _ => o
  end.

(** The argument itself is unusable: wrong type, repeated names, or a name that
    is no data column. *)
Definition names_of (v : carg) : list string :=
  match v with CStr c => [c] | CList l => l | _ => [] end.
Definition good_names (f : frame) (v : carg) : Prop := NoDup (names_of v) /\ incl (names_of v) (fcols f).
Definition is_str (v : carg) : Prop := exists c, v = CStr c.
Definition acceptable (f : frame) (o : op) : Prop :=
  match o with
  | SetY v => is_str v /\ good_names f v
  | SetT v | SetS v => (v = CNone \/ is_str v) /\ good_names f v
  | SetD v | SetCluster v => (is_str v \/ exists l, v = CList l) /\ good_names f v
  | SetX v | SetZ v => (v = CNone \/ is_str v \/ exists l, v = CList l) /\ good_names f v
  | SetOther v => exists b, v = FBool b
  | SetForce v => (exists b, v = FBool b) \/ v = FStr "allow-nan"
  | SetXD v => is_str v
  end.

(** All cells of a column are 0 or 1. *)
Definition zero_one_column (f : frame) (c : string) : Prop :=
  forall i, (i < frows f)%nat -> fcell f c i = Num 0 \/ fcell f c i = Num 1.

(** Column [c] of the frame is column [j] of the array. *)
Definition column_is (f : frame) (c : string) (a : arr) (j : nat) : Prop :=
  forall i, (i < frows f)%nat -> fcell f c i = a_at a i j.
Definition columns_are (f : frame) (l : list string) (a : arr) : Prop :=
  length l = a_cols a /\ forall j c, nth_error l j = Some c -> column_is f c a j.

(** Arrays that fit together. *)
Definition all_cells (p : cell -> Prop) (a : arr) : Prop :=
  forall i j, (i < a_rows a)%nat -> (j < a_cols a)%nat -> p (a_at a i j).
Definition number (c : cell) : Prop := exists r, c = Num r.
Definition matrix (n : nat) (a : arr) : Prop :=
  a_rows a = n /\ (1 <= a_cols a)%nat /\ all_cells number a.
Definition vector (n : nat) (a : arr) : Prop :=
  a_rows a = n /\ a_cols a = 1%nat /\ all_cells number a.
Definition opt_is (p : arr -> Prop) (o : option arr) : Prop :=
  match o with Some a => p a | None => True end.
Definition allowed (fo : force) (c : cell) : Prop :=
  match fo with Strict => number c | AllowNan => c <> Infin | Loose => True end.
Definition fits (fo : force) (x y d : arr) (z t v : option arr) : Prop :=
  let n := a_rows x in
  (1 <= n)%nat /\ (1 <= a_cols x)%nat /\ all_cells (allowed fo) x /\
  vector n y /\ matrix n d /\ opt_is (matrix n) z /\ opt_is (vector n) t /\ opt_is (vector n) v.

(** Entries of the frame that must be numbers. *)
Definition number_column (f : frame) (c : string) : Prop :=
  forall i, (i < frows f)%nat -> number (fcell f c i).
Definition allowed_column (fo : force) (f : frame) (c : string) : Prop :=
  forall i, (i < frows f)%nat -> allowed fo (fcell f c i).
(** What the constructor needs: roles that are well formed, at least one
    treatment, numbers wherever numbers are required. *)
Definition usable (f : frame) (r : roles) (fo : force) : Prop :=
  NoDup (fcols f) /\ well_formed f r /\ r_d r <> [] /\
  (forall c, In c ([r_y r] ++ r_d r ++ optl (r_z r) ++ opt1 (r_t r) ++ opt1 (r_s r) ++ optl (r_cl r)) ->
     number_column f c) /\
  (forall c, In c (r_x r) -> allowed_column fo f c).
Definition farg_of (fo : force) : farg :=
  match fo with Strict => FBool true | Loose => FBool false | AllowNan => FStr "allow-nan" end.
(** binary_treats and binary_outcome agree with the data. *)
Definition binary_current (f : frame) (s : ddata) : Prop :=
  (dd_by s = true <-> zero_one_column f (r_y (dd_roles s))) /\
  map fst (dd_bt s) = r_d (dd_roles s) /\
  (forall c b, In (c, b) (dd_bt s) -> (b = true <-> zero_one_column f c)).
Definition sets_y_or_d (o : op) : bool := match o with SetY _ | SetD _ => true | _ => false end.

(** The roles name columns that carry the given arrays, and no instrument, time
    or selection variable appears that was not given. *)
Definition pieces (f : frame) (s : ddata) (x y d : arr) (z t v : option arr) : Prop :=
  let r := dd_roles s in
  columns_are f (r_x r) x /\ columns_are f [r_y r] y /\ columns_are f (r_d r) d /\
  match z with Some z => exists l, r_z r = Some l /\ columns_are f l z | None => r_z r = None end /\
  match t with Some t => exists c, r_t r = Some c /\ columns_are f [c] t | None => r_t r = None end /\
  match v with Some v => exists c, r_s r = Some c /\ columns_are f [c] v | None => r_s r = None end.

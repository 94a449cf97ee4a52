(** Model of the data containers: doubleml/double_ml_data.py
    (DoubleMLBaseData, DoubleMLData, DoubleMLClusterData).

    Simplifications.
    - A data frame is a list of column names, a number of rows and a cell for
      each name and row; column names are strings (pandas also allows other
      hashable labels).
    - The cached series [_y], [_z], [_t], [_s], [_d], [_X], [_cluster_vars] are
      copies of columns of [data]; they are represented by the names of the
      columns they were copied from.  In-place changes of the data frame made
      by the caller after construction are not modelled.
    - Elements of list arguments are strings.  Messages of exceptions are
      dropped, their types kept.
    - A failing assignment leaves the attributes written before the failure in
      place, as in Python: an assignment returns the new state and the
      exception, if any. *)
From Verif Require Import Base.
From Coq Require Import DecimalString.
Open Scope string_scope.
Open Scope list_scope.

(** ** Data frames *)
Inductive cell := Num (r : R) | NaN | Infin.
(* sklearn assert_all_finite: neither nan nor infinity *)
Definition finite (c : cell) : bool := match c with Num _ => true | _ => false end.
(* assert_all_finite(…, allow_nan=True) *)
Definition not_infinite (c : cell) : bool := match c with Infin => false | _ => true end.
(* np.power(v, 2) - v == 0, double_ml_data.py:669,676 *)
Definition zero_one (c : cell) : bool :=
  match c with Num r => if Req_EM_T (r * r - r)%R 0%R then true else false | _ => false end.

Record frame := mk_frame { fcols : list string; frows : nat; fcell : string -> nat -> cell }.

Definition col_all (f : frame) (p : cell -> bool) (c : string) : bool :=
  forallb (fun i => p (fcell f c i)) (seq 0 (frows f)).

Definition mem (c : string) (l : list string) : bool := existsb (String.eqb c) l.
(* len(set(value)) == len(value) *)
Fixpoint distinct (l : list string) : bool :=
  match l with [] => true | x :: r => negb (mem x r) && distinct r end.
(* set.issubset, set.isdisjoint *)
Definition subset (a b : list string) : bool := forallb (fun c => mem c b) a.
Definition disjoint (a b : list string) : bool := forallb (fun c => negb (mem c b)) a.

(** ** Arguments as Python values *)
(* None, a str, a list of str, or an object of another type *)
Inductive carg := CNone | CStr (s : string) | CList (l : list string) | COther.
(* a bool, a str, or an object of another type *)
Inductive farg := FBool (b : bool) | FStr (s : string) | FOther.
(* force_all_x_finite: True, False, 'allow-nan' *)
Inductive force := Strict | Loose | AllowNan.

(** ** State of a data object *)
(* y_col, d_cols, x_cols, z_cols, t_col, s_col (double_ml_data.py:411-575) and
   cluster_cols (:967-990), [None] for an object that is no cluster data *)
Record roles := mk_roles {
  r_y : string; r_d : list string; r_x : list string;
  r_z : option (list string); r_t : option string; r_s : option string;
  r_cl : option (list string) }.

Record ddata := mk_dd {
  dd_roles : roles;
  dd_other : bool;                     (* use_other_treat_as_covariate *)
  dd_force : force;                    (* force_all_x_finite *)
  dd_bt : list (string * bool);        (* binary_treats *)
  dd_by : bool;                        (* binary_outcome *)
  c_y : string;                        (* column behind y *)
  c_z : option (list string);          (* columns behind z *)
  c_t : option string; c_s : option string;
  c_d : string;                        (* column behind d: the active treatment *)
  c_x : list string;                   (* columns behind x: the features *)
  c_cl : option (list string) }.       (* columns behind cluster_vars *)

Definition with_roles (s : ddata) (r : roles) : ddata :=
  mk_dd r (dd_other s) (dd_force s) (dd_bt s) (dd_by s)
        (c_y s) (c_z s) (c_t s) (c_s s) (c_d s) (c_x s) (c_cl s).
Definition with_flags (s : ddata) (o : bool) (f : force) : ddata :=
  mk_dd (dd_roles s) o f (dd_bt s) (dd_by s)
        (c_y s) (c_z s) (c_t s) (c_s s) (c_d s) (c_x s) (c_cl s).
Definition with_y (s : ddata) (y : string) : ddata :=
  mk_dd (dd_roles s) (dd_other s) (dd_force s) (dd_bt s) (dd_by s)
        y (c_z s) (c_t s) (c_s s) (c_d s) (c_x s) (c_cl s).
Definition with_z (s : ddata) (z : option (list string)) : ddata :=
  mk_dd (dd_roles s) (dd_other s) (dd_force s) (dd_bt s) (dd_by s)
        (c_y s) z (c_t s) (c_s s) (c_d s) (c_x s) (c_cl s).
Definition with_t (s : ddata) (t : option string) : ddata :=
  mk_dd (dd_roles s) (dd_other s) (dd_force s) (dd_bt s) (dd_by s)
        (c_y s) (c_z s) t (c_s s) (c_d s) (c_x s) (c_cl s).
Definition with_s (s : ddata) (v : option string) : ddata :=
  mk_dd (dd_roles s) (dd_other s) (dd_force s) (dd_bt s) (dd_by s)
        (c_y s) (c_z s) (c_t s) v (c_d s) (c_x s) (c_cl s).
Definition with_xd (s : ddata) (d : string) (x : list string) : ddata :=
  mk_dd (dd_roles s) (dd_other s) (dd_force s) (dd_bt s) (dd_by s)
        (c_y s) (c_z s) (c_t s) (c_s s) d x (c_cl s).
Definition with_cl (s : ddata) (c : option (list string)) : ddata :=
  mk_dd (dd_roles s) (dd_other s) (dd_force s) (dd_bt s) (dd_by s)
        (c_y s) (c_z s) (c_t s) (c_s s) (c_d s) (c_x s) c.

Definition set_ry (r : roles) y := mk_roles y (r_d r) (r_x r) (r_z r) (r_t r) (r_s r) (r_cl r).
Definition set_rd (r : roles) d := mk_roles (r_y r) d (r_x r) (r_z r) (r_t r) (r_s r) (r_cl r).
Definition set_rx (r : roles) x := mk_roles (r_y r) (r_d r) x (r_z r) (r_t r) (r_s r) (r_cl r).
Definition set_rz (r : roles) z := mk_roles (r_y r) (r_d r) (r_x r) z (r_t r) (r_s r) (r_cl r).
Definition set_rt (r : roles) t := mk_roles (r_y r) (r_d r) (r_x r) (r_z r) t (r_s r) (r_cl r).
Definition set_rs (r : roles) v := mk_roles (r_y r) (r_d r) (r_x r) (r_z r) (r_t r) v (r_cl r).
Definition set_rcl (r : roles) c := mk_roles (r_y r) (r_d r) (r_x r) (r_z r) (r_t r) (r_s r) c.

(** ** Argument checks *)
(* the checks of d_cols (:455-466), of a given x_cols (:418-432), of a given
   z_cols (:503-518) and of cluster_cols (:974-986) *)
Definition list_arg (f : frame) (v : carg) : result (list string) :=
  match (match v with CStr s => Some [s] | CList l => Some l | _ => None end) with
  | None => Err TypeError
  | Some l =>
      require (distinct l) ValueError (
      require (subset l (fcols f)) ValueError (Ok l))
  end.
(* y_col :482-489, a given t_col :536-543, a given s_col :561-568 *)
Definition one_arg (f : frame) (v : carg) : result string :=
  match v with
  | CStr s => require (mem s (fcols f)) ValueError (Ok s)
  | _ => Err TypeError
  end.
Definition opt_list_arg (f : frame) (v : carg) : result (option (list string)) :=
  match v with CNone => Ok None | _ => bind (list_arg f v) (fun l => Ok (Some l)) end.
Definition opt_one_arg (f : frame) (v : carg) : result (option string) :=
  match v with CNone => Ok None | _ => bind (one_arg f v) (fun l => Ok (Some l)) end.
(* use_other_treat_as_covariate :585-588 *)
Definition bool_arg (v : farg) : result bool :=
  match v with FBool b => Ok b | _ => Err TypeError end.
(* force_all_x_finite :602-609 (and from_arrays :247-256) *)
Definition force_arg (v : farg) : result force :=
  match v with
  | FBool true => Ok Strict
  | FBool false => Ok Loose
  | FStr s => require (String.eqb s "allow-nan") ValueError (Ok AllowNan)
  | FOther => Err TypeError
  end.

Definition opt1 (o : option string) : list string := match o with Some c => [c] | None => [] end.
Definition optl (o : option (list string)) : list string := match o with Some l => l | None => [] end.

(* x_cols is None: :433-440 and, with cluster_cols, :1011-1041 *)
Definition default_x (f : frame) (r : roles) : list string :=
  let excluded := [r_y r] ++ r_d r ++ optl (r_z r) ++ opt1 (r_t r) ++ opt1 (r_s r) ++ optl (r_cl r) in
  filter (fun c => negb (mem c excluded)) (fcols f).
Definition x_arg (f : frame) (r : roles) (v : carg) : result (list string) :=
  match v with CNone => Ok (default_x f r) | _ => list_arg f v end.

(** ** Disjointness of the roles *)
(* _check_disjoint_sets_y_d_x_z_t_s :684-719 and _check_disjoint_sets_t_s :721-771 *)
Definition disjoint_base (r : roles) : bool :=
  disjoint [r_y r] (r_x r)
  && disjoint [r_y r] (r_d r)
  && disjoint (r_d r) (r_x r)
  && (match r_z r with
      | None => true
      | Some z => disjoint [r_y r] z && disjoint (r_d r) z && disjoint (r_x r) z
      end)
  && (match r_t r with
      | None => true
      | Some t => disjoint [t] (r_x r) && disjoint [t] (r_d r) && disjoint [t] [r_y r]
                  && match r_z r with None => true | Some z => disjoint [t] z end
      end)
  && (match r_s r with
      | None => true
      | Some v => disjoint [v] (r_x r) && disjoint [v] (r_d r) && disjoint [v] [r_y r]
                  && match r_z r with None => true | Some z => disjoint [v] z end
                  && match r_t r with None => true | Some t => disjoint [v] [t] end
      end).
(* _check_disjoint_sets_cluster_cols :1048-1091 *)
Definition disjoint_cluster (r : roles) : bool :=
  match r_cl r with
  | None => true
  | Some cl =>
      disjoint [r_y r] cl && disjoint (r_d r) cl && disjoint (r_x r) cl
      && match r_z r with None => true | Some z => disjoint z cl end
      && match r_t r with None => true | Some t => disjoint [t] cl end
      && match r_s r with None => true | Some v => disjoint [v] cl end
  end.
(* _check_disjoint_sets :680-682 and its extension :1043-1046 *)
Definition disjoint_roles (r : roles) : bool := disjoint_base r && disjoint_cluster r.

(** ** Statements with state and exception *)
Definition out := (ddata * option exn)%type.
Definition next (o : out) (k : ddata -> out) : out :=
  match o with (s, None) => k s | (s, Some e) => (s, Some e) end.
Definition assert_ (b : bool) (e : exn) (s : ddata) : out := (s, if b then None else Some e).
(* a check on the argument of an assignment, before anything is written *)
Definition arg {A} (s : ddata) (r : result A) (k : A -> out) : out :=
  match r with Ok a => k a | Err e => (s, Some e) end.

(* _set_y_z_t_s :615-634 *)
Definition set_yzts (f : frame) (s : ddata) : out :=
  let r := dd_roles s in
  next (assert_ (col_all f finite (r_y r)) ValueError s) (fun s =>
  next (with_y s (r_y r), None) (fun s =>
  next (match r_z r with
        | None => (with_z s None, None)
        | Some z => next (assert_ (forallb (col_all f finite) z) ValueError s) (fun s => (with_z s (Some z), None))
        end) (fun s =>
  next (match r_t r with
        | None => (with_t s None, None)
        | Some t => next (assert_ (col_all f finite t) ValueError s) (fun s => (with_t s (Some t), None))
        end) (fun s =>
  match r_s r with
  | None => (with_s s None, None)
  | Some v => next (assert_ (col_all f finite v) ValueError s) (fun s => (with_s s (Some v), None))
  end)))).

(* list.remove: the first occurrence *)
Fixpoint remove1 (c : string) (l : list string) : list string :=
  match l with [] => [] | x :: r => if String.eqb c x then r else x :: remove1 c r end.

(* xd_list in set_x_d :649-655 *)
Definition xd_list (s : ddata) (d : string) : list string :=
  if dd_other s then remove1 d (r_x (dd_roles s) ++ r_d (dd_roles s)) else r_x (dd_roles s).
(* the check of the features :657-658 *)
Definition x_finite (f : frame) (fo : force) (l : list string) : bool :=
  match fo with
  | Strict => forallb (col_all f finite) l
  | AllowNan => forallb (col_all f not_infinite) l
  | Loose => true
  end.
(* set_x_d :636-662 with a str argument *)
Definition set_xd (f : frame) (s : ddata) (d : string) : out :=
  next (assert_ (mem d (r_d (dd_roles s))) ValueError s) (fun s =>
  next (assert_ (col_all f finite d) ValueError s) (fun s =>
  next (assert_ (x_finite f (dd_force s) (xd_list s d)) ValueError s) (fun s =>
  (with_xd s d (xd_list s d), None)))).
(* set_x_d(self.d_cols[0]) *)
Definition set_xd0 (f : frame) (s : ddata) : out :=
  match r_d (dd_roles s) with [] => (s, Some IndexError) | d :: _ => set_xd f s d end.
(* _set_cluster_vars :1093-1095 *)
Definition set_cl (f : frame) (s : ddata) : out :=
  let cl := optl (r_cl (dd_roles s)) in
  next (assert_ (forallb (col_all f finite) cl) ValueError s) (fun s => (with_cl s (Some cl), None)).
Definition check_disjoint (s : ddata) : out := assert_ (disjoint_roles (dd_roles s)) ValueError s.

(** ** Assignments to the attributes of an existing object *)
Inductive op :=
| SetY (v : carg) | SetD (v : carg) | SetX (v : carg) | SetZ (v : carg)
| SetT (v : carg) | SetS (v : carg) | SetCluster (v : carg)
| SetOther (v : farg) | SetForce (v : farg)
| SetXD (v : carg).

Definition assign (f : frame) (s : ddata) (o : op) : out :=
  let r := dd_roles s in
  match o with
  (* y_col :481-493 *)
  | SetY v => arg s (one_arg f v) (fun y =>
      next (check_disjoint (with_roles s (set_ry r y))) (set_yzts f))
  (* d_cols :454-471 *)
  | SetD v => arg s (list_arg f v) (fun d =>
      next (check_disjoint (with_roles s (set_rd r d))) (set_xd0 f))
  (* x_cols :417-444, :1006-1041 *)
  | SetX v => arg s (x_arg f r v) (fun x =>
      next (check_disjoint (with_roles s (set_rx r x))) (set_xd0 f))
  (* z_cols :502-524 *)
  | SetZ v => arg s (opt_list_arg f v) (fun z =>
      next (check_disjoint (with_roles s (set_rz r z))) (set_yzts f))
  (* t_col :533-550 *)
  | SetT v => arg s (opt_one_arg f v) (fun t =>
      next (check_disjoint (with_roles s (set_rt r t))) (set_yzts f))
  (* s_col :558-575 *)
  | SetS v => arg s (opt_one_arg f v) (fun t =>
      next (check_disjoint (with_roles s (set_rs r t))) (set_yzts f))
  (* cluster_cols :973-990; on an object that is no cluster data Python only
     adds an unused attribute *)
  | SetCluster v =>
      match r_cl r with
      | None => (s, None)
      | Some _ => arg s (list_arg f v) (fun c =>
          next (check_disjoint (with_roles s (set_rcl r (Some c)))) (set_cl f))
      end
  (* use_other_treat_as_covariate :583-592 *)
  | SetOther v => arg s (bool_arg v) (fun b => set_xd0 f (with_flags s b (dd_force s)))
  (* force_all_x_finite :600-613 *)
  | SetForce v => arg s (force_arg v) (fun fo => set_xd0 f (with_flags s (dd_other s) fo))
  (* set_x_d :636-662 *)
  | SetXD v => match v with CStr d => set_xd f s d | _ => (s, Some TypeError) end
  end.

(** [self._x_cols = value] (:432) keeps the caller's list object: when the caller
    later changes that list in place to [l], no setter runs. *)
Definition caller_changes_x (s : ddata) (l : list string) : ddata :=
  with_roles s (set_rx (dd_roles s) l).

(** A history of assignments; the caller may catch the exceptions. *)
Fixpoint assigns (f : frame) (s : ddata) (l : list op) : ddata * list (option exn) :=
  match l with
  | [] => (s, [])
  | o :: r => let '(s1, e) := assign f s o in
              let '(s2, es) := assigns f s1 r in (s2, e :: es)
  end.

(** ** Constructors *)
(* _check_binary_treats :664-671 and _check_binary_outcome :673-678;
   sklearn's type_of_target raises ValueError for a column with nan or infinity
   and returns "binary" for every column of zeros and ones *)
Definition binary_col (f : frame) (c : string) : bool := col_all f zero_one c.
Definition check_binary (f : frame) (l : list string) : result (list (string * bool)) :=
  require (forallb (col_all f finite) l) ValueError (Ok (map (fun c => (c, binary_col f c)) l)).

Definition lift (o : out) : result ddata :=
  match o with (s, None) => Ok s | (_, Some e) => Err e end.

(* DoubleMLBaseData.__init__ :18-23 (the argument is a data frame), cluster_cols
   :853-854 with _set_cluster_vars, DoubleMLData.__init__ :142-169,
   _check_disjoint_sets_cluster_cols :858.  [cl = None]: DoubleMLData;
   [cl = Some v]: DoubleMLClusterData with cluster_cols=v. *)
Definition construct (f : frame) (cl : option carg) (y d x z t v : carg) (other fo : farg)
  : result ddata :=
  require (distinct (fcols f)) ValueError (
  bind (match cl with
        | None => Ok None
        | Some c => bind (list_arg f c) (fun l =>
            require (forallb (col_all f finite) l) ValueError (Ok (Some l)))
        end) (fun cl =>
  bind (one_arg f y) (fun y =>
  bind (list_arg f d) (fun d =>
  bind (opt_list_arg f z) (fun z =>
  bind (opt_one_arg f t) (fun t =>
  bind (opt_one_arg f v) (fun v =>
  let r0 := mk_roles y d [] z t v cl in
  bind (x_arg f r0 x) (fun x =>
  let r := set_rx r0 x in
  require (disjoint_base r) ValueError (
  bind (bool_arg other) (fun other =>
  bind (force_arg fo) (fun fo =>
  bind (check_binary f d) (fun bt =>
  bind (check_binary f [y]) (fun by_ =>
  let s := mk_dd r other fo bt (binary_col f y) y None None None y [] cl in
  bind (lift (next (set_yzts f s) (set_xd0 f))) (fun s =>
  require (disjoint_cluster r) ValueError (Ok s))))))))))))))).

(** ** from_arrays *)
(* a numpy array with one or two dimensions (one dimension: one column,
   _assure_2d_array); arrays with more dimensions, which are rejected, and the
   common dtype that np.column_stack chooses are not modelled *)
Record arr := mk_arr { a_rows : nat; a_cols : nat; a_at : nat -> nat -> cell }.
Definition arr_all (p : cell -> bool) (a : arr) : bool :=
  forallb (fun i => forallb (fun j => p (a_at a i j)) (seq 0 (a_cols a))) (seq 0 (a_rows a)).

(* sklearn check_array(…, ensure_2d=False, allow_nd=False): at least one row and
   one column, entries as asked by force_all_finite *)
Definition check_array (fo : force) (a : arr) : bool :=
  (1 <=? a_rows a)%nat && (1 <=? a_cols a)%nat
  && match fo with Strict => arr_all finite a | AllowNan => arr_all not_infinite a | Loose => true end.
(* sklearn column_or_1d *)
Definition column_or_1d (a : arr) : bool := (a_cols a =? 1)%nat.

Definition digits (n : nat) : string := NilEmpty.string_of_uint (Nat.to_uint n).
(* [f"{p}{i + 1}" for i in np.arange(k)] :276,:295,:297 and :949 *)
Definition numbered (p : string) (k : nat) : list string :=
  map (fun i => (p ++ digits (i + 1))%string) (seq 0 k).
(* ["z"] or [z1, z2, …] *)
Definition names (p : string) (k : nat) : list string := if (k =? 1)%nat then [p] else numbered p k.

Definition columns := list (string * (nat -> cell)).
Definition named (ns : list string) (a : arr) : columns :=
  map (fun j => (nth j ns EmptyString, fun i => a_at a i j)) (seq 0 (length ns)).
Fixpoint col_get (c : string) (l : columns) : nat -> cell :=
  match l with [] => fun _ => NaN | (k, v) :: r => if String.eqb c k then v else col_get c r end.
Definition frame_of (n : nat) (l : columns) : frame := mk_frame (map fst l) n (fun c => col_get c l).
Definition ostr (o : option string) : carg := match o with Some c => CStr c | None => CNone end.
Definition olist (o : option (list string)) : carg := match o with Some c => CList c | None => CNone end.

Definition opt_named (ns : list string) (a : option arr) : columns :=
  match a with Some a => named ns a | None => [] end.
Definition opt_check (p : arr -> bool) (a : option arr) : bool :=
  match a with Some a => p a | None => true end.

(* DoubleMLData.from_arrays :200-312; the frame is returned with the object *)
Definition array_columns (x y d : arr) (z t v : option arr) : columns :=
  named (numbered "X" (a_cols x)) x ++ named ["y"] y ++ named (names "d" (a_cols d)) d
  ++ opt_named (names "z" (match z with Some z => a_cols z | None => 0 end)) z
  ++ opt_named ["t"] t ++ opt_named ["s"] v.
Definition from_arrays (x y d : arr) (z t v : option arr) (other fo : farg)
  : result (frame * ddata) :=
  bind (force_arg fo) (fun force =>
  require (check_array force x) ValueError (
  require (check_array Strict d) ValueError (
  require (column_or_1d y) ValueError (
  require (opt_check (check_array Strict) z) ValueError (
  require ((a_rows y =? a_rows x)%nat && (a_rows d =? a_rows x)%nat
           && opt_check (fun z => (a_rows z =? a_rows x)%nat) z) ValueError (
  require (opt_check (fun t => column_or_1d t && (a_rows t =? a_rows x)%nat) t) ValueError (
  require (opt_check (fun v => column_or_1d v && (a_rows v =? a_rows x)%nat) v) ValueError (
  let f := frame_of (a_rows x) (array_columns x y d z t v) in
  bind (construct f None (CStr "y") (CList (names "d" (a_cols d)))
          (CList (numbered "X" (a_cols x)))
          (match z with Some z => CList (names "z" (a_cols z)) | None => CNone end)
          (match t with Some _ => CStr "t" | None => CNone end)
          (match v with Some _ => CStr "s" | None => CNone end) other fo) (fun s =>
  Ok (f, s)))))))))).

(* DoubleMLClusterData.from_arrays :890-964.  pd.concat pads columns of
   different length with nan; cluster variables and the other columns are
   aligned by row number. *)
Definition pad (n : nat) (v : nat -> cell) : nat -> cell := fun i => if (i <? n)%nat then v i else NaN.
Definition pad_columns (n : nat) (l : columns) : columns := map (fun p => (fst p, pad n (snd p))) l.
Definition cluster_from_arrays (x y d cl : arr) (z t v : option arr) (other fo : farg)
  : result (frame * ddata) :=
  bind (from_arrays x y d z t v other fo) (fun fs =>
  require (check_array Strict cl) ValueError (
  let r := dd_roles (snd fs) in
  let cn := names "cluster_var" (a_cols cl) in
  let f := frame_of (Nat.max (a_rows cl) (a_rows x))
             (pad_columns (a_rows cl) (named cn cl)
              ++ pad_columns (a_rows x) (array_columns x y d z t v)) in
  bind (construct f (Some (CList cn)) (CStr (r_y r)) (CList (r_d r)) (CList (r_x r))
          (olist (r_z r)) (ostr (r_t r)) (ostr (r_s r))
          (FBool (dd_other (snd fs)))
          (match dd_force (snd fs) with Strict => FBool true | Loose => FBool false | AllowNan => FStr "allow-nan" end))
    (fun s => Ok (f, s)))).

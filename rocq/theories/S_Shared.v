(** Model objects that share one data object: terms of the statements. *)
From Verif Require Export M_Shared S_Data.
Local Open Scope R_scope.
Local Open Scope string_scope.

(** [s'] is [s] with one of its treatments active: [d] is its column, [x] its features. *)
Definition activated (s s' : M_Data.ddata) : Prop :=
  exists c, In c (M_Data.r_d (M_Data.dd_roles s)) /\ s' = M_Data.with_xd s c (M_Data.xd_list s c).
(** Every treatment can be activated. *)
Definition switchable (f : M_Data.frame) (s : M_Data.ddata) : Prop :=
  forall c, In c (M_Data.r_d (M_Data.dd_roles s)) -> snd (M_Data.assign f s (M_Data.SetXD (M_Data.CStr c))) = None.
(** Two descriptions of one class and its data agree, up to the nuisance estimation … *)
Record alike {P} (C C' : ctx P) : Prop := {
  ak_n : c_n C' = c_n C; ak_d : c_dcols C' = c_dcols C; ak_cl : c_cluster C' = c_cluster C; ak_st : c_strata C' = c_strata C;
  ak_l : c_learners C' = c_learners C; ak_c : c_classifier C' = c_classifier C; ak_e : c_ext_ok C' = c_ext_ok C;
  ak_s : c_sens C' = None <-> c_sens C = None }.
(** … and also in the nuisance estimation for treatment t. *)
Definition alike_at {P} (t : nat) (C C' : ctx P) : Prop :=
  alike C C' /\ (forall r, c_nuis C' r t = c_nuis C r t) /\
  (forall g g', c_sens C = Some g -> c_sens C' = Some g' -> forall r, g' r t = g r t).
(** [K] reads the data as [C] describes it, whichever treatment was active, once treatment t is (several treatments). *)
Definition follows {P} (s : M_Data.ddata) (C : ctx P) (K : M_Data.ddata -> ctx P) : Prop :=
  let dcols := M_Data.r_d (M_Data.dd_roles s) in
  c_dcols C = dcols /\
  forall s', activated s s' -> alike C (K s') /\
    forall t c, nth_error dcols t = Some c -> M_Data.c_d s' = c -> alike_at t C (K s').
(** The calls of object i in a history, and their outcomes. *)
Fixpoint own_calls {P} (i : nat) (ops : list (shared_op P)) : list (op P) :=
  match ops with
  | [] => []
  | Call j o :: r => if Nat.eqb j i then o :: own_calls i r else own_calls i r
  | UserSet _ :: r => own_calls i r
  end.
Definition own_results (i : nat) (log : list (nat * result unit)) : list (result unit) :=
  map snd (filter (fun p => Nat.eqb (fst p) i) log).
(** The outcomes of a history of calls when the object has the data for itself. *)
Fixpoint outcomes {P} (C : ctx P) (ops : list (op P)) (w : world P) : list (result unit) :=
  match ops with [] => [] | o :: r => snd (run_op C o w) :: outcomes C r (fst (run_op C o w)) end.
(** Data objects as constructed and changed by assignments other than to [y_col] and [d_cols]. *)
Inductive kept_treatments (f : M_Data.frame) : M_Data.ddata -> Prop :=
| Kt_new s : S_Data.constructed f s -> kept_treatments f s
| Kt_set s o s' : kept_treatments f s -> M_Data.assign f s o = (s', None) -> S_Data.sets_y_or_d o = false -> kept_treatments f s'.
(** The user only activates treatments. *)
Definition only_activations {P} (ops : list (shared_op P)) : Prop := forall o, In (UserSet o) ops -> exists v, o = M_Data.SetXD v.

(** ** Covariates changed after the creation *)
(** [s'] differs from [s] at most in the covariates, the two flags about them and the active treatment. *)
Definition same_but_covariates (s s' : M_Data.ddata) : Prop := exists x oth fo c xl,
  s' = M_Data.mk_dd (M_Data.set_rx (M_Data.dd_roles s) x) oth fo (M_Data.dd_bt s) (M_Data.dd_by s) (M_Data.c_y s) (M_Data.c_z s) (M_Data.c_t s) (M_Data.c_s s) c xl (M_Data.c_cl s).
(** For every such data object the constructor call [make] succeeds, with the same object [w0], and [K] reads that data object as the new model object would. *)
Definition keeps_up {P} f s (make : M_Data.ddata -> result (ctx P * world P)) (K : M_Data.ddata -> ctx P) (w0 : world P) : Prop :=
  forall s', S_Data.reachable f s' -> same_but_covariates s s' -> exists C, make s' = Ok (C, w0) /\ follows s' C K.
(** Assignments to x_cols, use_other_treat_as_covariate and force_all_x_finite that succeed, and calls of set_x_d. *)
Fixpoint covariates_only {P} f (ops : list (shared_op P)) (s : M_Data.ddata) : Prop :=
  match ops with
  | [] => True
  | UserSet o :: r => match o with
                      | M_Data.SetX _ | M_Data.SetOther _ | M_Data.SetForce _ => snd (M_Data.assign f s o) = None
                      | M_Data.SetXD _ => True
                      | _ => False
                      end /\ covariates_only f r (fst (M_Data.assign f s o))
  | Call _ _ :: r => covariates_only f r s
  end.
(** Every call of object i is made on a model object created just before from the data object as the user has left it (no other object has touched it), with the state [w] that the object had. *)
Fixpoint recreated {P} f (make : M_Data.ddata -> result (ctx P * world P)) (i : nat) (ops : list (shared_op P)) (s : M_Data.ddata) (w : world P) : world P * list (result unit) :=
  match ops with
  | [] => (w, [])
  | UserSet o :: r => recreated f make i r (fst (M_Data.assign f s o)) w
  | Call j o :: r => if Nat.eqb j i then
        match make s with
        | Ok (C, _) => let '(w', e) := run_op C o w in let '(w2, l) := recreated f make i r s w' in (w2, e :: l)
        | Err _ => (w, [])
        end
      else recreated f make i r s w
  end.

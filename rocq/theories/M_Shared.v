(** Model objects that share one data object.

    [fit] in M_Model takes the data as fixed.  In the program the arrays [x] and
    [d] of the data object belong to one active treatment; [fit] activates the
    treatments in turn, and other objects and the user may activate another
    one between two calls.  Here every method reads the data object as it is
    when the method is called.

    Simplifications: [tune] (double_ml.py:818), which activates treatments in the
    same way, is not part of the histories. *)
From Verif Require Export M_Init.
Local Open Scope R_scope.
Local Open Scope string_scope.

Section Shared.
Context {P : Type}.
Variable f : M_Data.frame.
(** A method of a model object may change the data object and the object. *)
Definition pair_state := (M_Data.ddata * world P)%type.
Definition sact (A : Type) := pair_state -> pair_state * result A.
Definition sthen {A B} (m : sact A) (k : A -> sact B) : sact B := fun x =>
  match m x with (x', Ok a) => k a x' | (x', Err e) => (x', Err e) end.
Fixpoint sfor {A} (l : list A) (body : A -> sact unit) : sact unit :=
  match l with [] => fun x => (x, Ok tt) | a :: r => sthen (body a) (fun _ => sfor r body) end.
(** A part of a method that only reads the data object: [K s] describes what the
    class reads from the data object [s]. *)
Definition reading {A} (K : M_Data.ddata -> ctx P) (a : ctx P -> act P A) : sact A := fun x =>
  let '(w', r) := a (K (fst x)) (snd x) in ((fst x, w'), r).
(** [if self._dml_data.n_treat > 1: self._dml_data.set_x_d(self._dml_data.d_cols[i_d])]
    (double_ml.py:513-514). *)
Definition switch_to (t : nat) : sact unit := fun x =>
  let dcols := M_Data.r_d (M_Data.dd_roles (fst x)) in
  if Nat.ltb 1 (length dcols) then
    match M_Data.set_xd f (fst x) (nth t dcols EmptyString) with
    | (s', None) => ((s', snd x), Ok tt)
    | (s', Some e) => ((s', snd x), Err e)
    end
  else (x, Ok tt).
(** [fit] (double_ml.py:473-535). *)
Definition live_fit (K : M_Data.ddata -> ctx P) (n_jobs store : pyval) (ext : ext_arg) (store_models : pyval) : sact unit :=
  let st := match store with PBool b => b | _ => false end in
  sthen (reading K (fun C => check_fit C n_jobs store ext store_models)) (fun _ =>
  sthen (reading K (fun C => initialize_fit C st)) (fun _ =>
  sthen (fun x => sfor (seq 0 (m_n_rep (w_obj (snd x)))) (fun r y =>
           sfor (seq 0 (length (M_Data.r_d (M_Data.dd_roles (fst y))))) (fun t =>
             sthen (switch_to t) (fun _ => reading K (fun C => fit_step C st ext r t))) y) x) (fun _ =>
  reading K finish_fit))).
(** A method call: [fit] activates treatments, the others do not. *)
Definition live_op (K : M_Data.ddata -> ctx P) (o : op P) : sact unit :=
  match o with
  | OFit nj st ext sm => live_fit K nj st ext sm
  | _ => reading K (fun C => run_op C o)
  end.

(** Several model objects, one data object; the user may call [set_x_d] or
    assign to the attributes of the data object as well
    (double_ml_data.py:411-662). *)
Inductive shared_op := UserSet (o : M_Data.op) | Call (i : nat) (o : op P).
Definition shared_state := (M_Data.ddata * list (world P))%type.
Definition shared_step (Ks : list (M_Data.ddata -> ctx P)) (o : shared_op) (x : shared_state) : shared_state * list (nat * result unit) :=
  match o with
  | UserSet o => ((fst (M_Data.assign f (fst x) o), snd x), [])
  | Call i o =>
      match nth_error Ks i, nth_error (snd x) i with
      | Some K, Some w => let '((s', w'), r) := live_op K o (fst x, w) in ((s', set_nth i w' (snd x)), [(i, r)])
      | _, _ => (x, [])
      end
  end.
(** The state at the end and, per call, the object and the outcome. *)
Fixpoint shared_run (Ks : list (M_Data.ddata -> ctx P)) (ops : list shared_op) (x : shared_state) : shared_state * list (nat * result unit) :=
  match ops with
  | [] => (x, [])
  | o :: r => let '(x1, l1) := shared_step Ks o x in let '(x2, l2) := shared_run Ks r x1 in (x2, (l1 ++ l2)%list)
  end.
End Shared.
Arguments shared_op : clear implicits.
Arguments pair_state : clear implicits.
Arguments shared_state : clear implicits.

(** What the classes read from the data object during a method call: the roles,
    [y], [z], [t], [s] and the arrays of the active treatment.  What the
    constructor stored (learners, strata, treated units, weights, thresholds) is
    an argument. *)
Section Classes.
Context {E P : Type}.
Variable L : learner E row P.
Variable mc : machinery E P.
Variable f : M_Data.frame.
Notation n := (M_Data.frows f).
Notation dcols s := (M_Data.r_d (M_Data.dd_roles s)).
Notation xa s := (feats f (M_Data.c_x s)).
Notation da s := (col f (M_Data.c_d s)).
Notation ya s := (col f (M_Data.c_y s)).
(** plm/plr.py:160-240 *)
Definition live_plr (iv : bool) (s : M_Data.ddata) : ctx P := with_clusters f s
  (plr_ctx L mc n (dcols s) iv (fun t => match dict_get (nth t (dcols s) EmptyString) (M_Data.dd_bt s) with Some b => b | None => false end) (fun _ => xa s) (ya s) (fun _ => da s)).
(** plm/pliv.py:222-420 *)
Definition live_pliv (iv : bool) (zc : string) (s : M_Data.ddata) : ctx P := with_clusters f s
  (pliv_ctx L mc n (dcols s) iv (fun _ => xa s) (ya s) (fun _ => da s) (col f zc)).
Definition live_pliv_several (proj : list (row * R) -> row -> R) (zs : list string) (s : M_Data.ddata) : ctx P := with_clusters f s
  (asserting (one_key ["ml_l"; "ml_m"; "ml_r"] (map (fun c => "ml_m_" ++ c) zs)) (pliv_several_ctx L mc n proj (dcols s) (fun _ => xa s) (ya s) (fun _ => da s) (map (fun c => (c, col f c)) zs))).
(** irm/irm.py:256-400 *)
Definition live_irm (atte nm : bool) (th : R) (wt : nat -> wgt) (st : option (nat -> Z)) (s : M_Data.ddata) : ctx P := with_clusters f s
  (irm_ctx L mc n (hd EmptyString (dcols s)) atte nm (M_Data.dd_by s) true th wt (xa s) (ya s) (da s) st).
(** irm/apo.py:228-400; [lvl]: the indicator of the level, stored by the constructor *)
Definition live_apo (nm : bool) (th : R) (wt : nat -> wgt) (lvl : vec) (st : option (nat -> Z)) (s : M_Data.ddata) : ctx P := with_clusters f s
  (apo_ctx L mc n (hd EmptyString (dcols s)) nm (M_Data.dd_by s) true th wt (xa s) (ya s) (da s) lvl st).
(** irm/iivm.py:256-420 *)
Definition live_iivm (nm at_ nt : bool) (th : R) (zc : string) (st : option (nat -> Z)) (s : M_Data.ddata) : ctx P := with_clusters f s
  (iivm_ctx L mc n (hd EmptyString (dcols s)) nm (M_Data.dd_by s) at_ nt true th (xa s) (ya s) (col f zc) (da s) st).
(** did/did.py:203-320 *)
Definition live_did (obs nm : bool) (th : R) (st : option (nat -> Z)) (s : M_Data.ddata) : ctx P := with_clusters f s
  (did_ctx L mc n (hd EmptyString (dcols s)) obs nm true th (xa s) (ya s) (da s) st).
(** did/did_cs.py:214-442 *)
Definition live_cs (obs nm : bool) (th : R) (tc : string) (st : option (nat -> Z)) (s : M_Data.ddata) : ctx P := with_clusters f s
  (cs_ctx L mc n (hd EmptyString (dcols s)) obs nm true th (xa s) (ya s) (da s) (col f tc) st).
(** irm/ssm.py:217-420 *)
Definition live_ssm (nm : bool) (th : R) (selc : string) (st : option (nat -> Z)) (s : M_Data.ddata) : ctx P := with_clusters f s
  (ssm_ctx L mc n (dcols s) nm true th (fun _ => xa s) (ya s) (fun _ => da s) (col f selc) st).
Definition live_ssm_non (tts : nat -> nat -> list nat -> list R -> list nat * list nat) (nm : bool) (th : R) (selc : string) (st : option (nat -> Z)) (s : M_Data.ddata) : ctx P := with_clusters f s
  (ssm_non_ctx L mc n tts (dcols s) nm true th (fun _ => xa s) (feats f (M_Data.optl (M_Data.c_z s))) (ya s) (fun _ => da s) (col f selc) st).
End Classes.

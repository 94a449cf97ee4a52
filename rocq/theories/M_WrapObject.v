(** The wrappers DoubleMLQTE (irm/qte.py) and DoubleMLAPOS (irm/apos.py) as
    objects: constructors, splits, and fits of the sub-models they create.

    Simplifications (see also M_QObject.v and M_Init.v).
    - The data object has no cluster variables.
    - Sub-models are fitted one after the other (n_jobs_models=None).
    - Quantiles are given as an array of floats (a single float is an array with
      one entry); treatment levels as a list (a single level is a list with one
      entry).
    - draw_sample_splitting is only tested for truth and is given as a boolean.
    - The sub-models are only accessed by the wrapper. *)
From Verif Require Export M_QObject M_Multi.
Local Open Scope R_scope.
Local Open Scope string_scope.
Local Open Scope res_scope.

(** A stored split as an argument of [set_sample_splitting]: nested lists of
    tuples of integer arrays. *)
Definition as_pysplit (sm : list (list fold)) : pysplit :=
  SList (map (fun fs => SList (map (fun h => STup [IxInt (map Z.of_nat (fst h)); IxInt (map Z.of_nat (snd h))]) fs)) sm).

(** ** What both wrappers share *)
Section Wrap.
Context {B : Type}.
(** What is fixed at construction.  [wk_make n_folds n_rep i]: new sub-model i
    without a split; [wk_set]: its [set_sample_splitting]; [wk_combine]: the
    framework from the fitted sub-models; [wk_remake]: whether
    [draw_sample_splitting] creates new sub-models. *)
Record wclass := {
  wk_n : nat; wk_strata : vec; wk_count : nat; wk_make : pyval -> pyval -> nat -> result B; wk_set : pysplit -> B -> result B;
  wk_combine : list B -> result framework; wk_remake : bool }.
(** [wo_subs = None]: the attribute does not exist. *)
Record wobj := { wo_folds : pyval; wo_reps : pyval; wo_smpls : option (list (list fold)); wo_subs : option (list B); wo_fw : option framework }.
Variable K : wclass.

(** [_initialize_models] (qte.py:607-641, apos.py:882-905). *)
Definition wrap_subs (b : wobj) : result (list B) :=
  match wo_smpls b with
  | None => Err ValueError
  | Some sm => map_res (fun i => let! m := wk_make K (wo_folds b) (wo_reps b) i in wk_set K (as_pysplit sm) m) (seq 0 (wk_count K))
  end.
Definition remade (b : wobj) : wobj * result unit :=
  match wrap_subs b with
  | Err e => (b, Err e)
  | Ok l => ({| wo_folds := wo_folds b; wo_reps := wo_reps b; wo_smpls := wo_smpls b; wo_subs := Some l; wo_fw := wo_fw b |}, Ok tt)
  end.
(** DoubleMLResampling (utils/resampling.py:5-26) on arguments that have not been
    checked: [n_folds < 2] raises TypeError unless it is a number, scikit-learn
    refuses counts that are not positive integers. *)
Definition resample (nf nr : pyval) (g : rng) : result (list (list fold)) :=
  let! k := match nf with PInt _ | PBool _ => Ok (int_val nf) | PFloat _ => Err ValueError | _ => Err TypeError end in
  require (Z.leb 2 k) ValueError (
  require (is_int nr && Z.leb 1 (int_val nr)) ValueError (
  require (all_whole (wk_n K) (wk_strata K)) ValueError (
  resampling (Z.to_nat k) (Z.to_nat (int_val nr)) (wk_n K) (Some (value_codes (wk_strata K))) g))).
(** [draw_sample_splitting] (qte.py:445-463, apos.py:628-644). *)
Definition wrap_draw (g : rng) (b : wobj) : wobj * result unit :=
  match resample (wo_folds b) (wo_reps b) g with
  | Err e => (b, Err e)
  | Ok sm =>
      let b1 := {| wo_folds := wo_folds b; wo_reps := wo_reps b; wo_smpls := Some sm; wo_subs := wo_subs b; wo_fw := wo_fw b |} in
      if wk_remake K then remade b1 else (b1, Ok tt)
  end.
(** [set_sample_splitting] (qte.py:465-530, apos.py:646-702): the attributes are
    assigned before the sub-models are created. *)
Definition wrap_set (sp : pysplit) (b : wobj) : wobj * result unit :=
  match check_sample_splitting (wk_n K) sp with
  | Err e => (b, Err e)
  | Ok ck => remade {| wo_folds := PInt (Z.of_nat (ck_n_folds ck)); wo_reps := PInt (Z.of_nat (ck_n_rep ck)); wo_smpls := Some (map (map nf) (ck_smpls ck));
                       wo_subs := wo_subs b; wo_fw := wo_fw b |}
  end.
(** [fit] (qte.py:396-420, apos.py:386-409); [fitter i]: fit of sub-model i. *)
Fixpoint fit_each (fitter : nat -> B -> B * result unit) (i : nat) (l : list B) : list B * result unit :=
  match l with
  | [] => ([], Ok tt)
  | m :: rest =>
      match fitter i m with
      | (m', Err e) => (m' :: rest, Err e)
      | (m', Ok _) => let (rest', o) := fit_each fitter (S i) rest in (m' :: rest', o)
      end
  end.
Definition wrap_fit (fitter : nat -> B -> B * result unit) (b : wobj) : wobj * result unit :=
  match wo_subs b with
  | None => (b, Err AttributeError)
  | Some l =>
      let (l', o) := fit_each fitter 0 l in
      let b1 fw := {| wo_folds := wo_folds b; wo_reps := wo_reps b; wo_smpls := wo_smpls b; wo_subs := Some l'; wo_fw := fw |} in
      match (let! _ := o in wk_combine K l') with
      | Err e => (b1 (wo_fw b), Err e)
      | Ok f => (b1 (Some f), Ok tt)
      end
  end.
(** The constructors end with [if draw_sample_splitting: ...]. *)
Definition wrap_new (nf nr : pyval) (draw : bool) (g : rng) : result wobj :=
  let b := {| wo_folds := nf; wo_reps := nr; wo_smpls := None; wo_subs := None; wo_fw := None |} in
  if draw then
    match wrap_draw g b with
    | (_, Err e) => Err e
    | (b1, Ok _) => match remade b1 with (_, Err e) => Err e | (b2, Ok _) => Ok b2 end
    end
  else Ok b.
End Wrap.
Arguments wclass B : clear implicits. Arguments wobj B : clear implicits.

(** [sklearn.base.clone] accepts instances with get_params. *)
Definition cloneable {E} (l : pylearner E) : bool := negb (ly_is_class l) && ly_get l.

Section Wrappers.
Context {E P : Type}.
Variable L : learner E row P.
Variable rd : randomness.
Variable f : frame.
Variable s : ddata.
Let n := M_Data.frows f.
Let dcols := M_Data.r_d (M_Data.dd_roles s).
Let d := col f (M_Data.c_d s).
Definition cloned_learner (l : pylearner E) : pylearner E :=
  {| ly_obj := ln_clone L (ly_obj l); ly_is_class := ly_is_class l; ly_fit := ly_fit l; ly_set := ly_set l; ly_get := ly_get l; ly_predict := ly_predict l; ly_proba := ly_proba l;
     ly_classifier := ly_classifier l; ly_regressor := ly_regressor l |}.
(** The framework attribute of an estimator object. *)
Definition framework_of (w : world P) : option framework :=
  match m_fw (w_obj w) with
  | Some k => match nth_error (w_fws w) k with Some o => Some (fw_view (w_heap w) o) | None => None end
  | None => None
  end.

(** ** DoubleMLQTE *)
Inductive qsub := QNl (K : @nl_class P) (b : @nl_obj P) | QLin (C : ctx P) (w : world P).
Variable sv : solvers.
Definition qsub_set (sp : pysplit) (q : qsub) : result qsub :=
  match q with
  | QNl K b => match snd (set_sample_splitting (nl_ctx K) sp None (ob_world b)) with Err e => Err e | Ok _ => Ok (QNl K (nl_step sv K (NSet sp) b)) end
  | QLin C w => match set_sample_splitting C sp None w with (_, Err e) => Err e | (w', Ok _) => Ok (QLin C w') end
  end.
Definition qsub_fit (nj store smod : pyval) (q : qsub) : qsub * result unit :=
  match q with
  | QNl K b => let (b', r) := nl_fit sv K nj store ExtNone smod b in (QNl K b', r)
  | QLin C w => let (w', r) := fit C nj store ExtNone smod w in (QLin C w', r)
  end.
Definition qsub_fw (q : qsub) : option framework :=
  match q with QNl _ b => option_map snd (ob_res b) | QLin _ w => framework_of w end.
(** [_fit_quantile] (586-593): control first. *)
Definition pair_fit (nj store smod : pyval) (p : qsub * qsub) : (qsub * qsub) * result unit :=
  match qsub_fit nj store smod (fst p) with
  | (q0, Err e) => ((q0, snd p), Err e)
  | (q0, Ok _) => match qsub_fit nj store smod (snd p) with (q1, r) => ((q0, q1), r) end
  end.
(** Treated minus control, then [concat] (409-418). *)
Definition pair_effect (p : qsub * qsub) : result framework :=
  match qsub_fw (fst p), qsub_fw (snd p) with Some f0, Some f1 => fw_sub f1 (OpFw f0) | _, _ => Err TypeError end.
Definition effects (l : list (qsub * qsub)) : result framework := let! fs := map_res pair_effect l in fw_concat (map OpFw fs).
(** [_initialize_models] (607-641).  [o i treated]: the oracles of a sub-model. *)
Definition make_quantile (score : string) (k : vec -> vec -> R) (o : nat -> bool -> nat -> nat -> q_oracles) (ml_g ml_m : pylearner E) (q : R) (norm rule thr nf nr : pyval) (i : nat) (treated : bool) : result qsub :=
  let tr := PInt (if treated then 1 else 0) in
  if String.eqb score "PQ" then let! p := pq_init L rd f s k (o i treated) ml_g ml_m tr (PFloat q) nf nr (PStr "PQ") norm (KdeFun k) rule thr (PBool false) in Ok (QNl (fst p) (snd p))
  else if String.eqb score "LPQ" then let! p := lpq_init L rd f s k (o i treated) ml_g ml_m tr (PFloat q) nf nr (PStr "LPQ") norm (KdeFun k) rule thr (PBool false) in Ok (QNl (fst p) (snd p))
  else let! p := cvar_init L rd f s (o i treated) ml_g ml_m tr (PFloat q) nf nr (PStr "CVaR") norm rule thr (PBool false) in Ok (QLin (fst p) (snd p)).
Definition qte_class (score : string) (k : vec -> vec -> R) (o : nat -> bool -> nat -> nat -> q_oracles) (ml_g ml_m : pylearner E) (qs : list R) (norm rule thr : pyval) : wclass (qsub * qsub) :=
  {| wk_n := n; wk_strata := d; wk_count := length qs;
     wk_make := fun nf nr i => let mk := make_quantile score k o ml_g ml_m (nth i qs 0) norm rule thr nf nr i in let! m0 := mk false in let! m1 := mk true in Ok (m0, m1);
     wk_set := fun sp p => let! m0 := qsub_set sp (fst p) in let! m1 := qsub_set sp (snd p) in Ok (m0, m1);
     wk_combine := effects; wk_remake := true |}.
(** qte.py:90-153; [clone(None)] raises TypeError. *)
Definition qte_init (dflt : vec -> vec -> R) (o : nat -> bool -> nat -> nat -> q_oracles) (ml_g : pylearner E) (ml_m : option (pylearner E)) (quantiles : list R) (nf nr score norm : pyval) (kde : kde_arg) (rule thr : pyval) (draw : bool)
  : result (wclass (qsub * qsub) * wobj (qsub * qsub)) :=
  require (negb (existsb (fun q => rleb q 0 || rleb 1 q) quantiles)) ValueError (
  let! k := check_kde dflt kde in
  let! sc := check_score score ["PQ"; "LPQ"; "CVaR"] in
  require (one_treat s && zero_one_col f (M_Data.c_d s)) ValueError (
  let! _ := trimming_arg rule thr in
  let! _ := check_bool norm in
  require (cloneable ml_g) TypeError (
  match ml_m with
  | None => Err TypeError
  | Some m =>
      require (cloneable m) TypeError (
      let K := qte_class sc k o (cloned_learner ml_g) (cloned_learner m) quantiles norm rule thr in
      let! b := wrap_new K nf nr draw (rd_g rd) in
      Ok (K, b))
  end))).
(** [fit] with external predictions is not implemented (396-397). *)
Definition qte_fit (K : wclass (qsub * qsub)) (nj store : pyval) (ext : ext_arg) (smod : pyval) (b : wobj (qsub * qsub)) : wobj (qsub * qsub) * result unit :=
  match ext with ExtNone => wrap_fit K (fun _ => pair_fit nj store smod) b | _ => (b, Err NotImplementedError) end.

(** ** DoubleMLAPOS *)
(** The sub-models are DoubleMLAPO objects. *)
Definition apo_object := (ctx P * world P)%type.
(** [_check_treatment_levels] (811-823) *)
Definition level_occurs (v : pyval) : bool := match level_of v with Some r => existsb (fun i => reqb (d i) r) (seq 0 n) | None => false end.
Definition ones : nd := mk1 n (fun _ => 1).
(** [_initialize_weights] (873-880) *)
Definition stored_weights (w : warg) : warg := match w with WNone => WArr ones | _ => w end.
Definition apos_class (ml_g ml_m : pylearner E) (levels : list pyval) (score : pyval) (weights : warg) (norm rule thr : pyval) : wclass apo_object :=
  {| wk_n := n; wk_strata := d; wk_count := length levels;
     wk_make := fun nf nr i => apo_init L rd f s ml_g ml_m (nth i levels PNone) nf nr score weights norm rule thr (PBool false);
     wk_set := fun sp p => match set_sample_splitting (fst p) sp None (snd p) with (_, Err e) => Err e | (w', Ok _) => Ok (fst p, w') end;
     wk_combine := fun l => match all_some (map (fun p => framework_of (snd p)) l) with Some fs => fw_concat (map OpFw fs) | None => Err TypeError end;
     wk_remake := false |}.
(** apos.py:23-95 *)
Definition apos_init (ml_g ml_m : pylearner E) (levels : list pyval) (nf nr score : pyval) (weights : warg) (norm rule thr : pyval) (draw : bool)
  : result (wclass apo_object * wobj apo_object) :=
  require (no_z s) ValueError (
  require (forallb level_occurs levels) ValueError (
  let! _ := check_score score ["APO"] in
  let! _ := trimming_arg rule thr in
  let! _ := check_bool norm in
  let! g_cls := check_learner ml_g true true in
  let! _ := check_learner ml_m false true in
  let! _ := check_outcome g_cls (M_Data.dd_by s) in
  let! _ := check_weights weights ScATE n (Z.to_nat (int_val nr)) in
  let K := apos_class (cloned_learner ml_g) (cloned_learner ml_m) levels score (stored_weights weights) norm rule thr in
  let! b := wrap_new K nf nr draw (rd_g rd) in
  Ok (K, b))).
(** External predictions: by level, then by nuisance function. *)
Inductive level_ext := LxOther | LxDict (l : list (string * entry nd)).
Inductive apos_ext := AxNone | AxOther | AxDict (l : list (pyval * level_ext)).
Definition same_level (a b : pyval) : bool := match level_of a, level_of b with Some x, Some y => reqb x y | _, _ => false end.
Definition apo_names := ["ml_g_d_lvl0"; "ml_g_d_lvl1"; "ml_m"].
(** [_check_external_predictions] (832-858) *)
Definition check_level_ext (levels : list pyval) (l : list (pyval * level_ext)) : result unit :=
  require (forallb (fun p => existsb (same_level (fst p)) levels) l) ValueError (
  all_ok (fun p => match snd p with
    | LxOther => Err TypeError
    | LxDict il => require (forallb (fun q => smem (fst q) apo_names) il) ValueError (Ok tt)
    end) l).
(** [_rename_external_predictions] (860-871) and the lookup in [_fit_model]
    (765-777): [external_predictions[treatment_level]] raises KeyError. *)
Fixpoint level_get (v : pyval) (l : list (pyval * level_ext)) : option level_ext :=
  match l with [] => None | (k, e) :: rest => if same_level v k then Some e else level_get v rest end.
Definition renamed (l : list (pyval * level_ext)) (v : pyval) : result ext_arg :=
  match level_get v l with
  | None => Err KeyError
  | Some LxOther => Err TypeError
  | Some (LxDict il) =>
      Ok (ExtDict [(hd EmptyString dcols, InnerDict (flat_map (fun name => match dict_get name il with Some e => [(name, e)] | None => [] end) ["ml_g_d_lvl1"; "ml_m"; "ml_g_d_lvl0"]))])
  end.
Definition apos_fit (levels : list pyval) (K : wclass apo_object) (nj store : pyval) (ext : apos_ext) (smod : pyval) (b : wobj apo_object) : wobj apo_object * result unit :=
  match (match ext with
         | AxNone => Ok (map (fun _ => ExtNone) levels)
         | AxOther => Err TypeError
         | AxDict l => let! _ := check_level_ext levels l in map_res (renamed l) levels
         end) with
  | Err e => (b, Err e)
  | Ok exts => wrap_fit K (fun i p => let (w', r) := fit (fst p) nj store (nth i exts ExtNone) smod (snd p) in ((fst p, w'), r)) b
  end.
End Wrappers.
Arguments wk_n {B}. Arguments wk_strata {B}. Arguments wk_count {B}. Arguments wk_make {B}. Arguments wk_set {B}. Arguments wk_combine {B}. Arguments wk_remake {B}.
Arguments wo_folds {B}. Arguments wo_reps {B}. Arguments wo_smpls {B}. Arguments wo_subs {B}. Arguments wo_fw {B}.

(** Calls of a user. *)
Section Run.
Context {B A : Type}.
Variable K : wclass B.
Variable fitting : A -> wobj B -> wobj B * result unit.
Inductive wcall := WcDraw (g : rng) | WcSet (sp : pysplit) | WcFit (a : A).
Definition wcall_do (c : wcall) (b : wobj B) : wobj B * result unit :=
  match c with WcDraw g => wrap_draw K g b | WcSet sp => wrap_set K sp b | WcFit a => fitting a b end.
Definition wcalls (l : list wcall) (b : wobj B) : wobj B := fold_left (fun b c => fst (wcall_do c b)) l b.
End Run.

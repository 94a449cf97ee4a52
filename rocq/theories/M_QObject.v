(** Quantile models as estimator objects: constructors of DoubleMLCVAR
    (irm/cvar.py), DoubleMLPQ (irm/pq.py) and DoubleMLLPQ (irm/lpq.py), and the
    objects they return.

    Simplifications (see also M_Init.v and M_Quantile.v).
    - The attribute n_folds is taken to be the number of folds of the split.
    - The splits drawn inside [_nuisance_est] (train_test_split, StratifiedKFold)
      and the numerical solvers are oracles; their errors are not modelled.
    - np.quantile of an arm without rows is modelled as IndexError (theorems
      assume that the arm has rows).
    - PQ and LPQ objects (nonlinear scores): data without clusters; a fit that
      raises leaves no results; results are not read after a new split. *)
From Verif Require Export M_Init M_Local.
Local Open Scope R_scope.
Local Open Scope string_scope.
Local Open Scope res_scope.

(** ** Options *)
(** [_check_quantile] (utils/_checks.py:173-179) on the argument as given. *)
Definition quantile_arg (v : pyval) : result R :=
  let! _ := check_quantile v in match v with PFloat q => Ok q | _ => Err TypeError end.
(** [_check_treatment] (utils/_checks.py:164-170): whether the arm is 1. *)
Definition treatment_arg (v : pyval) : result bool :=
  require (is_int v) TypeError (
  require (Z.eqb (int_val v) 0 || Z.eqb (int_val v) 1) ValueError (Ok (Z.eqb (int_val v) 1))).
(** [kde]: None, a callable, or another object (pq.py:125-131, lpq.py:119-124). *)
Inductive kde_arg := KdeNone | KdeFun (k : vec -> vec -> R) | KdeOther.
Definition check_kde (dflt : vec -> vec -> R) (k : kde_arg) : result (vec -> vec -> R) :=
  match k with KdeNone => Ok dflt | KdeFun k => Ok k | KdeOther => Err TypeError end.
(** [y[d == treatment]] has an entry. *)
Definition has_arm (n : nat) (treated : bool) (d : vec) : bool := existsb (fun i => reqb (d i) (level treated)) (seq 0 n).

Section QObject.
Context {E P : Type}.
Variable L : learner E row P.

(** [fitted_models[learner]] before fitting: one clone per fold, with the
    parameters of that fold (cvar.py:220-229, pq.py:281-289, lpq.py:305-314). *)
Definition fold_ests (e : E) (prm : option (list P)) (k : nat) : result (list E) :=
  map_res (fun i => let! p := fold_params (params_of prm) i in prepare L e p) (seq 0 k).

(** ** DoubleMLCVAR *)
(** [_nuisance_est] (cvar.py:204-326). *)
Definition cvar_cfg (n : nat) (treated : bool) (q : R) (norm : bool) (thr : R) (y : vec) (gs ms : list E) (e : E) : @pq_cfg E :=
  {| qc_cvar := true; qc_n := n; qc_treated := treated; qc_q := q; qc_norm := norm; qc_thr := thr; qc_fuel := 11; qc_bounds := pq_bounds n y;
     qc_g := fun k => nth k gs e; qc_m := fun k => nth k ms e; qc_ext_g := None; qc_ext_m := None |}.
Definition cvar_nuis (mc : machinery E P) (n : nat) (o : q_oracles) (treated : bool) (q : R) (norm : bool) (thr start : R) (x : nat -> row) (y d : vec)
  (prm : string -> option (list P)) (smpls : list fold) : result nuis_out :=
  let! gs := fold_ests (mc_learner mc "ml_g") (prm "ml_g") (length smpls) in
  let! ms := fold_ests (mc_learner mc "ml_m") (prm "ml_m") (length smpls) in
  let c := cvar_cfg n treated q norm thr y gs ms (mc_learner mc "ml_g") in
  let! r := pq_nuisance L L o [] c start x y d smpls in
  let ma := pq_adjust n treated norm thr d (val (po_m r)) in
  Ok (mk_out (cvar_score treated q y d (val (po_g r)) ma (Rmean (po_ipw r)))
        [("ml_g", {| h_preds := po_g r; h_targets := Some (pq_g_targets c y d smpls (po_ipw r)) |});
         ("ml_m", trim_hat true thr {| h_preds := po_m r; h_targets := Some (fun i => Some (d i)) |})]).
Definition cvar_ctx (mc : machinery E P) (n : nat) (o : nat -> nat -> q_oracles) (dcol : string) (treated : bool) (q : R) (norm : bool) (thr start : R)
  (x : nat -> row) (y d : vec) (strata : option (nat -> Z)) : ctx P :=
  {| c_n := n; c_dcols := [dcol]; c_cluster := None; c_strata := strata; c_learners := ["ml_g"; "ml_m"]; c_classifier := mc_classifier mc; c_ext_ok := false;
     c_nuis := fun r t smpls prm ext => cvar_nuis mc n (o r (length smpls)) treated q norm thr start x y d prm smpls; c_sens := None |}.

(** ** Constructors *)
Variable rd : randomness.
Variable f : frame.
Variable s : ddata.
Let n := M_Data.frows f.
Let dcols := M_Data.r_d (M_Data.dd_roles s).
Let y := col f (M_Data.c_y s).
Let d := col f (M_Data.c_d s).
Let x := feats f (M_Data.c_x s).
Let cloned (l : pylearner E) (proba : bool) : lentry := {| le_obj := ln_clone L (ly_obj l); le_proba := proba; le_classifier := ly_classifier l |}.

(** cvar.py:98-152, 381-391.  [o r k]: the oracles of repetition r with k folds. *)
Definition cvar_init (o : nat -> nat -> q_oracles) (ml_g ml_m : pylearner E) (treatment quantile n_folds n_rep score norm rule thr draw : pyval) : result (ctx P * world P) :=
  let! w := base_new rd f s n_folds n_rep draw in
  require (no_z s) ValueError (
  require (one_treat s && zero_one_col f (M_Data.c_d s)) ValueError (
  let! _ := check_score score ["CVaR"] in
  let! q := quantile_arg quantile in
  let! tr := treatment_arg treatment in
  let! nm := check_bool norm in
  require (has_arm n tr d) IndexError (
  let! w := redraw rd f s d draw w in
  let! th := trimming_arg rule thr in
  let! _ := check_learner ml_g true false in
  let! _ := check_learner ml_m false true in
  let mc := machine rd [("ml_g", cloned ml_g false); ("ml_m", cloned ml_m true)] (cloned ml_g false) in
  Ok (with_clusters f s (cvar_ctx mc n o (hd EmptyString dcols) tr q nm th (cvar_start n tr q y d) x y d (Some (value_codes d))), w)))).

(** *** Objects with a nonlinear score *)
(** Result of one [_nuisance_est]: the score and its derivative as functions of
    the parameter, predictions and targets, and the start value left behind. *)
Record nl_out := { nx_score : R -> vec; nx_deriv : R -> vec; nx_preds : string -> nat -> option R; nx_targets : string -> option (nat -> option R); nx_start : R }.
(** What is fixed at construction.  [nk_est store_models start r smpls params ext]. *)
Record nl_class := {
  nk_n : nat; nk_dcol : string; nk_strata : option (nat -> Z); nk_learners : list string; nk_classifier : string -> bool; nk_bounds : R * R;
  nk_est : bool -> R -> nat -> list fold -> (string -> option (list P)) -> (string -> option vec) -> result nl_out }.
(** The part of the object that does not depend on the score: splits,
    parameters, argument checks. *)
Definition nl_ctx (K : nl_class) : ctx P :=
  {| c_n := nk_n K; c_dcols := [nk_dcol K]; c_cluster := None; c_strata := nk_strata K; c_learners := nk_learners K; c_classifier := nk_classifier K; c_ext_ok := true;
     c_nuis := fun _ _ _ _ _ => Err NotImplementedError; c_sens := None |}.
Record nl_rep := { nr_theta : R; nr_se : R; nr_vs : R; nr_psi : vec; nr_deriv : vec; nr_warn : bool; nr_preds : string -> nat -> option R;
  nr_targets : string -> option (nat -> option R); nr_loss : string -> option R }.
Record nl_obj := { ob_world : world P; ob_start : R; ob_res : option (list nl_rep * framework) }.

Variable sv : solvers.
(** One repetition (double_ml.py:1015-1053 with NonLinearScoreMixin): the start
    value afterwards, also if the repetition raises. *)
Definition nl_rep_fit (K : nl_class) (m : dml P) (models : bool) (ext : ext_arg) (start : R) (r : nat) : R * result nl_rep :=
  match (let! ed := set_external ext (nk_learners K) (nk_dcol K) r in
         let! fs := smpls_rep (m_smpls m) r in
         nk_est K models start r fs (fun l => nth r (m_params m l (nk_dcol K)) None) ed) with
  | Err e => (start, Err e)
  | Ok o =>
      (nx_start o,
       match nl_est_coef sv 11 (nk_n K) None (nx_score o) (nx_deriv o) (nx_start o) (Some (nk_bounds K)) with
       | None => Err RuntimeError                     (* out of fuel: does not happen *)
       | Some (theta, warn) =>
           let psi := nx_score o theta in let dv := nx_deriv o theta in
           let! v := var_est (nk_n K) psi dv None in
           Ok {| nr_theta := theta; nr_se := sqrt (fst v); nr_vs := snd v; nr_psi := psi; nr_deriv := dv; nr_warn := warn; nr_preds := nx_preds o; nr_targets := nx_targets o;
                 nr_loss := fun l => loss_value (nl_ctx K) (nk_classifier K l) (nx_preds o l) (nx_targets o l) |}
       end)
  end.
Fixpoint nl_reps (K : nl_class) (m : dml P) (models : bool) (ext : ext_arg) (start : R) (rs : list nat) : R * result (list nl_rep) :=
  match rs with
  | [] => (start, Ok [])
  | r :: rest =>
      match nl_rep_fit K m models ext start r with
      | (s1, Err e) => (s1, Err e)
      | (s1, Ok p) => match nl_reps K m models ext s1 rest with (s2, Ok l) => (s2, Ok (p :: l)) | (s2, Err e) => (s2, Err e) end
      end
  end.
(** [_aggregate_coefs_and_ses] and [construct_framework] (double_ml.py:522-599). *)
Definition nl_dict (K : nl_class) (reps : list nl_rep) : fw_dict :=
  let nr := length reps in
  let get {A} (h : nl_rep -> A) (dflt : A) r := match nth_error reps r with Some p => h p | None => dflt end in
  let all_thetas := mk2 1 nr (fun _ r => get nr_theta 0 r) in
  let all_ses := mk2 1 nr (fun _ r => get nr_se 0 r) in
  let vs := mk1 1 (fun _ => get nr_vs 0 (nr - 1)%nat) in
  let agg := aggregate_coefs_and_ses all_thetas all_ses vs in
  {| k_thetas := Val (fst agg); k_ses := Val (snd agg); k_all_thetas := Val all_thetas; k_all_ses := Val all_ses; k_vs := Val vs;
     k_scaled_psi := Val (mk3 (nk_n K) 1 nr (fun i _ r => get nr_psi (fun _ => 0) r i / meanf (nk_n K) (get nr_deriv (fun _ => 0) r)));
     k_is_cluster := Val false; k_cluster := Absent; k_sens := Absent; k_names := Val [Some (nk_dcol K)] |}.
Definition nl_fit (K : nl_class) (nj store : pyval) (ext : ext_arg) (smod : pyval) (b : nl_obj) : nl_obj * result unit :=
  match check_fit (nl_ctx K) nj store ext smod (ob_world b) with
  | (_, Err e) => (b, Err e)
  | (w, Ok _) =>
      let '(s1, res) := nl_reps K (w_obj w) (match smod with PBool b => b | _ => false end) ext (ob_start b) (seq 0 (m_n_rep (w_obj w))) in
      let failed e := ({| ob_world := w; ob_start := s1; ob_res := None |}, Err e) in
      match res with
      | Err e => failed e
      | Ok reps => match mk_framework (Some (nl_dict K reps)) with
                   | Err e => failed e
                   | Ok F => ({| ob_world := w; ob_start := s1; ob_res := Some (reps, F) |}, Ok tt)
                   end
      end
  end.

(** Method calls on the object; a call that raises leaves the world of the call.
    Setting a split drops the results (double_ml.py:1294-1322). *)
Inductive nl_op :=
| NFit (n_jobs store : pyval) (ext : ext_arg) (store_models : pyval)
| NDraw (g : rng) (perm : nat -> nat -> list nat -> list nat)
| NSet (s : pysplit)
| NParams (learner treat : string) (v : param_arg P).
Definition nl_step (K : nl_class) (o : nl_op) (b : nl_obj) : nl_obj :=
  let moved w := {| ob_world := w; ob_start := ob_start b; ob_res := ob_res b |} in
  match o with
  | NFit nj store ext smod => fst (nl_fit K nj store ext smod b)
  | NDraw g perm => moved (fst (draw_sample_splitting (nl_ctx K) g perm (ob_world b)))
  | NSet sp => match set_sample_splitting (nl_ctx K) sp None (ob_world b) with
               | (w, Ok _) => {| ob_world := w; ob_start := ob_start b; ob_res := None |}
               | (w, Err _) => moved w
               end
  | NParams l t v => moved (fst (set_ml_nuisance_params (nl_ctx K) l t v (ob_world b)))
  end.
Fixpoint nl_run (K : nl_class) (ops : list nl_op) (b : nl_obj) : nl_obj :=
  match ops with [] => b | o :: rest => nl_run K rest (nl_step K o b) end.

(** *** DoubleMLPQ (pq.py:107-169, 390-400); [_nuisance_est] 252-393. *)
Definition pq_object_cfg (n : nat) (treated : bool) (q : R) (norm : bool) (thr : R) (y : vec) (gs ms : list E) (e : E) (ext : string -> option vec) : @pq_cfg E :=
  {| qc_cvar := false; qc_n := n; qc_treated := treated; qc_q := q; qc_norm := norm; qc_thr := thr; qc_fuel := 11; qc_bounds := pq_bounds n y;
     qc_g := fun k => nth k gs e; qc_m := fun k => nth k ms e; qc_ext_g := ext "ml_g"; qc_ext_m := ext "ml_m" |}.
(** Models are created for the learners without external predictions (276-289);
    storing the models of another one raises KeyError (371-373).  Targets with
    external predictions: d for ml_m, nan for ml_g. *)
Definition pq_est (mc : machinery E P) (n : nat) (o : nat -> nat -> q_oracles) (kde : vec -> vec -> R) (treated : bool) (q : R) (norm : bool) (thr : R) (x : nat -> row) (y d : vec)
  (models : bool) (start : R) (r : nat) (smpls : list fold) (prm : string -> option (list P)) (ext : string -> option vec) : result nl_out :=
  let ests l := match ext l with Some _ => Ok [] | None => fold_ests (mc_learner mc l) (prm l) (length smpls) end in
  let! gs := ests "ml_g" in
  let! ms := ests "ml_m" in
  let c := pq_object_cfg n treated q norm thr y gs ms (mc_learner mc "ml_g") ext in
  let! p := pq_nuisance L L (o r (length smpls)) [] c start x y d smpls in
  require (negb models || match ext "ml_g", ext "ml_m" with None, None => true | _, _ => false end) KeyError (
  let ia := arm treated d in
  let m := pq_adjust n treated norm thr d (val (po_m p)) in
  let mh := trim_hat true thr {| h_preds := po_m p; h_targets := Some (fun i => Some (d i)) |} in
  Ok {| nx_score := fun theta => pq_score q ia (val (po_g p)) m y theta; nx_deriv := fun theta => pq_deriv kde ia m y theta;
        nx_preds := fun l => if String.eqb l "ml_g" then po_g p else h_preds mh;
        nx_targets := fun l => if String.eqb l "ml_g" then Some (pq_g_targets c y d smpls (po_ipw p)) else h_targets mh;
        nx_start := po_start p |}).
Definition pq_class (mc : machinery E P) (n : nat) (o : nat -> nat -> q_oracles) (kde : vec -> vec -> R) (dcol : string) (treated : bool) (q : R) (norm : bool) (thr : R)
  (x : nat -> row) (y d : vec) (strata : option (nat -> Z)) : nl_class :=
  {| nk_n := n; nk_dcol := dcol; nk_strata := strata; nk_learners := ["ml_g"; "ml_m"]; nk_classifier := mc_classifier mc; nk_bounds := pq_bounds n y;
     nk_est := pq_est mc n o kde treated q norm thr x y d |}.
Definition pq_init (dflt : vec -> vec -> R) (o : nat -> nat -> q_oracles) (ml_g ml_m : pylearner E) (treatment quantile n_folds n_rep score norm : pyval) (kde : kde_arg) (rule thr draw : pyval)
  : result (nl_class * nl_obj) :=
  let! w := base_new rd f s n_folds n_rep draw in
  let! k := check_kde dflt kde in
  require (no_z s) ValueError (
  require (one_treat s && zero_one_col f (M_Data.c_d s)) ValueError (
  let! _ := check_score score ["PQ"] in
  let! q := quantile_arg quantile in
  let! tr := treatment_arg treatment in
  let! nm := check_bool norm in
  require (has_arm n tr d) IndexError (
  let! w := redraw rd f s d draw w in
  let! th := trimming_arg rule thr in
  let! _ := check_learner ml_g false true in
  let! _ := check_learner ml_m false true in
  let mc := machine rd [("ml_g", entry_of ml_g true); ("ml_m", entry_of ml_m true)] (entry_of ml_g true) in
  Ok (pq_class mc n o k (hd EmptyString dcols) tr q nm th x y d (Some (value_codes d)),
      {| ob_world := w; ob_start := pq_start n tr q y d; ob_res := None |})))).

(** *** DoubleMLLPQ (lpq.py:99-176, 659-679); [_nuisance_est] 268-545. *)
Definition lpq_object_cfg (n : nat) (treated : bool) (q : R) (norm : bool) (thr : R) (y : vec) (ests : string -> list E) (e : E) (ext : string -> option vec) : @lpq_cfg E :=
  {| lc_n := n; lc_treated := treated; lc_q := q; lc_norm := norm; lc_thr := thr; lc_fuel := 11; lc_bounds := pq_bounds n y;
     lc_est := fun l k => nth k (ests l) e; lc_ext := ext |}.
(** [fitted_models] for all five names. *)
Definition all_ests (mc : machinery E P) (prm : string -> option (list P)) (k : nat) : result (string -> list E) :=
  let! l := map_res (fun name => let! es := fold_ests (mc_learner mc name) (prm name) k in Ok (name, es)) lpq_names in
  Ok (fun name => match dict_get name l with Some es => es | None => [] end).
(** With a complete set of external predictions no models are created; storing
    them reads an unassigned variable (UnboundLocalError, here RuntimeError). *)
Definition lpq_est (mc : machinery E P) (n : nat) (o : nat -> nat -> q_oracles) (kde : vec -> vec -> R) (treated : bool) (q : R) (norm : bool) (thr : R) (x : nat -> row) (y d z : vec)
  (models : bool) (start : R) (r : nat) (smpls : list fold) (prm : string -> option (list P)) (ext : string -> option vec) : result nl_out :=
  let given := forallb (fun l => match ext l with Some _ => true | None => false end) lpq_names in
  let! ests := if given then Ok (fun _ => []) else all_ests mc prm (length smpls) in
  let c := lpq_object_cfg n treated q norm thr y ests (mc_learner mc "ml_m_z") ext in
  let! p := lpq_nuisance L L (o r (length smpls)) [] c start x y d z smpls in
  require (negb models || negb given) RuntimeError (
  Ok {| nx_score := lpq_psi c y d z p; nx_deriv := lpq_deriv kde c y d z p; nx_preds := lo_preds p;
        nx_targets := fun l => Some (lpq_targets c y d z smpls p l); nx_start := lo_start p |}).
Definition lpq_class (mc : machinery E P) (n : nat) (o : nat -> nat -> q_oracles) (kde : vec -> vec -> R) (dcol : string) (treated : bool) (q : R) (norm : bool) (thr : R)
  (x : nat -> row) (y d z : vec) (strata : option (nat -> Z)) : nl_class :=
  {| nk_n := n; nk_dcol := dcol; nk_strata := strata; nk_learners := lpq_names; nk_classifier := mc_classifier mc; nk_bounds := pq_bounds n y;
     nk_est := lpq_est mc n o kde treated q norm thr x y d z |}.
Definition lpq_init (dflt : vec -> vec -> R) (o : nat -> nat -> q_oracles) (ml_g ml_m : pylearner E) (treatment quantile n_folds n_rep score norm : pyval) (kde : kde_arg) (rule thr draw : pyval)
  : result (nl_class * nl_obj) :=
  let! w := base_new rd f s n_folds n_rep draw in
  let! k := check_kde dflt kde in
  require (one_treat s && zero_one_col f (M_Data.c_d s)) ValueError (
  match M_Data.c_z s with
  | Some [zc] =>
      require (zero_one_col f zc) ValueError (
      let! _ := check_score score ["LPQ"] in
      let! q := quantile_arg quantile in
      let! tr := treatment_arg treatment in
      let! nm := check_bool norm in
      require (has_arm n tr d) IndexError (
      let z := col f zc in
      let st := fun i => d i + 2 * z i in
      let! w := redraw rd f s st draw w in
      let! th := trimming_arg rule thr in
      let! _ := check_learner ml_g false true in
      let! _ := check_learner ml_m false true in
      let mc := machine rd [("ml_m_z", cloned ml_m true); ("ml_g_du_z0", cloned ml_g true); ("ml_g_du_z1", cloned ml_g true); ("ml_m_d_z0", cloned ml_m true); ("ml_m_d_z1", cloned ml_m true)] (cloned ml_m true) in
      Ok (lpq_class mc n o k (hd EmptyString dcols) tr q nm th x y d z (Some (value_codes st)),
          {| ob_world := w; ob_start := pq_start n tr q y d; ob_res := None |})))
  | _ => Err ValueError
  end).
End QObject.

(** Models whose score is a function supplied by the user ([callable(score)]):
    PLR, PLIV, IRM and IIVM.

    Simplifications.
    - The function is pure; it returns two arrays with one entry per row or
      raises.  Predictions that are None in Python are [None] here.
    - The sensitivity elements of such objects are arrays of nan, which [fit]
      does not fill (double_ml.py:1055-1058).  They are left out, so that the
      sensitivity methods of these objects are outside the model. *)
From Verif Require Export M_Init.
Local Open Scope R_scope.
Local Open Scope string_scope.
Local Open Scope res_scope.

(** Signatures (plm/plr.py:248-249, plm/pliv.py:407-411, irm/irm.py:359-360,
    irm/iivm.py:431-434), arguments in the order of the keywords there. *)
Definition plr_user := vec -> vec -> vec -> vec -> option vec -> list fold -> result elems.
Definition pliv_user := vec -> vec -> vec -> vec -> vec -> vec -> option vec -> list fold -> result elems.
Definition irm_user := vec -> vec -> vec -> vec -> vec -> list fold -> result elems.
Definition iivm_user := vec -> vec -> vec -> vec -> vec -> vec -> vec -> vec -> list fold -> result elems.

Section Call.
Context {E P : Type}.
Variable L : learner E row P.
Section Nuisance.
Variable su : setup E P.
(** [_nuisance_est] of PLR (plm/plr.py:152-232); [hg]: "ml_g" in the learners.
    ml_l is trained unless its predictions are supplied. *)
Definition plr_call_nuis (user : plr_user) (hg bin_treat : bool) (x : nat -> row) (y d : vec) (smpls : list fold) : result nuis_out :=
  let! l := or_ext su "ml_l" (fit_checked L su "ml_l" "ml_l" x y smpls smpls) in
  let! m := or_ext su "ml_m" (fit_checked L su "ml_m" "ml_m" x d smpls smpls) in
  require (negb (bin_treat && binary_preds (su_n su) m)) ValueError (
  let! g := if hg then
      or_ext su "ml_g" (let theta := initial_theta (su_n su) y d (h_preds l) (h_preds m) in
                        fit_checked L su "ml_g" "ml_g" x (fun i => y i - theta * d i) smpls smpls)
    else Ok no_hat in
  let! e := user y d (hv l) (hv m) (if hg then Some (hv g) else None) smpls in
  Ok (mk_out e [("ml_l", l); ("ml_m", m); ("ml_g", g)])).
(** PLIV with one instrument (plm/pliv.py:251-412). *)
Definition pliv_call_nuis (user : pliv_user) (hg : bool) (x : nat -> row) (y d z : vec) (smpls : list fold) : result nuis_out :=
  let! l := or_ext su "ml_l" (fit_checked L su "ml_l" "ml_l" x y smpls smpls) in
  let! m := or_ext su "ml_m" (fit_checked L su "ml_m" "ml_m" x z smpls smpls) in
  let! r := or_ext su "ml_r" (fit_checked L su "ml_r" "ml_r" x d smpls smpls) in
  let! g := if hg then
      or_ext su "ml_g" (let theta := initial_theta_iv su y d z (h_preds l) (h_preds m) (h_preds r) in
                        fit_checked L su "ml_g" "ml_g" x (fun i => y i - theta * d i) smpls smpls)
    else Ok no_hat in
  let! e := user y z d (hv l) (hv m) (hv r) (if hg then Some (hv g) else None) smpls in
  Ok (mk_out e [("ml_l", l); ("ml_m", m); ("ml_r", r); ("ml_g", g)]).
(** IRM (irm/irm.py:263-362): the function gets the trimmed, possibly normalised
    propensity; the weights are not used. *)
Definition irm_call_nuis (user : irm_user) (norm bin_out truncate : bool) (thr : R) (x : nat -> row) (y d : vec) (smpls : list fold) : result nuis_out :=
  let! g0 := or_ext su "ml_g0"
    (let! h := fit_checked L su "ml_g0" "ml_g" x y (sub su (is01 d 0) smpls) smpls in
     require (negb (bin_out && binary_preds (su_n su) h)) ValueError (Ok (mask (is01 d 0) h))) in
  let! g1 := or_ext su "ml_g1"
    (let! h := fit_checked L su "ml_g1" "ml_g" x y (sub su (is01 d 1) smpls) smpls in Ok (mask (is01 d 1) h)) in
  require (negb (bin_out && binary_preds (su_n su) g1)) ValueError (
  let! m0 := or_ext su "ml_m" (fit_checked L su "ml_m" "ml_m" x d smpls smpls) in
  let m := trim_hat truncate thr m0 in
  let! e := user y d (hv g0) (hv g1) (ps_adjust (su_n su) (hv m) d norm) smpls in
  Ok (mk_out e [("ml_g0", g0); ("ml_g1", g1); ("ml_m", m)])).
(** IIVM (irm/iivm.py:255-436). *)
Definition iivm_call_nuis (user : iivm_user) (norm bin_out at_ nt truncate : bool) (thr : R) (x : nat -> row) (y z d : vec) (smpls : list fold) : result nuis_out :=
  let g := fun name b =>
    let! h := or_ext su name (let! h := fit_checked L su name "ml_g" x y (sub su (is01 z b) smpls) smpls in Ok (mask (is01 z b) h)) in
    require (negb (bin_out && binary_preds (su_n su) h)) ValueError (Ok h) in
  let! g0 := g "ml_g0" 0 in
  let! g1 := g "ml_g1" 1 in
  let! m0 := or_ext su "ml_m" (fit_checked L su "ml_m" "ml_m" x z smpls smpls) in
  let m := trim_hat truncate thr m0 in
  let r := fun name (have : bool) b dflt =>
    let given := match su_ext su name with Some _ => true | None => false end in
    let! h := if have then or_ext su name (fit_nuis L su name "ml_r" x d (sub su (is01 z b) smpls)) else Ok (const_hat dflt) in
    if given then Ok h else require (finite_on smpls h) ValueError (Ok (mask (is01 z b) h)) in
  let! r0 := r "ml_r0" at_ 0 0 in
  let! r1 := r "ml_r1" nt 1 1 in
  let! e := user y z d (hv g0) (hv g1) (iivm_adjust (su_n su) norm d (hv m)) (hv r0) (hv r1) smpls in
  Ok (mk_out e [("ml_g0", g0); ("ml_g1", g1); ("ml_m", m); ("ml_r0", r0); ("ml_r1", r1)]).
End Nuisance.

(** ** Objects *)
Variable mc : machinery E P.
Definition plr_call_ctx (user : plr_user) (n : nat) (dcols : list string) (hg : bool) (bin : nat -> bool) (x : nat -> nat -> row) (y : vec) (d : nat -> vec) : ctx P :=
  {| c_n := n; c_dcols := dcols; c_cluster := None; c_strata := None; c_learners := if hg then ["ml_l"; "ml_m"; "ml_g"] else ["ml_l"; "ml_m"];
     c_classifier := mc_classifier mc; c_ext_ok := true;
     c_nuis := fun r t smpls prm ext => plr_call_nuis (setup_of mc n r t prm ext) user hg (bin t) (x t) y (d t) smpls; c_sens := None |}.
Definition pliv_call_ctx (user : pliv_user) (n : nat) (dcols : list string) (hg : bool) (x : nat -> nat -> row) (y : vec) (d : nat -> vec) (z : vec) : ctx P :=
  {| c_n := n; c_dcols := dcols; c_cluster := None; c_strata := None; c_learners := if hg then ["ml_l"; "ml_m"; "ml_r"; "ml_g"] else ["ml_l"; "ml_m"; "ml_r"];
     c_classifier := mc_classifier mc; c_ext_ok := true;
     c_nuis := fun r t smpls prm ext => pliv_call_nuis (setup_of mc n r t prm ext) user hg (x t) y (d t) z smpls; c_sens := None |}.
Definition irm_call_ctx (user : irm_user) (n : nat) (dcol : string) (norm bin_out truncate : bool) (thr : R) (x : nat -> row) (y d : vec) (strata : option (nat -> Z)) : ctx P :=
  {| c_n := n; c_dcols := [dcol]; c_cluster := None; c_strata := strata; c_learners := ["ml_g0"; "ml_g1"; "ml_m"];
     c_classifier := mc_classifier mc; c_ext_ok := true;
     c_nuis := fun r t smpls prm ext => irm_call_nuis (setup_of mc n r t prm ext) user norm bin_out truncate thr x y d smpls; c_sens := None |}.
Definition iivm_call_ctx (user : iivm_user) (n : nat) (dcol : string) (norm bin_out at_ nt truncate : bool) (thr : R) (x : nat -> row) (y z d : vec) (strata : option (nat -> Z)) : ctx P :=
  {| c_n := n; c_dcols := [dcol]; c_cluster := None; c_strata := strata; c_learners := ["ml_g0"; "ml_g1"; "ml_m"; "ml_r0"; "ml_r1"];
     c_classifier := mc_classifier mc; c_ext_ok := true;
     c_nuis := fun r t smpls prm ext => iivm_call_nuis (setup_of mc n r t prm ext) user norm bin_out at_ nt truncate thr x y z d smpls; c_sens := None |}.
(** The remaining variants of PLIV train their learners and then raise
    (plm/pliv.py:407-408, 437-438, 503-504). *)
Definition refusing (C : ctx P) : ctx P :=
  {| c_n := c_n C; c_dcols := c_dcols C; c_cluster := c_cluster C; c_strata := c_strata C; c_learners := c_learners C; c_classifier := c_classifier C; c_ext_ok := c_ext_ok C;
     c_nuis := fun r t fs prm ext => let! _ := c_nuis C r t fs prm ext in Err NotImplementedError; c_sens := c_sens C |}.
End Call.

(** ** Constructors: the same as with a named score, except for the checks of
    the score and the treatment of ml_g and weights. *)
Section CallInit.
Context {E P : Type}.
Variable L : learner E row P.
Variable rd : randomness.
Variable f : frame.
Variable s : ddata.
Let n := M_Data.frows f.
Let roles := M_Data.dd_roles s.
Let dcols := M_Data.r_d roles.
Let y := col f (M_Data.c_y s).
Let d := col f (M_Data.c_d s).
Let x := feats f (M_Data.c_x s).
(** plm/plr.py:90-135 *)
Definition plr_call_init (user : plr_user) (ml_l ml_m : pylearner E) (ml_g : option (pylearner E)) (n_folds n_rep draw : pyval) : result (ctx P * world P) :=
  let! w := base_new rd f s n_folds n_rep draw in
  require (no_z s) ValueError (
  let! _ := check_learner ml_l true false in
  let! m_cls := check_learner ml_m true true in
  let! g := match ml_g with
            | Some l => let! _ := check_learner l true false in Ok [("ml_g", entry_of l false)]
            | None => Ok []
            end in
  let! _ := require (negb m_cls || forallb snd (M_Data.dd_bt s)) ValueError (Ok tt) in
  let ls := ([("ml_l", entry_of ml_l false); ("ml_m", entry_of ml_m m_cls)] ++ g)%list in
  let hg := match g with [] => false | _ => true end in
  Ok (with_clusters f s (plr_call_ctx L (machine rd ls (entry_of ml_l false)) user n dcols hg (fun t => match dict_get (nth t dcols EmptyString) (M_Data.dd_bt s) with Some b => b | None => false end) (x_of f s) y (d_of f s)), w)).
(** plm/pliv.py:97-136, 193-204; with several instruments ml_g is checked and
    then unused. *)
Definition pliv_call_init (user : pliv_user) (proj : list (row * R) -> row -> R) (ml_l ml_m ml_r : pylearner E) (ml_g : option (pylearner E)) (n_folds n_rep draw : pyval) : result (ctx P * world P) :=
  let! w := base_new rd f s n_folds n_rep draw in
  match M_Data.c_z s with
  | None | Some [] => Err ValueError
  | Some (zc :: more) =>
      let! _ := check_learner ml_l true false in
      let! _ := check_learner ml_m true false in
      let! _ := check_learner ml_r true false in
      let! g := match ml_g with
                | Some l => let! _ := check_learner l true false in Ok [("ml_g", entry_of l false)]
                | None => Ok []
                end in
      let mc := machine rd ([("ml_l", entry_of ml_l false); ("ml_m", entry_of ml_m false); ("ml_r", entry_of ml_r false)] ++ g)%list (entry_of ml_l false) in
      let hg := match g with [] => false | _ => true end in
      Ok (with_clusters f s (match more with
            | [] => pliv_call_ctx L mc user n dcols hg (x_of f s) y (d_of f s) (col f zc)
            | _ => refusing (pliv_several_ctx L mc n proj dcols (x_of f s) y (d_of f s) (map (fun c => (c, col f c)) (zc :: more)))
            end), w)
  end.
(** [_partialZ] and [_partialXZ] (plm/pliv.py:155-184). *)
Definition pliv_call_partial_z (user : pliv_user) (proj : list (row * R) -> row -> R) (dummy ml_r : pylearner E) (n_folds n_rep draw : pyval) : result (ctx P * world P) :=
  let! p := pliv_call_init user proj dummy dummy ml_r None n_folds n_rep draw in
  let! _ := check_learner ml_r true false in
  let mc := machine rd [("ml_r", entry_of ml_r false)] (entry_of ml_r false) in
  Ok (with_clusters f s (refusing (pliv_z_ctx L mc n dcols (x_of f s) (feats f (M_Data.optl (M_Data.c_z s))) y (d_of f s))), snd p).
Definition pliv_call_partial_xz (user : pliv_user) (proj : list (row * R) -> row -> R) (ml_l ml_m ml_r : pylearner E) (n_folds n_rep draw : pyval) : result (ctx P * world P) :=
  let! p := pliv_call_init user proj ml_l ml_m ml_r None n_folds n_rep draw in
  let mc := machine rd [("ml_l", entry_of ml_l false); ("ml_m", entry_of ml_m false); ("ml_r", entry_of ml_r false)] (entry_of ml_l false) in
  Ok (with_clusters f s (refusing (pliv_xz_ctx L mc n dcols (x_of f s) (feats f (M_Data.optl (M_Data.c_z s))) y (d_of f s))), snd p).
(** irm/irm.py:124-180 *)
Definition irm_call_init (user : irm_user) (ml_g ml_m : pylearner E) (n_folds n_rep : pyval) (weights : warg) (norm rule thr draw : pyval) : result (ctx P * world P) :=
  let! w := base_new rd f s n_folds n_rep draw in
  require (no_z s) ValueError (
  require (one_treat s && zero_one_col f (M_Data.c_d s)) ValueError (
  let! w := redraw rd f s d draw w in
  let! g_cls := check_learner ml_g true true in
  let! _ := check_learner ml_m false true in
  let! _ := check_outcome g_cls (M_Data.dd_by s) in
  let! nm := check_bool norm in
  let! th := trimming_arg rule thr in
  let! _ := check_weights weights ScCallable n (m_n_rep (w_obj w)) in
  let mc := machine rd [("ml_g", entry_of ml_g g_cls); ("ml_m", entry_of ml_m true)] (entry_of ml_g g_cls) in
  Ok (with_clusters f s (irm_call_ctx L mc user n (hd EmptyString dcols) nm (M_Data.dd_by s) true th x y d (Some (value_codes d))), w))).
(** irm/iivm.py:125-196, 224-254 *)
Definition iivm_call_init (user : iivm_user) (ml_g ml_m ml_r : pylearner E) (n_folds n_rep : pyval) (subgroups : subgroups_arg) (norm rule thr draw : pyval) : result (ctx P * world P) :=
  let! w := base_new rd f s n_folds n_rep draw in
  require (one_treat s && zero_one_col f (M_Data.c_d s)) ValueError (
  match M_Data.c_z s with
  | Some [zc] =>
      require (zero_one_col f zc) ValueError (
      let z := col f zc in
      let st := fun i => d i + 2 * z i in
      let! w := redraw rd f s st draw w in
      let! g_cls := check_learner ml_g true true in
      let! _ := check_learner ml_m false true in
      let! _ := check_learner ml_r false true in
      let! _ := check_outcome g_cls (M_Data.dd_by s) in
      let! nm := check_bool norm in
      let! th := trimming_arg rule thr in
      let! sg := check_subgroups subgroups in
      let mc := machine rd [("ml_g", entry_of ml_g g_cls); ("ml_m", entry_of ml_m true); ("ml_r", entry_of ml_r true)] (entry_of ml_g g_cls) in
      Ok (with_clusters f s (iivm_call_ctx L mc user n (hd EmptyString dcols) nm (M_Data.dd_by s) (fst sg) (snd sg) true th x y z d (Some (value_codes st))), w))
  | _ => Err ValueError
  end).
End CallInit.

(** Constructors of the model classes with linear scores: from a data object,
    learners and options to an estimator object.

    Simplifications.
    - The data argument is a data object (everything else raises TypeError).
    - A learner argument is described by the attributes the checks look at.
    - Scores are strings; scores that are functions are modelled in M_Callable and
      raise TypeError here.  Warnings are not modelled.
    - A feature is handed to the learners as a pair of numbers that determines
      the cell of the data frame, so that missing values stay distinguishable.
    - Values of cluster variables and of the stratification are only compared
      for equality; a value is represented by the first row that has it.  (With
      clusters this renumbers the units whose random order is arbitrary.)
    - The data object is not changed after the constructor call, except by the
      estimator itself, which activates the treatments one after another. *)
From Verif Require M_Data.
From Verif Require Export M_Classes.
Local Open Scope R_scope.
Local Open Scope string_scope.
Local Open Scope res_scope.

Notation frame := M_Data.frame.
Notation ddata := M_Data.ddata.

(** ** Columns of the data object as seen by the estimation
    [check_X_y(self._dml_data.x, self._dml_data.y, ...)] at the start of every
    [_nuisance_est], e.g. plm/plr.py:153-154: the cached arrays, missing values
    allowed in the features only. *)
Definition col (f : frame) (c : string) : vec := fun i => match M_Data.fcell f c i with M_Data.Num r => r | _ => 0 end.
Definition code (c : M_Data.cell) : list R :=
  match c with M_Data.Num r => [1; r] | M_Data.NaN => [0; 0] | M_Data.Infin => [0; 1] end.
Definition feats (f : frame) (cols : list string) : nat -> row := fun i => flat_map (fun c => code (M_Data.fcell f c i)) cols.
Fixpoint first_row (v : vec) (x : R) (k i : nat) : nat :=
  match k with O => i | S k' => if Req_EM_T (v i) x then i else first_row v x k' (S i) end.
Definition value_codes (v : vec) : nat -> Z := fun i => Z.of_nat (first_row v (v i) i 0).
(** sklearn's type_of_target is not "continuous": all values are whole numbers. *)
Definition whole (r : R) : bool := if Req_EM_T r (IZR (up r - 1)) then true else false.
Definition all_whole (n : nat) (v : vec) : bool := forallb (fun i => whole (v i)) (seq 0 n).

(** ** Learners *)
Record pylearner (E : Type) := {
  ly_obj : E; ly_is_class : bool; ly_fit : bool; ly_set : bool; ly_get : bool; ly_predict : bool; ly_proba : bool;
  ly_classifier : bool; ly_regressor : bool }.
Arguments ly_obj {E}. Arguments ly_is_class {E}. Arguments ly_fit {E}. Arguments ly_set {E}. Arguments ly_get {E}.
Arguments ly_predict {E}. Arguments ly_proba {E}. Arguments ly_classifier {E}. Arguments ly_regressor {E}.
(** [_check_learner] (double_ml.py:928-972): whether the learner is used as a
    classifier. *)
Definition check_learner {E} (l : pylearner E) (regressor classifier : bool) : result bool :=
  require (negb (ly_is_class l)) TypeError (
  require (ly_fit l) TypeError (
  require (ly_set l) TypeError (
  require (ly_get l) TypeError (
  let c := if regressor && classifier then ly_classifier l else classifier in
  require (if c then ly_proba l else ly_predict l) TypeError (Ok c))))).

(** ** Options *)
(** [_check_score] (utils/_checks.py:115-126). *)
Definition check_score (v : pyval) (valid : list string) : result string :=
  match v with
  | PStr s => require (smem s valid) ValueError (Ok s)
  | _ => Err TypeError
  end.
(** Checks of flags, e.g. irm/irm.py:165-168 and double_ml.py:79-80. *)
Definition check_bool (v : pyval) : result bool := match v with PBool b => Ok b | _ => Err TypeError end.
(** [_check_trimming] (utils/_checks.py:131-149) on the arguments as given:
    the threshold. *)
Definition trimming_arg (rule thr : pyval) : result R :=
  let! _ := check_trimming (match rule with PStr s => String.eqb s "truncate" | _ => false end) thr in
  match thr with PFloat x => Ok x | _ => Err TypeError end.
(** A classifier for an outcome is only accepted if the outcome is binary, e.g.
    irm/irm.py:152-160. *)
Definition check_outcome (cls binary : bool) : result unit := require (negb cls || binary) ValueError (Ok tt).

Section Init.
Context {E P : Type}.
Variable L : learner E row P.
(** Everything random: the order in which fold tasks run, the generators of the
    first draw (base class) and of the second draw (subclass). *)
Record randomness := {
  rd_order : nat -> nat -> string -> list nat; rd_models : bool;
  rd_g0 : rng; rd_perm0 : nat -> nat -> list nat -> list nat;
  rd_g : rng; rd_perm : nat -> nat -> list nat -> list nat }.
Variable rd : randomness.
Variable f : frame.
Variable s : ddata.
Let n := M_Data.frows f.
Let roles := M_Data.dd_roles s.
Let dcols := M_Data.r_d roles.
Let y := col f (M_Data.c_y s).
(** Column and features of treatment t: [set_x_d(d_cols[i_d])] in [fit]
    (double_ml.py:514-518) with several treatments; with one treatment the
    arrays of the data object are used as they are.  (Indices beyond the
    treatments do not occur and stand for the active treatment.) *)
Definition one_treat : bool := match dcols with [_] => true | _ => false end.
Definition d_of (t : nat) : vec := if one_treat then col f (M_Data.c_d s) else col f (nth t dcols (M_Data.c_d s)).
Definition x_of (t : nat) : nat -> row := if one_treat then feats f (M_Data.c_x s) else feats f (M_Data.xd_list s (nth t dcols (M_Data.c_d s))).
Let d := col f (M_Data.c_d s).
Let x := feats f (M_Data.c_x s).
Let cl : option (list (nat -> Z)) := option_map (map (fun c => value_codes (col f c))) (M_Data.c_cl s).
(** [type_of_target(v) == 'binary' and np.all(np.power(v, 2) - v == 0)], e.g.
    irm/irm.py:250-254. *)
Definition zero_one_col (c : string) : bool := M_Data.col_all f M_Data.zero_one c.
(** Cluster data (double_ml.py:31-35). *)
Definition with_clusters (C : ctx P) : ctx P := match cl with None => C | Some cv => clustered cv C end.

(** What the base constructor needs to know (double_ml.py:24-112); nothing is
    estimated at this point. *)
Definition base_ctx : ctx P := with_clusters
  {| c_n := n; c_dcols := dcols; c_cluster := None; c_strata := None; c_learners := []; c_classifier := fun _ => false; c_ext_ok := false;
     c_nuis := fun _ _ _ _ _ => Err NotImplementedError; c_sens := None |}.
Definition base_new (n_folds n_rep draw : pyval) : result (world P) := new_object base_ctx n_folds n_rep draw (rd_g0 rd) (rd_perm0 rd).
(** [self._strata = ...; if draw_sample_splitting: self.draw_sample_splitting()].
    The stratified generator refuses values that are no whole numbers (without
    clusters; with draw_sample_splitting=False this refusal would only come with
    the first draw, which is not modelled). *)
Definition strata_ctx (v : vec) : ctx P := with_clusters
  {| c_n := n; c_dcols := dcols; c_cluster := None; c_strata := Some (value_codes v); c_learners := []; c_classifier := fun _ => false; c_ext_ok := false;
     c_nuis := fun _ _ _ _ _ => Err NotImplementedError; c_sens := None |}.
Definition redraw (v : vec) (draw : pyval) (w : world P) : result (world P) :=
  match draw with
  | PBool true =>
      require (match cl with Some _ => true | None => all_whole n v end) ValueError (
      match draw_sample_splitting (strata_ctx v) (rd_g rd) (rd_perm rd) w with (w', Ok _) => Ok w' | (_, Err e) => Err e end)
  | _ => Ok w
  end.
(** The learners under the keys of [self._learner] and their prediction
    methods.  [_calc_nuisance_loss] (1104-1118) finds the learner of a nuisance
    function as the key that is a substring of its name. *)
Fixpoint prefix_of (k name : string) : bool :=
  match k, name with
  | EmptyString, _ => true
  | String a k', String b m => Ascii.eqb a b && prefix_of k' m
  | _, _ => false
  end.
Fixpoint contains (k name : string) : bool :=
  prefix_of k name || match name with EmptyString => false | String _ m => contains k m end.
Definition keys_in (keys : list string) (name : string) : list string := filter (fun k => contains k name) keys.
Record lentry := { le_obj : E; le_proba : bool; le_classifier : bool }.
Definition entry_of (l : pylearner E) (proba : bool) : lentry := {| le_obj := ly_obj l; le_proba := proba; le_classifier := ly_classifier l |}.
Definition lookup (ls : list (string * lentry)) (dflt : lentry) (k : string) : lentry :=
  match dict_get k ls with Some e => e | None => dflt end.
Definition machine (ls : list (string * lentry)) (dflt : lentry) : machinery E P :=
  {| mc_learner := fun k => le_obj (lookup ls dflt k); mc_proba := fun k => le_proba (lookup ls dflt k);
     mc_classifier := fun name => match keys_in (map fst ls) name with [k] => le_classifier (lookup ls dflt k) | _ => false end;
     mc_order := rd_order rd; mc_models := rd_models rd |}.

(** The assertion that there is exactly one such key (1109, 1118).  It fails
    after the nuisance estimation, so that [fit] raises.  The names of all
    classes but PLIV with several instruments are fixed and pass. *)
Definition one_key (keys names : list string) : bool := forallb (fun name => Nat.eqb (length (keys_in keys name)) 1) names.
Definition asserting (b : bool) (C : ctx P) : ctx P :=
  {| c_n := c_n C; c_dcols := c_dcols C; c_cluster := c_cluster C; c_strata := c_strata C; c_learners := c_learners C; c_classifier := c_classifier C; c_ext_ok := c_ext_ok C;
     c_nuis := if b then c_nuis C else fun r t fs prm ext => let! _ := c_nuis C r t fs prm ext in Err AssertionError; c_sens := c_sens C |}.

(** ** DoubleMLPLR (plm/plr.py:87-135) *)
Definition plr_init (ml_l ml_m : pylearner E) (ml_g : option (pylearner E)) (n_folds n_rep score draw : pyval) : result (ctx P * world P) :=
  let! w := base_new n_folds n_rep draw in
  require (match M_Data.r_z roles with None => true | Some _ => false end) ValueError (
  let! sc := check_score score ["IV-type"; "partialling out"] in
  let! _ := check_learner ml_l true false in
  let! m_cls := check_learner ml_m true true in
  let iv := String.eqb sc "IV-type" in
  let! g := match ml_g with
            | Some l => if iv then let! _ := check_learner l true false in Ok (Some (entry_of l false)) else Ok None
            | None => Ok (if iv then Some {| le_obj := ln_clone L (ly_obj ml_l); le_proba := false; le_classifier := ly_classifier ml_l |} else None)
            end in
  let! _ := require (negb m_cls || forallb snd (M_Data.dd_bt s)) ValueError (Ok tt) in
  let ls := ([("ml_l", entry_of ml_l false); ("ml_m", entry_of ml_m m_cls)] ++ match g with Some e => [("ml_g", e)] | None => [] end)%list in
  Ok (with_clusters (plr_ctx L (machine ls (entry_of ml_l false)) n dcols iv (fun t => match dict_get (nth t dcols EmptyString) (M_Data.dd_bt s) with Some b => b | None => false end) x_of y d_of), w)).

(** ** DoubleMLIRM (irm/irm.py:124-180, 268-290) *)
Definition no_z : bool := match M_Data.r_z roles with None => true | Some _ => false end.
Definition irm_init (ml_g ml_m : pylearner E) (n_folds n_rep score : pyval) (weights : warg) (norm rule thr draw : pyval) : result (ctx P * world P) :=
  let! w := base_new n_folds n_rep draw in
  require no_z ValueError (
  require (one_treat && zero_one_col (M_Data.c_d s)) ValueError (
  let! sc := check_score score ["ATE"; "ATTE"] in
  let! w := redraw d draw w in
  let! g_cls := check_learner ml_g true true in
  let! _ := check_learner ml_m false true in
  let! _ := check_outcome g_cls (M_Data.dd_by s) in
  let! nm := check_bool norm in
  let! th := trimming_arg rule thr in
  let atte := String.eqb sc "ATTE" in
  let! _ := check_weights weights (if atte then ScATTE else ScATE) n (m_n_rep (w_obj w)) in
  let mc := machine [("ml_g", entry_of ml_g g_cls); ("ml_m", entry_of ml_m true)] (entry_of ml_g g_cls) in
  Ok (with_clusters (irm_ctx L mc n (hd EmptyString dcols) atte nm (M_Data.dd_by s) true th (weights_of weights) x y d (Some (value_codes d))), w))).

(** ** DoubleMLAPO (irm/apo.py:82-143, 196-226).  [np.sum(treated) < 5] raises. *)
Definition level_of (v : pyval) : option R :=
  match v with PInt z => Some (IZR z) | PFloat r => Some r | PBool b => Some (if b then 1 else 0) | _ => None end.
Definition treated_at (level : pyval) : vec := fun i => match level_of level with Some r => if Req_EM_T (d i) r then 1 else 0 | None => 0 end.
Definition apo_init (ml_g ml_m : pylearner E) (level n_folds n_rep score : pyval) (weights : warg) (norm rule thr draw : pyval) : result (ctx P * world P) :=
  let! w := base_new n_folds n_rep draw in
  let lvl := treated_at level in
  require (Nat.leb (length dcols) 1) ValueError (
  require no_z ValueError (
  require (rleb 5 (sumf n lvl)) ValueError (
  let! _ := check_score score ["APO"] in
  let! w := redraw d draw w in
  let! g_cls := check_learner ml_g true true in
  let! _ := check_learner ml_m false true in
  let! _ := check_outcome g_cls (M_Data.dd_by s) in
  let! nm := check_bool norm in
  let! th := trimming_arg rule thr in
  let! _ := check_weights weights ScATE n (m_n_rep (w_obj w)) in
  let mc := machine [("ml_g", entry_of ml_g g_cls); ("ml_m", entry_of ml_m true)] (entry_of ml_g g_cls) in
  Ok (with_clusters (apo_ctx L mc n (hd EmptyString dcols) nm (M_Data.dd_by s) true th (weights_of weights) x y d lvl (Some (value_codes d))), w)))).

(** ** DoubleMLIIVM (irm/iivm.py:125-196, 224-254).  [subgroups]: None, a
    dictionary, or another object. *)
Inductive subgroups_arg := SgNone | SgDict (l : list (string * pyval)) | SgOther.
Definition check_subgroups (a : subgroups_arg) : result (bool * bool) :=
  match a with
  | SgNone => Ok (true, true)
  | SgOther => Err TypeError
  | SgDict l =>
      require (forallb (fun k => smem k (map fst l)) ["always_takers"; "never_takers"] && forallb (fun k => smem k ["always_takers"; "never_takers"]) (map fst l)) ValueError (
      let! at_ := match dict_get "always_takers" l with Some v => check_bool v | None => Err KeyError end in
      let! nt := match dict_get "never_takers" l with Some v => check_bool v | None => Err KeyError end in
      Ok (at_, nt))
  end.
Definition iivm_init (ml_g ml_m ml_r : pylearner E) (n_folds n_rep score : pyval) (subgroups : subgroups_arg) (norm rule thr draw : pyval) : result (ctx P * world P) :=
  let! w := base_new n_folds n_rep draw in
  require (one_treat && zero_one_col (M_Data.c_d s)) ValueError (
  match M_Data.c_z s with
  | Some [zc] =>
      require (zero_one_col zc) ValueError (
      let! _ := check_score score ["LATE"] in
      let z := col f zc in
      let st := fun i => d i + 2 * z i in
      let! w := redraw st draw w in
      let! g_cls := check_learner ml_g true true in
      let! _ := check_learner ml_m false true in
      let! _ := check_learner ml_r false true in
      let! _ := check_outcome g_cls (M_Data.dd_by s) in
      let! nm := check_bool norm in
      let! th := trimming_arg rule thr in
      let! sg := check_subgroups subgroups in
      let mc := machine [("ml_g", entry_of ml_g g_cls); ("ml_m", entry_of ml_m true); ("ml_r", entry_of ml_r true)] (entry_of ml_g g_cls) in
      Ok (with_clusters (iivm_ctx L mc n (hd EmptyString dcols) nm (M_Data.dd_by s) (fst sg) (snd sg) true th x y z d (Some (value_codes st))), w))
  | _ => Err ValueError
  end).

(** ** DoubleMLDID (did/did.py:82-148, 179-201); [ml_m] may be None. *)
Definition did_learners (obs : bool) (ml_g : pylearner E) (ml_m : option (pylearner E)) (binary : bool) : result (list (string * lentry)) :=
  let! g_cls := check_learner ml_g true true in
  let! m := if obs then match ml_m with Some l => let! _ := check_learner l false true in Ok [("ml_m", entry_of l true)] | None => Err TypeError end else Ok [] in
  let! _ := check_outcome g_cls binary in
  Ok (("ml_g", entry_of ml_g g_cls) :: m).
Definition did_init (ml_g : pylearner E) (ml_m : option (pylearner E)) (n_folds n_rep score norm rule thr draw : pyval) : result (ctx P * world P) :=
  let! w := base_new n_folds n_rep draw in
  require no_z ValueError (
  require (one_treat && zero_one_col (M_Data.c_d s)) ValueError (
  let! sc := check_score score ["observational"; "experimental"] in
  let! nm := check_bool norm in
  let! w := redraw d draw w in
  let obs := String.eqb sc "observational" in
  let! ls := did_learners obs ml_g ml_m (M_Data.dd_by s) in
  let! th := trimming_arg rule thr in
  Ok (with_clusters (did_ctx L (machine ls (entry_of ml_g false)) n (hd EmptyString dcols) obs nm true th x y d (Some (value_codes d))), w))).

(** ** DoubleMLDIDCS (did/did_cs.py:82-150, 180-212); without a time variable
    type_of_target(None) raises ValueError. *)
Definition cs_init (ml_g : pylearner E) (ml_m : option (pylearner E)) (n_folds n_rep score norm rule thr draw : pyval) : result (ctx P * world P) :=
  let! w := base_new n_folds n_rep draw in
  require no_z ValueError (
  require (one_treat && zero_one_col (M_Data.c_d s)) ValueError (
  match M_Data.c_t s with
  | None => Err ValueError
  | Some tc =>
      require (zero_one_col tc) ValueError (
      let! sc := check_score score ["observational"; "experimental"] in
      let! nm := check_bool norm in
      let t := col f tc in
      let st := fun i => d i + 2 * t i in
      let! w := redraw st draw w in
      let obs := String.eqb sc "observational" in
      let! ls := did_learners obs ml_g ml_m (M_Data.dd_by s) in
      let! th := trimming_arg rule thr in
      Ok (with_clusters (cs_ctx L (machine ls (entry_of ml_g false)) n (hd EmptyString dcols) obs nm true th x y d t (Some (value_codes st))), w))
  end)).

(** ** DoubleMLSSM (irm/ssm.py:101-160, 190-215).  Without a selection variable
    [None.reshape] raises AttributeError; [tts r t] draws the halves of the
    nonignorable score. *)
Definition ssm_init (tts : nat -> nat -> list nat -> list R -> list nat * list nat) (ml_g ml_pi ml_m : pylearner E)
  (n_folds n_rep score norm rule thr draw : pyval) : result (ctx P * world P) :=
  let! w := base_new n_folds n_rep draw in
  let! th := trimming_arg rule thr in
  require (negb (match score with PStr sc => String.eqb sc "nonignorable" | _ => false end && no_z)) ValueError (
  let! sc := check_score score ["missing-at-random"; "nonignorable"] in
  match M_Data.c_s s with
  | None => Err AttributeError
  | Some selc =>
      let sel := col f selc in
      let st := fun i => d i + 2 * sel i in
      let! w := redraw st draw w in
      let! g_cls := check_learner ml_g true true in
      let! _ := check_learner ml_pi false true in
      let! _ := check_learner ml_m false true in
      let! _ := check_outcome g_cls (M_Data.binary_col f (M_Data.r_y roles)) in
      let! nm := check_bool norm in
      let cloned := fun (l : pylearner E) proba => {| le_obj := ln_clone L (ly_obj l); le_proba := proba; le_classifier := ly_classifier l |} in
      let mc := machine [("ml_g", cloned ml_g g_cls); ("ml_pi", cloned ml_pi true); ("ml_m", cloned ml_m true)] (cloned ml_g g_cls) in
      Ok (with_clusters (if String.eqb sc "nonignorable" then
             ssm_non_ctx L mc n tts dcols nm true th x_of (feats f (M_Data.optl (M_Data.c_z s))) y d_of sel (Some (value_codes st))
           else ssm_ctx L mc n dcols nm true th x_of y d_of sel (Some (value_codes st))), w)
  end).

(** ** DoubleMLPLIV (plm/pliv.py:97-136, 186-220); [proj]: LinearRegression. *)
Definition pliv_init (proj : list (row * R) -> row -> R) (ml_l ml_m ml_r : pylearner E) (ml_g : option (pylearner E)) (n_folds n_rep score draw : pyval) : result (ctx P * world P) :=
  let! w := base_new n_folds n_rep draw in
  match M_Data.c_z s with
  | None | Some [] => Err ValueError
  | Some (zc :: more) =>
      let! sc := check_score score (match more with [] => ["partialling out"; "IV-type"] | _ => ["partialling out"] end) in
      let! _ := check_learner ml_l true false in
      let! _ := check_learner ml_m true false in
      let! _ := check_learner ml_r true false in
      let iv := String.eqb sc "IV-type" in
      let! g := match ml_g with
                | Some l => if iv then let! _ := check_learner l true false in Ok [("ml_g", entry_of l false)] else Ok []
                | None => if iv then Err ValueError else Ok []
                end in
      let mc := machine ([("ml_l", entry_of ml_l false); ("ml_m", entry_of ml_m false); ("ml_r", entry_of ml_r false)] ++ g)%list (entry_of ml_l false) in
      Ok (with_clusters (match more with
            | [] => pliv_ctx L mc n dcols iv x_of y d_of (col f zc)
            | _ => asserting (one_key ["ml_l"; "ml_m"; "ml_r"] (map (fun c => "ml_m_" ++ c)%string (zc :: more)))
                     (pliv_several_ctx L mc n proj dcols x_of y d_of (map (fun c => (c, col f c)) (zc :: more)))
            end), w)
  end.
(** [_partialZ] (155-168) and [_partialXZ] (170-184): the public constructor
    with two dummy regressors or without ml_g, then a second round of checks
    under which only the score "partialling out" is valid. *)
Definition pliv_partial_z (proj : list (row * R) -> row -> R) (dummy ml_r : pylearner E) (n_folds n_rep score draw : pyval) : result (ctx P * world P) :=
  let! p := pliv_init proj dummy dummy ml_r None n_folds n_rep score draw in
  let! _ := check_score score ["partialling out"] in
  let! _ := check_learner ml_r true false in
  let mc := machine [("ml_r", entry_of ml_r false)] (entry_of ml_r false) in
  Ok (with_clusters (pliv_z_ctx L mc n dcols x_of (feats f (M_Data.optl (M_Data.c_z s))) y d_of), snd p).
Definition pliv_partial_xz (proj : list (row * R) -> row -> R) (ml_l ml_m ml_r : pylearner E) (n_folds n_rep score draw : pyval) : result (ctx P * world P) :=
  let! p := pliv_init proj ml_l ml_m ml_r None n_folds n_rep score draw in
  let! _ := check_score score ["partialling out"] in
  let mc := machine [("ml_l", entry_of ml_l false); ("ml_m", entry_of ml_m false); ("ml_r", entry_of ml_r false)] (entry_of ml_l false) in
  Ok (with_clusters (pliv_xz_ctx L mc n dcols x_of (feats f (M_Data.optl (M_Data.c_z s))) y d_of), snd p).
End Init.

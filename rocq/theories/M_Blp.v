(** Best linear predictor of an orthogonal signal, group effects and policy
    trees: doubleml/utils/blp.py, doubleml/utils/policytree.py and the methods
    [cate]/[gate] (irm/irm.py, plm/plr.py), [capo]/[gapo] (irm/apo.py). *)
From Verif Require Export M_Scores M_Framework.
Local Open Scope R_scope.
Local Open Scope res_scope.

(** A data frame with real entries: column names and entries. *)
Record frame := { fr_names : list string; fr_at : nat -> nat -> R }.
Definition fr_cols (b : frame) : nat := length (fr_names b).

(** ** DoubleMLBLP *)
(** What [sm.OLS(signal, basis).fit(cov_type="HC0")] returns: coefficients and
    covariance matrix.  The regression itself is an argument [ols] of the model. *)
Record regression := { rg_params : nat -> R; rg_omega : nat -> nat -> R }.
Definition ols_fun := nat -> nat -> (nat -> nat -> R) -> (nat -> R) -> regression.

(** [bl_fit = None]: not fitted yet. *)
Record blp := { bl_n : nat; bl_signal : nat -> R; bl_basis : frame; bl_gate : bool; bl_fit : option regression }.
Fixpoint names_unique (l : list string) : bool :=
  match l with [] => true | x :: r => negb (existsb (String.eqb x) r) && names_unique r end.
(** [DoubleMLBLP.__init__] (blp.py:30-51); the signal is an array given by its
    shape and the basis a data frame (types are not modelled). *)
Definition blp_new (signal : nd) (basis : frame) (is_gate : bool) : result blp :=
  match shape signal with
  | [n] => require (names_unique (fr_names basis)) ValueError
             (Ok {| bl_n := n; bl_signal := fun i => at_ signal [i]; bl_basis := basis; bl_gate := is_gate; bl_fit := None |})
  | _ => Err ValueError
  end.
(** [fit] (blp.py:105-127). *)
Definition blp_fit (ols : ols_fun) (m : blp) : blp :=
  {| bl_n := bl_n m; bl_signal := bl_signal m; bl_basis := bl_basis m; bl_gate := bl_gate m;
     bl_fit := Some (ols (bl_n m) (fr_cols (bl_basis m)) (fr_at (bl_basis m)) (bl_signal m)) |}.

(** Rows of the reported table: lower end, effect, upper end. *)
Definition row3 := (R * R * R)%type.
(** statsmodels' [conf_int(alpha)] with a normal reference distribution (HC0):
    params -/+ ppf(1 - alpha/2) * bse. *)
Definition sm_conf_int (ppf : R -> R) (g : regression) (alpha sgn : R) (j : nat) : R :=
  rg_params g j + sgn * (ppf (1 - alpha / 2) * sqrt (rg_omega g j j)).
(** blp.py:201-208: prediction and its standard error for one basis row. *)
Definition blp_pred (p : nat) (g : regression) (row : nat -> R) : R := sumf p (fun j => row j * rg_params g j).
Definition blp_se (p : nat) (g : regression) (row : nat -> R) : R :=
  sqrt (sumf p (fun k => sumf p (fun j => row j * rg_omega g j k) * row k)).
(** blp.py:211-215: bootstrap statistics (draw b, basis row e); [root] is
    [sqrtm(omega)], [z] the matrix of normal draws of shape (p, n_boot). *)
Definition blp_boot (p : nat) (g : regression) (root : nat -> nat -> R) (z : nat -> nat -> R) (rows : nat -> nat -> R) (b e : nat) : R :=
  sumf p (fun j => rows e j * sumf p (fun k => root j k * z k b)) * (1 / blp_se p g (rows e)).
(** [np.quantile(np.max(np.abs(bootstrap_samples), axis=0), q=level)]: the
    maximum is over the draws (axis 0), the quantile over the basis rows. *)
Definition blp_crit (n_boot n_rows : nat) (stat : nat -> nat -> R) (level : R) : R :=
  quantile (map (fun e => maxf n_boot (fun b => Rabs (stat b e))) (seq 0 n_rows)) level.

(** Argument [basis] of [confint]: None or a data frame with some rows. *)
Definition names_eqb (a b : list string) : bool := if list_eq_dec string_dec a b then true else false.
(** [confint] (blp.py:131-245).  Result: row labels are dropped, one row per
    basis row (or coefficient).  The warning for joint intervals of the
    coefficients is not modelled. *)
Definition blp_confint (ppf : R -> R) (root z : nat -> nat -> R) (m : blp) (basis : option (nat * frame)) (joint level n_boot : pyval) :
    result (list row3) :=
  match joint with
  | PBool jt =>
    match level with
    | PFloat lv =>
      require (negb (rleb lv 0 || rleb 1 lv)) ValueError (
      require (is_int n_boot) TypeError (
      require (negb (Z.ltb (int_val n_boot) 1)) ValueError (
      match bl_fit m with
      | None => Err ValueError
      | Some g =>
        let p := fr_cols (bl_basis m) in
        let alpha := 1 - lv in
        let on_rows := fun (nrows : nat) (rows : nat -> nat -> R) =>
          let ends := fun e =>
            let g_hat := blp_pred p g (rows e) in
            let se := blp_se p g (rows e) in
            if jt then
              let c := blp_crit (Z.to_nat (int_val n_boot)) nrows (blp_boot p g root z rows) lv in
              (g_hat - c * se, g_hat, g_hat + c * se)
            else (g_hat + ppf (alpha / 2) * se, g_hat, g_hat + ppf (1 - alpha / 2) * se) in
          Ok (map ends (seq 0 nrows)) in
        match basis with
        | None =>
            if bl_gate m then on_rows p (fun e j => if Nat.eqb e j then 1 else 0)
            else Ok (map (fun j => (sm_conf_int ppf g (alpha / 2) (-1) j, rg_params g j, sm_conf_int ppf g (alpha / 2) 1 j)) (seq 0 p))
        | Some (nrows, b) =>
            require (Nat.eqb (fr_cols b) p) ValueError (
            require (names_eqb (fr_names b) (fr_names (bl_basis m))) ValueError (on_rows nrows (fr_at b)))
        end
      end)))
    | _ => Err TypeError
    end
  | _ => Err TypeError
  end.

(** ** Groups *)
(** A column of the [groups] data frame. *)
Inductive gcol := GBool (f : nat -> bool) | GInt (f : nat -> Z) | GFloat (f : nat -> R) | GStr (f : nat -> string).
Definition is_gbool (c : gcol) : bool := match c with GBool _ => true | _ => false end.
Definition is_gint (c : gcol) : bool := match c with GInt _ => true | _ => false end.
Definition gcol_val (c : gcol) (i : nat) : R :=
  match c with GBool f => if f i then 1 else 0 | GInt f => IZR (f i) | GFloat f => f i | GStr _ => 0 end.
(** [pd.get_dummies(groups, prefix="Group", prefix_sep="_")] of a one-column
    frame: string columns are replaced by one indicator per distinct value
    (pandas sorts the values, here they come in order of first appearance from
    the end; the order does not matter), other columns are kept. *)
Definition get_dummies (n : nat) (name : string) (c : gcol) : frame :=
  match c with
  | GStr f =>
      let values := nodup string_dec (map f (seq 0 n)) in
      {| fr_names := map (fun v => "Group_" ++ v)%string values;
         fr_at := fun i j => if String.eqb (f i) (nth j values EmptyString) then 1 else 0 |}
  | _ => {| fr_names := [name]; fr_at := fun i _ => gcol_val c i |}
  end.
(** The type check of [gate]/[gapo] (irm/irm.py:521-528, irm/apo.py:511-518,
    plm/plr.py:421-428) and the resulting basis; the warning about small groups
    is not modelled.  [all(...)] of an empty frame is True. *)
Definition gate_basis (n : nat) (cols : list (string * gcol)) : result frame :=
  if (negb (forallb (fun c => is_gbool (snd c)) cols) || forallb (fun c => is_gint (snd c)) cols)%bool then
    match cols with
    | [(name, c)] => Ok (get_dummies n name c)
    | _ => Err TypeError
    end
  else Ok {| fr_names := map fst cols; fr_at := fun i j => gcol_val (snd (nth j cols (EmptyString, GBool (fun _ => false)))) i |}.

(** [DoubleMLIRM.cate] (irm/irm.py:463-498) and [DoubleMLAPO.capo]
    (irm/apo.py:452-488): signal is psi_b.  [ate]: score == "ATE" (or "APO").
    Signals with nan, e.g. before the first fit: see [M_Cate]. *)
Definition irm_cate (ols : ols_fun) (n : nat) (ate : bool) (n_rep : nat) (psi_b : vec) (basis : frame) (is_gate : bool) : result blp :=
  require ate ValueError (
  require (Nat.eqb n_rep 1) NotImplementedError (
  let! m := blp_new (mk1 n psi_b) basis is_gate in Ok (blp_fit ols m))).
Definition irm_gate (ols : ols_fun) (n : nat) (ate : bool) (n_rep : nat) (psi_b : vec) (cols : list (string * gcol)) : result blp :=
  let! basis := gate_basis n cols in irm_cate ols n ate n_rep psi_b basis true.
(** [DoubleMLPLR._partial_out] (plm/plr.py:436-465) and [cate] (359-393). *)
Definition plr_partial_out (iv : bool) (coef : R) (y d l m g : vec) : vec * vec :=
  (fun i => if iv then y i - coef * m i - g i else y i - l i, fun i => d i - m i).
Definition plr_cate (ols : ols_fun) (n n_treat n_rep : nat) (stored : option (vec * vec)) (basis : frame) (is_gate : bool) : result blp :=
  require (negb (Nat.ltb 1 n_treat)) NotImplementedError (
  require (Nat.eqb n_rep 1) NotImplementedError (
  match stored with
  | None => Err ValueError
  | Some (yt, dt) =>
      let! m := blp_new (mk1 n yt) {| fr_names := fr_names basis; fr_at := fun i j => fr_at basis i j * dt i |} is_gate in
      Ok (blp_fit ols m)
  end)).
Definition plr_gate (ols : ols_fun) (n n_treat n_rep : nat) (stored : option (vec * vec)) (cols : list (string * gcol)) : result blp :=
  let! basis := gate_basis n cols in plr_cate ols n n_treat n_rep stored basis true.

(** ** DoubleMLPolicyTree *)
(** [fit] (policytree.py:93-108): label and weight per row. *)
Definition tree_label (s : vec) (i : nat) : R := (rsign (s i) + 1) / 2.
Definition tree_weight (s : vec) (i : nat) : R := Rabs (s i).
(** [DecisionTreeClassifier.fit] with these labels and weights; the tree itself
    is the argument [learn], a map from labels and weights to decisions per
    feature row.  scikit-learn's check of classification targets raises
    ValueError for labels that are not integers. *)
Definition tree_fit {X : Type} (learn : vec -> vec -> X -> bool) (n : nat) (s : vec) : result (X -> bool) :=
  require (forallb (fun i => reqb (tree_label s i) 0 || reqb (tree_label s i) 1)%bool (seq 0 n)) ValueError
    (Ok (learn (tree_label s) (tree_weight s))).

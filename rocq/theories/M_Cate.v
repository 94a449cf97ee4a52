(** Effect heterogeneity methods of model objects: [cate], [gate],
    [policy_tree] of irm/irm.py, [capo], [gapo] of irm/apo.py, [cate], [gate] of
    plm/plr.py, applied to the state of the object (M_Model).  Group frames,
    best linear predictors and trees as in M_Blp; frames have one row per
    observation (checked by statsmodels and scikit-learn, not modelled). *)
From Verif Require Export M_Blp M_Model.
Local Open Scope R_scope.
Local Open Scope res_scope.

(** No nan among the first n entries. *)
Definition no_nan (n : nat) (v : nat -> option R) : bool := forallb (fun i => match v i with Some _ => true | None => false end) (seq 0 n).
Section Methods.
Context {P : Type}.
Variable ols : ols_fun.
Variable C : ctx P.
Let n := c_n C.

(** [self.psi_elements["psi_b"].reshape(-1)] of an object with one repetition
    and one treatment. *)
Definition orth_signal (w : world P) (i : nat) : option R := b_at (m_psi_b (w_obj w)) [i; 0%nat; 0%nat].
(** irm/irm.py:463-498, irm/apo.py:452-488.  [None]: statsmodels does not check
    the left-hand side, so that a nan in the signal makes every result nan. *)
Definition object_cate (ate : bool) (w : world P) (basis : frame) (is_gate : bool) : result (option blp) :=
  let! m := irm_cate ols n ate (m_n_rep (w_obj w)) (fun i => oget (orth_signal w i)) basis is_gate in
  Ok (if no_nan n (orth_signal w) then Some m else None).
(** irm/irm.py:500-536, irm/apo.py:490-524. *)
Definition object_gate (ate : bool) (w : world P) (cols : list (string * gcol)) : result (option blp) :=
  let! basis := gate_basis n cols in object_cate ate w basis true.
(** irm/irm.py:538-577: the learned decision rule.  scikit-learn refuses
    [max_depth=0] and labels that are nan or no integers. *)
Definition object_tree {X : Type} (learn : nat -> vec -> vec -> X -> bool) (ate : bool) (w : world P) (depth : pyval) (features : list string) : result (X -> bool) :=
  require ate ValueError (
  require (Nat.eqb (m_n_rep (w_obj w)) 1) NotImplementedError (
  require (is_int depth) TypeError (
  require (Z.leb 0 (int_val depth)) ValueError (
  require (names_unique features) ValueError (
  require (Z.leb 1 (int_val depth)) ValueError (
  require (no_nan n (orth_signal w)) ValueError (
  tree_fit (learn (Z.to_nat (int_val depth))) n (fun i => oget (orth_signal w i))))))))).

(** plm/plr.py:359-393 and [_partial_out] (436-465).  [iv]: score "IV-type";
    y, d: arrays of the data object.  Predictions are (n_obs, n_rep, 1): with
    predictions of an earlier fit with another number of repetitions the
    arrays do not match (ValueError of pandas or statsmodels).  A nan in the
    regressors raises statsmodels' MissingDataError (here RuntimeError), a nan
    in the outcome gives nan results. *)
Definition stored_at (p : string -> buf) (name : string) (i : nat) : option R := b_at (p name) [i; 0%nat; 0%nat].
Definition partial_out_y (iv : bool) (y : vec) (w : world P) (p : string -> buf) (i : nat) : option R :=
  if iv then match b_at (m_coef (w_obj w)) [0%nat], stored_at p "ml_m" i, stored_at p "ml_g" i with
             | Some c, Some m, Some g => Some (y i - c * m - g) | _, _, _ => None end
  else match stored_at p "ml_l" i with Some l => Some (y i - l) | None => None end.
Definition partial_out_d (d : vec) (p : string -> buf) (i : nat) : option R := match stored_at p "ml_m" i with Some m => Some (d i - m) | None => None end.
Definition object_plr_cate (iv : bool) (y d : vec) (w : world P) (basis : frame) (is_gate : bool) : result (option blp) :=
  let nt := length (c_dcols C) in
  match m_preds (w_obj w) with
  | None => let! m := plr_cate ols n nt (m_n_rep (w_obj w)) None basis is_gate in Ok (Some m)
  | Some p =>
      require (negb (Nat.ltb 1 nt)) NotImplementedError (
      require (Nat.eqb (m_n_rep (w_obj w)) 1) NotImplementedError (
      require (Nat.eqb (nth 1 (b_shape (p "ml_m"%string)) 0%nat) 1) ValueError (
      require (names_unique (fr_names basis)) ValueError (
      require (no_nan n (partial_out_d d p)) RuntimeError (
      let! m := plr_cate ols n nt (m_n_rep (w_obj w)) (Some (fun i => oget (partial_out_y iv y w p i), fun i => oget (partial_out_d d p i))) basis is_gate in
      Ok (if no_nan n (partial_out_y iv y w p) then Some m else None))))))
  end.
Definition object_plr_gate (iv : bool) (y d : vec) (w : world P) (cols : list (string * gcol)) : result (option blp) :=
  let! basis := gate_basis n cols in object_plr_cate iv y d w basis true.
End Methods.

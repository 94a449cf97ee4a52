(** Nested cross-fitting and estimation of the local potential quantile
    (doubleml/irm/lpq.py:268-545) and the targets reported by the quantile models. *)
From Verif Require Export M_Quantile.
Local Open Scope R_scope.
Local Open Scope res_scope.
Local Open Scope string_scope.

(** [targets[test_inds] = ...] fold by fold, with the preliminary estimates of
    the folds, then [_cond_targets] (pq.py:356, 366-369; cvar.py:289, 300-303).
    The float targets of rows outside the arm are nan ([None]). *)
Fixpoint put_targets (smpls : list fold) (ipws : list R) (lab : R -> nat -> R) (w : nat -> option R) : nat -> option R :=
  match smpls, ipws with
  | f :: fs, t :: ts => put_targets fs ts lab (scatter (snd f) (map (lab t) (snd f)) w)
  | _, _ => w
  end.
Definition cond_targets (keep : nat -> bool) (t : nat -> option R) : nat -> option R := fun i => if keep i then t i else None.
(** Targets of ml_g; external ml_g: all nan. *)
Definition pq_g_targets {E} (c : @pq_cfg E) (y d : vec) (smpls : list fold) (ipws : list R) : nat -> option R :=
  cond_targets (fun i => reqb (d i) (level (qc_treated c)))
    match qc_ext_g c with
    | Some _ => fun _ => None
    | None => put_targets smpls ipws (fun t i => g_label c t (y i)) (fun _ => None)
    end.

Section Local.
Context {E X P : Type}.
Variable G M : learner E X P.     (* ml_g, ml_m *)
Variable o : q_oracles.
Variable x0 : X.                  (* never read inside the data *)

(** [lc_est name k]: [fitted_models[name][k]] before fitting, i.e. the clone of
    the learner with the parameters of fold k (lines 305-313).  [lc_ext]: the
    external predictions. *)
Record lpq_cfg := {
  lc_n : nat; lc_treated : bool; lc_q : R; lc_norm : bool; lc_thr : R; lc_fuel : nat; lc_bounds : R * R;
  lc_est : string -> nat -> E; lc_ext : string -> option vec }.

Definition lpq_names : list string := ["ml_m_z"; "ml_m_d_z0"; "ml_m_d_z1"; "ml_g_du_z0"; "ml_g_du_z1"].
(** [strata] (line 281). *)
Definition strata (d z : vec) : vec := fun i => d i + 2 * z i.
(** Boolean selection of rows by the instrument, in the given order. *)
Definition with_z (z : vec) (b : R) (rows : list nat) : list nat := filter (fun i => reqb (z i) b) rows.
(** Fit on rows and predict probabilities at others. *)
Definition fit01 (L : learner E X P) (e : E) (x : nat -> X) (y : vec) (rows at_rows : list nat) : result (list R) :=
  let! m := ln_fit L e (map (fun i => (x i, y i)) rows) in predict01 L m (map x at_rows).

(** Preliminary step on the first half (lines 362-413): inner cross-fitted
    propensity of the instrument, propensities of the treatment given the
    instrument fitted and evaluated on the same rows, complier share, and the
    minimiser of the weighted score. *)
Definition lpq_prelim (c : lpq_cfg) (k : nat) (start : R) (x : nat -> X) (y d z : vec) (rows1 : list nat) : result R :=
  let n1 := length rows1 in
  let d1 := take rows1 d in let y1 := take rows1 y in let z1 := take rows1 z in
  let inner := qo_skf o (map (strata d z) rows1) in
  let! r := cv_predict M (qo_order o) (ln_clone M (lc_est c "ml_m_z" k)) n1 (takex x0 rows1 x) (YVec z1) inner NoParams true false false in
  let mz := lpq_adjust n1 (lc_norm c) (lc_thr c) z1 (fun j => match cv_preds r j with Some v => v | None => 0 end) in
  let! p0 := fit01 M (ln_clone M (lc_est c "ml_m_d_z0" k)) x d (with_z z 0 rows1) rows1 in
  let! p1 := fit01 M (ln_clone M (lc_est c "ml_m_d_z1" k)) x d (with_z z 1 rows1) rows1 in
  let comp := lpq_comp n1 d1 z1 mz (fun j => nth j p0 0) (fun j => nth j p1 0) in
  let score := fun theta => meanf n1 (lpq_ipw_score (lc_treated c) (lc_q c) theta d1 y1 mz z1 comp) in
  match get_bracket_guess (lc_fuel c) score start (fst (lc_bounds c)) (snd (lc_bounds c)) with
  | None => Err RuntimeError                       (* out of fuel: excluded by the theorems *)
  | Some (_, b, _) => Ok (qo_solve o score b)
  end.

Record lfold_res := { lf_ipw : R; lf_mz : list R; lf_d0 : list R; lf_d1 : list R; lf_g0 : list R; lf_g1 : list R }.
(** [(d == treatment) * (y <= ipw_est)]. *)
Definition du (t : bool) (ipw : R) (y d : vec) : vec := fun i => arm t d i * b2r (rleb (y i) ipw).
(** Body of the loop over the folds (lines 348-468). *)
Definition lpq_fold (c : lpq_cfg) (start : R) (x : nat -> X) (y d z : vec) (k : nat) (f : fold) : result lfold_res :=
  let train := fst f in let test := snd f in
  let halves := qo_tts o train (map (strata d z) train) in
  let! ipw := lpq_prelim c k start x y d z (fst halves) in
  let! g0 := fit01 G (lc_est c "ml_g_du_z0" k) x (du (lc_treated c) ipw y d) (with_z z 0 (snd halves)) test in
  let! g1 := fit01 G (lc_est c "ml_g_du_z1" k) x (du (lc_treated c) ipw y d) (with_z z 1 (snd halves)) test in
  let! mz := fit01 M (lc_est c "ml_m_z" k) x z train test in
  let! d0 := fit01 M (lc_est c "ml_m_d_z0" k) x d (with_z z 0 train) test in
  let! d1 := fit01 M (lc_est c "ml_m_d_z1" k) x d (with_z z 1 train) test in
  Ok {| lf_ipw := ipw; lf_mz := mz; lf_d0 := d0; lf_d1 := d1; lf_g0 := g0; lf_g1 := g1 |}.

Record lpq_out := { lo_preds : string -> nat -> option R; lo_ipw : list R; lo_start : R }.
(** Predictions written to the test rows, fold by fold. *)
Definition lcollect (fs : list fold) (rs : list lfold_res) (sel : lfold_res -> list R) : nat -> option R :=
  fold_left (fun v (p : fold * lfold_res) => scatter (snd (fst p)) (sel (snd p)) v) (combine fs rs) (fun _ => None).
Definition lsel (name : string) : lfold_res -> list R :=
  if String.eqb name "ml_m_z" then lf_mz else if String.eqb name "ml_m_d_z0" then lf_d0 else if String.eqb name "ml_m_d_z1" then lf_d1
  else if String.eqb name "ml_g_du_z0" then lf_g0 else lf_g1.
(** [_nuisance_est] up to the score elements (lines 268-520).  External
    predictions are used only if all five are given; the check meant to reject
    an incomplete set (line 333) tests [any(..) and not any(..)] and never
    fires.  The loop runs over the folds of the split ([n_folds] of them). *)
Definition lpq_nuisance (c : lpq_cfg) (start : R) (x : nat -> X) (y d z : vec) (smpls : list fold) : result lpq_out :=
  if forallb (fun l => match lc_ext c l with Some _ => true | None => false end) lpq_names
  then Ok {| lo_preds := fun l i => option_map (fun v => v i) (lc_ext c l); lo_ipw := []; lo_start := start |}
  else
    let! rs := map_res (fun p : nat * fold => lpq_fold c start x y d z (fst p) (snd p)) (combine (seq 0 (length smpls)) smpls) in
    Ok {| lo_preds := fun l => lcollect smpls rs (lsel l); lo_ipw := map lf_ipw rs; lo_start := Rmean (map lf_ipw rs) |}.
(** Targets (lines 437-444, 470-478): d and the labels of ml_g on the rows with the given
    instrument, z everywhere; with external predictions ml_g has none. *)
Definition lpq_targets (c : lpq_cfg) (y d z : vec) (smpls : list fold) (r : lpq_out) (name : string) : nat -> option R :=
  let g b := cond_targets (fun i => reqb (z i) b) (put_targets smpls (lo_ipw r) (fun t i => du (lc_treated c) t y d i) (fun _ => None)) in
  if String.eqb name "ml_m_z" then fun i => Some (z i)
  else if String.eqb name "ml_m_d_z0" then cond_targets (fun i => reqb (z i) 0) (fun i => Some (d i))
  else if String.eqb name "ml_m_d_z1" then cond_targets (fun i => reqb (z i) 1) (fun i => Some (d i))
  else if String.eqb name "ml_g_du_z0" then g 0 else g 1.
(** The score elements (lines 503-535): adjusted propensity and complier share. *)
Definition lpq_mz (c : lpq_cfg) (z : vec) (r : lpq_out) : vec := lpq_adjust (lc_n c) (lc_norm c) (lc_thr c) z (val (lo_preds r "ml_m_z")).
Definition lpq_comp_hat (c : lpq_cfg) (d z : vec) (r : lpq_out) : R :=
  lpq_comp (lc_n c) d z (lpq_mz c z r) (val (lo_preds r "ml_m_d_z0")) (val (lo_preds r "ml_m_d_z1")).
Definition lpq_psi (c : lpq_cfg) (y d z : vec) (r : lpq_out) (theta : R) : vec :=
  lpq_score (lc_treated c) (lc_q c) (arm (lc_treated c) d) (lpq_mz c z r) (val (lo_preds r "ml_g_du_z0")) (val (lo_preds r "ml_g_du_z1")) y z (lpq_comp_hat c d z r) theta.
(** [_compute_score_deriv] (lines 252-270). *)
Definition lpq_deriv (kde : vec -> vec -> R) (c : lpq_cfg) (y d z : vec) (r : lpq_out) (theta : R) : vec :=
  let mz := lpq_mz c z r in
  fun _ => kde (fun i => y i - theta)
    (fun i => lpq_sign (lc_treated c) * (z i / mz i - (1 - z i) / (1 - mz i)) * arm (lc_treated c) d i / lpq_comp_hat c d z r).
(** One repetition of [fit]: the root search starts at the new start value.  The
    third component tells whether no root was found (warning). *)
Definition lpq_fit (sv : solvers) (kde : vec -> vec -> R) (c : lpq_cfg) (start : R) (x : nat -> X) (y d z : vec) (smpls : list fold) :
  result (R * R * bool) :=
  let! r := lpq_nuisance c start x y d z smpls in
  match nl_est_coef sv (lc_fuel c) (lc_n c) None (lpq_psi c y d z r) (lpq_deriv kde c y d z r) (lo_start r) (Some (lc_bounds c)) with
  | None => Err RuntimeError
  | Some (theta, warn) => Ok (theta, lo_start r, warn)
  end.
End Local.

(** Quantile models: DoubleMLPQ (irm/pq.py), DoubleMLCVAR (irm/cvar.py) and
    DoubleMLLPQ (irm/lpq.py).  Vectors are functions on row numbers. *)
From Verif Require Export M_Scores M_CrossFit.
Local Open Scope R_scope.
Local Open Scope res_scope.

(** [_check_quantile] (utils/_checks.py:173-179). *)
Definition check_quantile (q : pyval) : result unit :=
  match q with
  | PFloat q => require (negb (rleb q 0 || rleb 1 q)) ValueError (Ok tt)
  | _ => Err TypeError
  end.

(** A boolean array used as number. *)
Definition b2r (b : bool) : R := if b then 1 else 0.
(** [d == self.treatment], treatment 0 or 1 ([treated]: 1). *)
Definition level (treated : bool) : R := if treated then 1 else 0.
Definition arm (treated : bool) (d : vec) : vec := fun i => b2r (reqb (d i) (level treated)).

(** The weights entering the scores: [_trimm], [_normalize_ipw] if asked for and
    1 - m for treatment 0 (pq.py:329-333, 371-383; cvar.py:253-258, 309-319),
    with trimming_rule "truncate", the only rule accepted. *)
Definition pq_adjust (n : nat) (treated norm : bool) (thr : R) (d m : vec) : vec :=
  let mt := trimm true thr m in
  let ma := if norm then normalize_ipw n mt d else mt in
  if treated then ma else fun i => 1 - ma i.

(** [_compute_ipw_score] (pq.py:213-215, cvar.py:187-189). *)
Definition ipw_score (treated : bool) (q theta : R) (d y prop : vec) : vec :=
  fun i => arm treated d i / prop i * b2r (rleb (y i) theta) - q.
(** [DoubleMLPQ._compute_score] (pq.py:217-230), inds None; [ia], [g], [m], [y]
    are the psi_elements "ind_d", "g", "m", "y". *)
Definition pq_score (q : R) (ia g m y : vec) (coef : R) : vec :=
  fun i => ia i * (b2r (rleb (y i) coef) - g i) / m i + g i - q.
(** [DoubleMLPQ._compute_score_deriv] (pq.py:232-247); [kde u weights] oracle on
    the rows (the same number for all rows). *)
Definition pq_deriv (kde : vec -> vec -> R) (ia m y : vec) (coef : R) : vec :=
  fun _ => kde (fun i => y i - coef) (fun i => ia i / m i).

(** [g_target] (cvar.py:193-195, 276-278). *)
Definition cvar_target (q theta : R) (y : vec) : vec :=
  fun i => Rmax theta ((y i - q * theta) / (1 - q)).
(** [DoubleMLCVAR._score_elements] (cvar.py:191-199). *)
Definition cvar_score (treated : bool) (q : R) (y d g m : vec) (pq_est : R) : elems :=
  {| el_a := fun _ => -1;
     el_b := fun i => arm treated d i * (cvar_target q pq_est y i - g i) / m i + g i |}.

(** [sign = 2 * treatment - 1]. *)
Definition lpq_sign (treated : bool) : R := 2 * level treated - 1.
(** [DoubleMLLPQ._compute_ipw_score] (lpq.py:219-225). *)
Definition lpq_ipw_score (treated : bool) (q theta : R) (d y prop z : vec) (comp : R) : vec :=
  fun i => lpq_sign treated * (z i / prop i - (1 - z i) / (1 - prop i)) / comp
           * (arm treated d i * b2r (rleb (y i) theta)) + -1 * q.
(** [DoubleMLLPQ._compute_score] (lpq.py:227-250), inds None. *)
Definition lpq_score (treated : bool) (q : R) (ia m g0 g1 y z : vec) (comp coef : R) : vec :=
  fun i => let u := ia i * b2r (rleb (y i) coef) in
           lpq_sign treated * ((g1 i - g0 i) + z i / m i * (u - g1 i) - (1 - z i) / (1 - m i) * (u - g0 i)) / comp - q.
(** Estimated complier probability (lpq.py:407-413, 511-516). *)
Definition lpq_comp (n : nat) (d z m md0 md1 : vec) : R :=
  meanf n (fun i => md1 i - md0 i + z i / m i * (d i - md1 i) - (1 - z i) / (1 - m i) * (d i - md0 i)).
(** Propensity of the instrument in the final step (lpq.py:504-507). *)
Definition lpq_adjust (n : nat) (norm : bool) (thr : R) (z m : vec) : vec :=
  let mt := trimm true thr m in if norm then normalize_ipw n mt z else mt.

(** ** Nested cross-fitting of the potential quantile (pq.py:252-400) *)
(** Oracles of one run.  [qo_tts rows labels]: train_test_split(rows,
    test_size=0.5, random_state=42, stratify=labels); [qo_skf labels]:
    StratifiedKFold(n_splits).split(X, labels), positions in 0..length-1;
    [qo_solve score bracket]: minimize_scalar of |score| (_solve_ipw_score);
    [qo_order]: joblib schedule of the inner cross-fitting. *)
Record q_oracles := {
  qo_tts : list nat -> list R -> list nat * list nat;
  qo_skf : list R -> list fold;
  qo_solve : (R -> R) -> R * R -> R;
  qo_order : list nat }.

(** [v[rows]] for a numpy vector: entry k. *)
Definition take (rows : list nat) (v : vec) : vec := fun k => nth k (map v rows) 0.

Section Nested.
Context {E X P : Type}.
Variable G M : learner E X P.     (* ml_g, ml_m *)
Variable o : q_oracles.
Variable x0 : X.                  (* never read inside the data *)

Record pq_cfg := {
  qc_cvar : bool;                            (* DoubleMLCVAR (cvar.py:201-330) instead of DoubleMLPQ *)
  qc_n : nat; qc_treated : bool; qc_q : R; qc_norm : bool; qc_thr : R; qc_fuel : nat;
  qc_bounds : R * R;
  qc_g : nat -> E; qc_m : nat -> E;   (* fitted_models[..][k] before fitting: clone with the parameters of fold k *)
  qc_ext_g : option vec; qc_ext_m : option vec }.

Definition takex (rows : list nat) (x : nat -> X) : nat -> X := fun k => nth k (map x rows) x0.

(** [_predict_zero_one_propensity] (utils/_estimation.py:200-207). *)
Definition predict01 (L : learner E X P) (m : E) (xs : list X) : result (list R) :=
  let p := ln_proba L m xs in
  if forallb (fun r => Nat.eqb (length r) 2) p then col1 p else Ok (ln_predict L m xs).

(** Labels of ml_g: treated rows of the second half, [y <= ipw_est] (344-352);
    for CVaR the target value (cvar.py:270-285).  CVaR predicts with [predict]
    (cvar.py:288) and takes no external predictions. *)
Definition g_label (c : pq_cfg) (ipw yi : R) : R :=
  if qc_cvar c then cvar_target (qc_q c) ipw (fun _ => yi) 0%nat else b2r (rleb yi ipw).
Definition g_rows (c : pq_cfg) (x : nat -> X) (y d : vec) (rows2 : list nat) (ipw : R) : list (X * R) :=
  map (fun i => (x i, g_label c ipw (y i)))
      (filter (fun i => reqb (d i) (level (qc_treated c))) rows2).

Record fold_res := { fr_ipw : R; fr_g : option (list R); fr_m : option (list R) }.

(** The preliminary propensities of the first half (319-333); with external
    predictions they are read at the positions of the inner test parts, not at
    the rows (line 327). *)
Definition prelim_m (c : pq_cfg) (k : nat) (x : nat -> X) (d : vec) (rows1 : list nat) : result vec :=
  let d1 := take rows1 d in
  let inner := qo_skf o (map d rows1) in
  match qc_ext_m c with
  | None =>
      let! r := cv_predict M (qo_order o) (ln_clone M (qc_m c k)) (length rows1) (takex rows1 x) (YVec d1) inner NoParams true false false in
      Ok (fun k => match cv_preds r k with Some v => v | None => 0 end)
  | Some me => Ok (take (flat_map snd inner) me)
  end.
Definition prelim_ipw (c : pq_cfg) (start : R) (rows1 : list nat) (y d mp : vec) : result R :=
  let n1 := length rows1 in
  let d1 := take rows1 d in let y1 := take rows1 y in
  let prop := pq_adjust n1 (qc_treated c) (qc_norm c) (qc_thr c) d1 mp in
  let score := fun theta => meanf n1 (ipw_score (qc_treated c) (qc_q c) theta d1 y1 prop) in
  match get_bracket_guess (qc_fuel c) score start (fst (qc_bounds c)) (snd (qc_bounds c)) with
  | None => Err RuntimeError                       (* out of fuel: excluded by the theorems *)
  | Some (_, b, _) => Ok (qo_solve o score b)
  end.

(** Body of the loop over the folds (301-362). *)
Definition pq_fold (c : pq_cfg) (start : R) (x : nat -> X) (y d : vec) (k : nat) (f : fold) : result fold_res :=
  let train := fst f in
  let halves := qo_tts o train (map d train) in
  let! mp := prelim_m c k x d (fst halves) in
  let! ipw := prelim_ipw c start (fst halves) y d mp in
  let! gp := match qc_ext_g c with
             | Some _ => Ok None
             | None => let! e := ln_fit G (qc_g c k) (g_rows c x y d (snd halves) ipw) in
                       let! v := if qc_cvar c then Ok (ln_predict G e (map x (snd f))) else predict01 G e (map x (snd f)) in
                       Ok (Some v)
             end in
  let! mh := match qc_ext_m c with
             | Some _ => Ok None
             | None => let! e := ln_fit M (qc_m c k) (map (fun i => (x i, d i)) train) in
                       let! v := predict01 M e (map x (snd f)) in Ok (Some v)
             end in
  Ok {| fr_ipw := ipw; fr_g := gp; fr_m := mh |}.

Definition put (f : fold) (v : option (list R)) (w : nat -> option R) : nat -> option R :=
  match v with Some l => scatter (snd f) l w | None => w end.
(** Collected predictions, [None] where nothing was written (nan). *)
Fixpoint collect (fs : list fold) (rs : list fold_res) (g m : nat -> option R) : (nat -> option R) * (nat -> option R) :=
  match fs, rs with
  | f :: fs', r :: rs' => collect fs' rs' (put f (fr_g r) g) (put f (fr_m r) m)
  | _, _ => (g, m)
  end.
Definition val (v : nat -> option R) : vec := fun i => match v i with Some r => r | None => 0 end.

Record pq_out := { po_g : nat -> option R; po_m : nat -> option R; po_ipw : list R; po_start : R }.
(** [_nuisance_est] up to the score elements: predictions, preliminary estimates
    and the start value left in the object (lines 252-386). *)
Definition pq_nuisance (c : pq_cfg) (start : R) (x : nat -> X) (y d : vec) (smpls : list fold) : result pq_out :=
  match qc_ext_g c, qc_ext_m c with
  | Some g, Some m => Ok {| po_g := fun i => Some (g i); po_m := fun i => Some (m i); po_ipw := []; po_start := start |}
  | eg, em =>
      let! rs := map_res (fun p : nat * fold => pq_fold c start x y d (fst p) (snd p)) (combine (seq 0 (length smpls)) smpls) in
      let gm := collect smpls rs (fun i => match eg with Some g => Some (g i) | None => None end)
                                 (fun i => match em with Some m => Some (m i) | None => None end) in
      Ok {| po_g := fst gm; po_m := snd gm; po_ipw := map fr_ipw rs; po_start := Rmean (map fr_ipw rs) |}
  end.

(** One repetition of [fit]: nuisance step, then the root search started at the
    new start value (double_ml.py fit loop; NonLinearScoreMixin._est_coef).  The
    third component tells whether no root was found (warning). *)
Definition pq_fit (sv : solvers) (kde : vec -> vec -> R) (c : pq_cfg) (start : R) (x : nat -> X) (y d : vec)
  (smpls : list fold) : result (R * R * bool) :=
  let! r := pq_nuisance c start x y d smpls in
  let ia := arm (qc_treated c) d in
  let m := pq_adjust (qc_n c) (qc_treated c) (qc_norm c) (qc_thr c) d (val (po_m r)) in
  match nl_est_coef sv (qc_fuel c) (qc_n c) None (fun theta => pq_score (qc_q c) ia (val (po_g r)) m y theta)
          (fun theta => pq_deriv kde ia m y theta) (po_start r) (Some (qc_bounds c)) with
  | None => Err RuntimeError
  | Some (theta, warn) => Ok (theta, po_start r, warn)
  end.

(** One repetition of [fit] for CVaR: the mean of the preliminary estimates enters
    the score (cvar.py:322-324); the start value of the object is not changed. *)
Definition cvar_fit (c : pq_cfg) (start : R) (x : nat -> X) (y d : vec) (smpls : list fold) : result (R * R) :=
  let! r := pq_nuisance c start x y d smpls in
  let m := pq_adjust (qc_n c) (qc_treated c) (qc_norm c) (qc_thr c) d (val (po_m r)) in
  let e := cvar_score (qc_treated c) (qc_q c) y d (val (po_g r)) m (Rmean (po_ipw r)) in
  Ok (lin_est_coef (qc_n c) (el_a e) (el_b e) None, start).
End Nested.

(** [__init__] (pq.py:147-148): bounds and start value from the full data. *)
Definition pq_start (n : nat) (treated : bool) (q : R) (y d : vec) : R :=
  quantile (map y (filter (fun i => reqb (d i) (level treated)) (seq 0 n))) q.
Definition minf (n : nat) (y : vec) : R := - maxf n (fun i => - y i).
Definition pq_bounds (n : nat) (y : vec) : R * R := (minf n y, maxf n y).
(** cvar.py:132-133. *)
Definition cvar_start (n : nat) (treated : bool) (q : R) (y d : vec) : R :=
  let yt := map y (filter (fun i => reqb (d i) (level treated)) (seq 0 n)) in
  Rmean (filter (fun v => rleb (quantile yt q) v) yt).

(** The nuisance estimation of the model classes with linear scores
    ([_nuisance_est]): which learner is cross-fitted on which target, features
    and subsample, what external predictions replace, and how the predictions
    enter the score.  Feature rows are lists of numbers.  [check_X_y] (numeric
    conversion) and warnings are not modelled; callable scores: see M_Callable. *)
From Verif Require Export M_Tune M_Scores M_Quantile.
Local Open Scope R_scope.
Local Open Scope res_scope.
Local Open Scope string_scope.

Definition row := list R.

(** Result of one nuisance function: the entries "preds" and "targets". *)
Record hat := { h_preds : nat -> option R; h_targets : option (nat -> option R) }.
Definition ext_hat (v : vec) : hat := {| h_preds := fun i => Some (v i); h_targets := None |}.
Definition no_hat : hat := {| h_preds := fun _ => None; h_targets := None |}.
Definition const_hat (c : R) : hat := {| h_preds := fun _ => Some c; h_targets := Some (fun _ => Some c) |}.
(** Predictions used in a score; nan is totalised to 0 (theorems show that there
    is none for splits that form a partition). *)
Definition hv (h : hat) : vec := fun i => oget (h_preds h i).
(** [_cond_targets] (utils/_estimation.py:325-328) and the equivalent masking in
    IIVM, DID and DIDCS. *)
Definition mask (c : nat -> bool) (h : hat) : hat :=
  {| h_preds := h_preds h; h_targets := option_map (fun t i => if c i then t i else None) (h_targets h) |}.
(** [_trimm] on the predictions. *)
Definition trim_hat (truncate : bool) (thr : R) (h : hat) : hat :=
  {| h_preds := fun i => option_map (fun p => if truncate then rclip thr (1 - thr) p else p) (h_preds h i); h_targets := h_targets h |}.
(** [_check_finite_predictions] (utils/_checks.py:111-115). *)
Definition finite_on (smpls : list fold) (h : hat) : bool :=
  forallb (fun i => match h_preds h i with Some _ => true | None => false end) (flat_map snd smpls).
(** [_check_binary_predictions] (utils/_checks.py:200-208): all predictions 0 or 1. *)
Definition binary_preds (n : nat) (h : hat) : bool :=
  forallb (fun i => match h_preds h i with Some p => reqb p 0 || reqb p 1 | None => false end) (seq 0 n).

(** ["psi_a"], ["psi_b"], ["predictions"], ["targets"]. *)
Definition mk_out (e : elems) (hs : list (string * hat)) : nuis_out :=
  {| no_a := el_a e; no_b := el_b e;
     no_preds := fun l => match dict_get l hs with Some h => h_preds h | None => fun _ => None end;
     no_targets := fun l => match dict_get l hs with Some h => h_targets h | None => None end |}.

Section Nuis.
Context {E P : Type}.
Variable L : learner E row P.

(** What the object supplies: fold task schedules, learners, prediction methods,
    parameters of the current treatment and repetition, external predictions. *)
Record setup := {
  su_n : nat;
  su_order : string -> list nat;
  su_learner : string -> E;
  su_proba : string -> bool;
  su_params : string -> params P;
  su_ext : string -> option vec;
  su_models : bool }.
Variable su : setup.

(** One call of [_dml_cv_predict]. *)
Definition fit_nuis (name lrn : string) (x : nat -> row) (y : vec) (smpls : list fold) : result hat :=
  let! r := cv_predict L (su_order su name) (su_learner su lrn) (su_n su) x (YVec y) smpls (su_params su name) (su_proba su lrn) false (su_models su) in
  Ok {| h_preds := cv_preds r; h_targets := cv_targets r |}.
(** The same, followed by [_check_finite_predictions] ([smpls] of the object). *)
Definition fit_checked (name lrn : string) (x : nat -> row) (y : vec) (used smpls : list fold) : result hat :=
  let! h := fit_nuis name lrn x y used in
  require (finite_on smpls h) ValueError (Ok h).
(** External predictions if given. *)
Definition or_ext (name : string) (k : result hat) : result hat :=
  match su_ext su name with Some v => Ok (ext_hat v) | None => k end.

Definition is01 (v : vec) (b : R) : nat -> bool := fun i => reqb (v i) b.
Definition is01_2 (v w : vec) (a b : R) : nat -> bool := fun i => reqb (v i) a && reqb (w i) b.
Definition sub (c : nat -> bool) (smpls : list fold) : list fold := cond_smpls (su_n su) c smpls.

(** ** DoubleMLPLR._nuisance_est (plm/plr.py:152-232); [iv]: score == "IV-type"
    (for string scores the same as "ml_g" in the learners); [bin_treat]: the
    active treatment is binary. *)
Definition plr_nuis (iv bin_treat : bool) (x : nat -> row) (y d : vec) (smpls : list fold) : result nuis_out :=
  let! l := or_ext "ml_l"
    (if iv && match su_ext su "ml_g" with Some _ => true | None => false end then Ok no_hat
     else fit_checked "ml_l" "ml_l" x y smpls smpls) in
  let! m := or_ext "ml_m" (fit_checked "ml_m" "ml_m" x d smpls smpls) in
  require (negb (bin_treat && binary_preds (su_n su) m)) ValueError (
  let! g := if iv then
      or_ext "ml_g" (let theta := initial_theta (su_n su) y d (h_preds l) (h_preds m) in
                     fit_checked "ml_g" "ml_g" x (fun i => y i - theta * d i) smpls smpls)
    else Ok no_hat in
  Ok (mk_out (plr_score iv y d (hv l) (hv m) (hv g)) [("ml_l", l); ("ml_m", m); ("ml_g", g)])).

(** ** DoubleMLIRM._nuisance_est (irm/irm.py:263-341). *)
Definition irm_nuis (atte norm bin_out truncate : bool) (thr : R) (w : wgt) (x : nat -> row) (y d : vec) (smpls : list fold) : result nuis_out :=
  let! g0 := or_ext "ml_g0"
    (let! h := fit_checked "ml_g0" "ml_g" x y (sub (is01 d 0) smpls) smpls in
     require (negb (bin_out && binary_preds (su_n su) h)) ValueError (Ok (mask (is01 d 0) h))) in
  let! g1 := or_ext "ml_g1"
    (let! h := fit_checked "ml_g1" "ml_g" x y (sub (is01 d 1) smpls) smpls in Ok (mask (is01 d 1) h)) in
  require (negb (bin_out && negb atte && binary_preds (su_n su) g1)) ValueError (
  let! m0 := or_ext "ml_m" (fit_checked "ml_m" "ml_m" x d smpls smpls) in
  let m := trim_hat truncate thr m0 in
  Ok (mk_out (irm_score (su_n su) atte norm w y d (hv g0) (hv g1) (hv m)) [("ml_g0", g0); ("ml_g1", g1); ("ml_m", m)])).

(** ** DoubleMLAPO._nuisance_est (irm/apo.py:211-311); [tr]: indicator of the
    treatment level, [d]: the treatment column. *)
Definition apo_ext (name : string) (c : nat -> bool) (y : vec) (k : result hat) : result hat :=
  match su_ext su name with
  | Some v => Ok {| h_preds := fun i => Some (v i); h_targets := Some (fun i => if c i then Some (y i) else None) |}
  | None => k
  end.
Definition apo_nuis (norm bin_out truncate : bool) (thr : R) (w : wgt) (x : nat -> row) (y d tr : vec) (smpls : list fold) : result nuis_out :=
  let dx := fun i => d i :: x i in
  let! g1 := apo_ext "ml_g_d_lvl1" (is01 tr 1) y
    (let! h := fit_checked "ml_g_d_lvl1" "ml_g" x y (sub (is01 tr 1) smpls) smpls in Ok (mask (is01 tr 1) h)) in
  require (negb (bin_out && binary_preds (su_n su) g1)) ValueError (
  let! g0 := apo_ext "ml_g_d_lvl0" (is01 tr 0) y
    (let! h := fit_checked "ml_g_d_lvl0" "ml_g" dx y (sub (is01 tr 0) smpls) smpls in Ok (mask (is01 tr 0) h)) in
  require (negb (bin_out && binary_preds (su_n su) g0)) ValueError (
  let! m0 := apo_ext "ml_m" (fun _ => true) tr (fit_checked "ml_m" "ml_m" x tr smpls smpls) in
  let m := trim_hat truncate thr m0 in
  Ok (mk_out (apo_score (su_n su) norm w y tr (hv g1) (hv m)) [("ml_g_d_lvl0", g0); ("ml_g_d_lvl1", g1); ("ml_m", m)]))).

(** ** DoubleMLIIVM._nuisance_est (irm/iivm.py:255-402); [at], [nt]: entries
    "always_takers" and "never_takers" of [subgroups]. *)
Definition iivm_nuis (norm bin_out at_ nt truncate : bool) (thr : R) (x : nat -> row) (y z d : vec) (smpls : list fold) : result nuis_out :=
  let g := fun name b =>
    let! h := or_ext name (let! h := fit_checked name "ml_g" x y (sub (is01 z b) smpls) smpls in Ok (mask (is01 z b) h)) in
    require (negb (bin_out && binary_preds (su_n su) h)) ValueError (Ok h) in
  let! g0 := g "ml_g0" 0 in
  let! g1 := g "ml_g1" 1 in
  let! m0 := or_ext "ml_m" (fit_checked "ml_m" "ml_m" x z smpls smpls) in
  let m := trim_hat truncate thr m0 in
  let r := fun name (have : bool) b dflt =>
    let given := match su_ext su name with Some _ => true | None => false end in
    let! h := if have then or_ext name (fit_nuis name "ml_r" x d (sub (is01 z b) smpls)) else Ok (const_hat dflt) in
    if given then Ok h else require (finite_on smpls h) ValueError (Ok (mask (is01 z b) h)) in
  let! r0 := r "ml_r0" at_ 0 0 in
  let! r1 := r "ml_r1" nt 1 1 in
  Ok (mk_out (iivm_score (su_n su) norm y z d (hv g0) (hv g1) (hv m) (hv r0) (hv r1))
        [("ml_g0", g0); ("ml_g1", g1); ("ml_m", m); ("ml_r0", r0); ("ml_r1", r1)]).

(** ** DoubleMLDID._nuisance_est (did/did.py:202-285). *)
Definition did_nuis (obs norm truncate : bool) (thr : R) (x : nat -> row) (y d : vec) (smpls : list fold) : result nuis_out :=
  let g := fun name b => or_ext name (let! h := fit_checked name "ml_g" x y (sub (is01 d b) smpls) smpls in Ok (mask (is01 d b) h)) in
  let! g0 := g "ml_g0" 0 in
  let! g1 := g "ml_g1" 1 in
  let! m := if obs then
      let! h := or_ext "ml_m" (fit_nuis "ml_m" "ml_m" x d smpls) in
      require (finite_on smpls h) ValueError (Ok (trim_hat truncate thr h))
    else Ok no_hat in
  let p := fun i => fold_share smpls d i 0 in
  Ok (mk_out (did_score (su_n su) obs norm y d (hv g0) (hv g1) (hv m) p) [("ml_g0", g0); ("ml_g1", g1); ("ml_m", m)]).

(** ** DoubleMLDIDCS._nuisance_est (did/did_cs.py:215-354). *)
Definition cs_nuis (obs norm truncate : bool) (thr : R) (x : nat -> row) (y d t : vec) (smpls : list fold) : result nuis_out :=
  let p := fun i => fold_share smpls d i 0 in
  let lam := fun i => fold_share smpls t i 0 in
  let g := fun name a b => or_ext name (let! h := fit_nuis name "ml_g" x y (sub (is01_2 d t a b) smpls) in Ok (mask (is01_2 d t a b) h)) in
  let! g00 := g "ml_g_d0_t0" 0 0 in
  let! g01 := g "ml_g_d0_t1" 0 1 in
  let! g10 := g "ml_g_d1_t0" 1 0 in
  let! g11 := g "ml_g_d1_t1" 1 1 in
  let! m := if obs then
      let! h := or_ext "ml_m" (fit_checked "ml_m" "ml_m" x d smpls smpls) in Ok (trim_hat truncate thr h)
    else Ok no_hat in
  Ok (mk_out (cs_score (su_n su) obs norm y d t (hv g00) (hv g01) (hv g10) (hv g11) (hv m) p lam)
        [("ml_g_d0_t0", g00); ("ml_g_d0_t1", g01); ("ml_g_d1_t0", g10); ("ml_g_d1_t1", g11); ("ml_m", m)]).

(** ** DoubleMLPLIV (plm/pliv.py) *)
(** The initial estimate of [_nuisance_est_partial_x] (358-360). *)
Definition initial_theta_iv (y d z : vec) (l m r : nat -> option R) : R :=
  let res := fun (v : vec) (h : nat -> option R) i => option_map (fun a => v i - a) (h i) in
  let prod := fun (a b : option R) => match a, b with Some u, Some v => Some (u * v) | _, _ => None end in
  let psi_a := fun i => option_map Ropp (prod (res d r i) (res z m i)) in
  let psi_b := fun i => prod (res z m i) (res y l i) in
  - nanmean (su_n su) psi_b / nanmean (su_n su) psi_a.
(** [_nuisance_est_partial_x] with one instrument (251-380). *)
Definition pliv_x_nuis (iv : bool) (x : nat -> row) (y d z : vec) (smpls : list fold) : result nuis_out :=
  let! l := or_ext "ml_l" (fit_checked "ml_l" "ml_l" x y smpls smpls) in
  let! m := or_ext "ml_m" (fit_checked "ml_m" "ml_m" x z smpls smpls) in
  let! r := or_ext "ml_r" (fit_checked "ml_r" "ml_r" x d smpls smpls) in
  let! g := if iv then
      or_ext "ml_g" (let theta := initial_theta_iv y d z (h_preds l) (h_preds m) (h_preds r) in
                     fit_checked "ml_g" "ml_g" x (fun i => y i - theta * d i) smpls smpls)
    else Ok no_hat in
  Ok (mk_out (pliv_score iv y z d (hv l) (hv m) (hv r) (hv g)) [("ml_l", l); ("ml_m", m); ("ml_r", r); ("ml_g", g)]).
(** Several instruments: [zs] the columns with their names; [proj data v] is the
    prediction at [v] of a LinearRegression fitted on [data] (382-412). *)
Definition pliv_proj_score (proj : list (row * R) -> row -> R) (y d : vec) (zrow mrow : nat -> row) (l r : vec) : elems :=
  let v := fun i => map (fun p : R * R => fst p - snd p) (combine (zrow i) (mrow i)) in
  let w := fun i => d i - r i in
  let data := map (fun i => (v i, w i)) (seq 0 (su_n su)) in
  let rt := fun i => proj data (v i) in
  {| el_a := fun i => - (w i * rt i); el_b := fun i => rt i * (y i - l i) |}.
Definition pliv_xs_nuis (proj : list (row * R) -> row -> R) (x : nat -> row) (y d : vec) (zs : list (string * vec)) (smpls : list fold) : result nuis_out :=
  let! l := or_ext "ml_l" (fit_checked "ml_l" "ml_l" x y smpls smpls) in
  let! ms := map_res (fun p : string * vec => let name := ("ml_m_" ++ fst p)%string in
      let! h := or_ext name (fit_checked name "ml_m" x (snd p) smpls smpls) in Ok (name, h)) zs in
  let! r := or_ext "ml_r" (fit_checked "ml_r" "ml_r" x d smpls smpls) in
  Ok (mk_out (pliv_proj_score proj y d (fun i => map (fun p : string * vec => snd p i) zs) (fun i => map (fun p : string * hat => hv (snd p) i) ms) (hv l) (hv r))
        (("ml_l", l) :: ms ++ [("ml_r", r); ("ml_g", no_hat)])).
(** [_nuisance_est_partial_z] (414-449); takes no external predictions.
    [zrow i]: the instruments of row i. *)
Definition pliv_z_nuis (x zrow : nat -> row) (y d : vec) (smpls : list fold) : result nuis_out :=
  let xz := fun i => (x i ++ zrow i)%list in
  let! r := fit_checked "ml_r" "ml_r" xz d smpls smpls in
  Ok (mk_out {| el_a := fun i => - (hv r i * d i); el_b := fun i => hv r i * y i |} [("ml_r", r)]).
(** [_nuisance_est_partial_xz] (451-521); takes no external predictions.  The
    prediction method is "predict" for all learners (182). *)
Definition pliv_xz_nuis (x zrow : nat -> row) (y d : vec) (smpls : list fold) : result nuis_out :=
  let xz := fun i => (x i ++ zrow i)%list in
  let! l := fit_checked "ml_l" "ml_l" x y smpls smpls in
  let! rm := cv_predict L (su_order su "ml_m") (su_learner su "ml_m") (su_n su) xz (YVec d) smpls (su_params su "ml_m") false true (su_models su) in
  let m := {| h_preds := cv_preds rm; h_targets := cv_targets rm |} in
  require (finite_on smpls m) ValueError (
  let train_preds := match cv_train rm with Some (tr, _) => map (map (fun r => nth 0 r 0)) tr | None => [] end in
  let! rr := cv_predict L (su_order su "ml_r") (su_learner su "ml_r") (su_n su) x (YFolds train_preds) smpls (su_params su "ml_r") false false (su_models su) in
  let mt := {| h_preds := cv_preds rr; h_targets := cv_targets rr |} in
  require (finite_on smpls mt) ValueError (
  let u := fun i => y i - hv l i in let w := fun i => d i - hv mt i in
  let diff := fun i => hv m i - hv mt i in
  Ok (mk_out {| el_a := fun i => - (w i * diff i); el_b := fun i => diff i * u i |} [("ml_l", l); ("ml_m", m); ("ml_r", mt)]))).

(** ** DoubleMLSSM._nuisance_est (irm/ssm.py:203-404) *)
Definition dtreat (d : vec) : vec := fun i => b2r (reqb (d i) 1).
(** Score "missing-at-random" (218-271).  The targets of ml_g are not restricted
    to the subsample. *)
Definition ssm_mar_nuis (norm truncate : bool) (thr : R) (x : nat -> row) (y d s : vec) (smpls : list fold) : result nuis_out :=
  let dx := fun i => (x i ++ [d i])%list in
  let! pi := fit_checked "ml_pi" "ml_pi" dx s smpls smpls in
  let! m0 := fit_checked "ml_m" "ml_m" x d smpls smpls in
  let! g1 := fit_checked "ml_g_d1" "ml_g" x y (sub (is01_2 d s 1 1) smpls) smpls in
  let! g0 := fit_checked "ml_g_d0" "ml_g" x y (sub (is01_2 d s 0 1) smpls) smpls in
  let m := trim_hat truncate thr m0 in
  Ok (mk_out (ssm_score (su_n su) norm y (dtreat d) s (hv g1) (hv g0) (hv pi) (hv m))
        [("ml_g_d0", g0); ("ml_g_d1", g1); ("ml_pi", pi); ("ml_m", m)]).
(** Score "nonignorable" (273-366): nested cross-fitting.  [tts rows strata] is
    [train_test_split(rows, test_size=0.5, stratify=strata)]. *)
Record ssm_fold_res := { sf_pi : list R; sf_m : list R; sf_g1 : list R; sf_g0 : list R }.
Definition ssm_fold (tts : list nat -> list R -> list nat * list nat) (x : nat -> row) (zrow : nat -> row) (y d s : vec) (smpls : list fold) (k : nat) : result ssm_fold_res :=
  let dx := fun i => (x i ++ d i :: zrow i)%list in
  let model := fun name lrn => let! p := fold_params (su_params su name) k in prepare L (su_learner su lrn) p in
  match nth_error smpls k with
  | None => Err IndexError
  | Some f =>
      let halves := tts (fst f) (map (fun i => d i + 2 * s i) (fst f)) in
      let! e := model "ml_pi" "ml_pi" in
      let! e := ln_fit L e (map (fun i => (dx i, s i)) (fst halves)) in
      let! pp := predict01 L e (map dx (seq 0 (su_n su))) in
      let pi := fun i => nth i pp 0 in
      let xpi := fun i => (x i ++ [pi i])%list in
      let! em := model "ml_m" "ml_m" in
      let! em := ln_fit L em (map (fun i => (xpi i, d i)) (snd halves)) in
      let! mp := predict01 L em (map xpi (snd f)) in
      let! e1 := model "ml_g_d1" "ml_g" in
      let! e1 := ln_fit L e1 (map (fun i => (xpi i, y i)) (intersect_where (su_n su) (is01_2 d s 1 1) (snd halves))) in
      let! e0 := model "ml_g_d0" "ml_g" in
      let! e0 := ln_fit L e0 (map (fun i => (xpi i, y i)) (intersect_where (su_n su) (is01_2 d s 0 1) (snd halves))) in
      Ok {| sf_pi := map pi (snd f); sf_m := mp; sf_g1 := ln_predict L e1 (map xpi (snd f)); sf_g0 := ln_predict L e0 (map xpi (snd f)) |}
  end.
(** The predictions of the folds [0 .. n_folds-1] written to their test rows. *)
Definition ssm_collect (smpls : list fold) (rs : list ssm_fold_res) (sel : ssm_fold_res -> list R) : nat -> option R :=
  fold_left (fun v (p : fold * ssm_fold_res) => scatter (snd (fst p)) (sel (snd p)) v) (combine smpls rs) (fun _ => None).
Definition ssm_non_nuis (tts : list nat -> list R -> list nat * list nat) (n_folds : nat) (norm truncate : bool) (thr : R) (x zrow : nat -> row) (y d s : vec)
  (smpls : list fold) : result nuis_out :=
  let! rs := map_res (ssm_fold tts x zrow y d s smpls) (seq 0 n_folds) in
  let done := firstn n_folds smpls in
  let tg := fun (v : vec) => Some (fun i => if existsb (Nat.eqb i) (flat_map snd done) then Some (v i) else None) in
  let h := fun sel v => {| h_preds := ssm_collect done rs sel; h_targets := tg v |} in
  let pi := h sf_pi s in let m := trim_hat truncate thr (h sf_m d) in let g1 := h sf_g1 y in let g0 := h sf_g0 y in
  Ok (mk_out (ssm_score (su_n su) norm y (dtreat d) s (hv g1) (hv g0) (hv pi) (hv m))
        [("ml_g_d0", g0); ("ml_g_d1", g1); ("ml_pi", pi); ("ml_m", m)]).
End Nuis.
Arguments setup : clear implicits.

(** ** Estimator objects of two classes *)
(** [_get_params(name)] of the active treatment and repetition: None or a list
    with one dictionary per fold (double_ml.py:296-297, 862-915). *)
Definition params_of {P} (o : option (list P)) : params P := match o with None => NoParams | Some l => FoldDicts l end.
(** Replace the external predictions. *)
Definition with_ext {E P} (su : setup E P) (e : string -> option vec) : setup E P :=
  {| su_n := su_n su; su_order := su_order su; su_learner := su_learner su; su_proba := su_proba su; su_params := su_params su; su_ext := e; su_models := su_models su |}.
(** What the user hands to the constructor: learners, prediction methods, and
    how joblib schedules the fold tasks of each call. *)
Record machinery (E P : Type) := {
  mc_learner : string -> E; mc_proba : string -> bool; mc_classifier : string -> bool;
  mc_order : nat -> nat -> string -> list nat; mc_models : bool }.
Arguments mc_learner {E P}. Arguments mc_proba {E P}. Arguments mc_classifier {E P}. Arguments mc_order {E P}. Arguments mc_models {E P}.
Definition setup_of {E P} (mc : machinery E P) (n r t : nat) (prm : string -> option (list P)) (ext : string -> option (nat -> R)) : setup E P :=
  {| su_n := n; su_order := mc_order mc r t; su_learner := mc_learner mc; su_proba := mc_proba mc; su_params := fun l => params_of (prm l); su_ext := ext; su_models := mc_models mc |}.
(** [_sensitivity_element_est] reads [preds["predictions"]] (nan totalised as
    in [hv]) and returns a dictionary. *)
Definition pv (no : nuis_out) (l : string) : vec := fun i => oget (no_preds no l i).
Definition so_of (s : M_Scores.sens_elems) : sens_out :=
  {| so_sigma2 := sl_sigma2 s; so_nu2 := sl_nu2 s; so_psi_sigma2 := sl_psi_sigma2 s; so_psi_nu2 := sl_psi_nu2 s; so_rr := sl_rr s |}.
(** DoubleMLPLR with string scores (plm/plr.py:90-138): [x t] are the features
    when treatment [t] is active (covariates and the other treatments). *)
Definition plr_ctx {E P} (L : learner E row P) (mc : machinery E P) (n : nat) (dcols : list string) (iv : bool) (bin : nat -> bool)
  (x : nat -> nat -> row) (y : vec) (d : nat -> vec) : ctx P :=
  {| c_n := n; c_dcols := dcols; c_cluster := None; c_strata := None; c_learners := if iv then ["ml_l"; "ml_m"; "ml_g"] else ["ml_l"; "ml_m"];
     c_classifier := mc_classifier mc; c_ext_ok := true;
     c_nuis := fun r t smpls prm ext => plr_nuis L (setup_of mc n r t prm ext) iv (bin t) (x t) y (d t) smpls;
     c_sens := Some (fun r t no theta => so_of (plr_sens n iv y (d t) (pv no "ml_l") (pv no "ml_m") (pv no "ml_g") theta)) |}.
(** DoubleMLIRM with string scores (irm/irm.py:124-180); one binary treatment. *)
Definition irm_ctx {E P} (L : learner E row P) (mc : machinery E P) (n : nat) (dcol : string) (atte norm bin_out truncate : bool) (thr : R) (w : nat -> wgt)
  (x : nat -> row) (y d : vec) (strata : option (nat -> Z)) : ctx P :=
  {| c_n := n; c_dcols := [dcol]; c_cluster := None; c_strata := strata; c_learners := ["ml_g0"; "ml_g1"; "ml_m"];
     c_classifier := mc_classifier mc; c_ext_ok := true;
     c_nuis := fun r t smpls prm ext => irm_nuis L (setup_of mc n r t prm ext) atte norm bin_out truncate thr (w r) x y d smpls;
     c_sens := Some (fun r t no theta => so_of (irm_sens n atte norm (w r) y d (pv no "ml_g0") (pv no "ml_g1") (pv no "ml_m"))) |}.

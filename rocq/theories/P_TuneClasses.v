(** C84, and more of C70 and C71: tuning of all model classes. *)
From Verif Require Import L_TuneFitWitness.
Local Open Scope R_scope.
Local Open Scope string_scope.

(** ** C84: the problems that tuning solves, class by class *)
Theorem C84_plr : forall (P S : Type) (best : S -> P) (spred : S -> row -> R) n (srch : string -> nat -> list (row * R) -> result S) iv cy cd x y d smpls out,
  plr_tuning srch best spred n iv cy cd x y d smpls = Ok out -> exists pl pm,
  tuned_for best srch "ml_l" x y whole_train smpls pl /\ tuned_for best srch "ml_m" x d whole_train smpls pm /\
  if iv then exists pg theta, to_params out = [("ml_l", pl); ("ml_m", pm); ("ml_g", pg)] /\ tuned_for best srch "ml_g" x (fun i => y i - theta * d i) whole_train smpls pg /\
    (all_trained n smpls -> exists l m, last_trained spred cy srch n "ml_l" x y smpls l /\ last_trained spred cd srch n "ml_m" x d smpls m /\ prelim_slope n y d d l m m theta)
  else to_params out = [("ml_l", pl); ("ml_m", pm)].
Proof. exact @plr_problems. Qed.
Print Assumptions C84_plr.

Theorem C84_interactive : forall (P S : Type) (best : S -> P) n (srch : string -> nat -> list (row * R) -> result S) x y d smpls out,
  irm_tuning srch best n x y d smpls = Ok out -> exists p0 p1 pm,
  to_params out = [("ml_g0", p0); ("ml_g1", p1); ("ml_m", pm)] /\
  tuned_for best srch "ml_g0" x y (group_rows n (fun j => d j = 0)) smpls p0 /\ tuned_for best srch "ml_g1" x y (group_rows n (fun j => d j = 1)) smpls p1 /\
  tuned_for best srch "ml_m" x d whole_train smpls pm.
Proof. exact @irm_problems. Qed.
Print Assumptions C84_interactive.

Theorem C84_quantile : forall (P S : Type) (best : S -> P) n (srch : string -> nat -> list (row * R) -> result S) q tr x y d smpls out,
  pq_tuning srch best n q tr x y d smpls = Ok out -> exists pg pm u,
  to_params out = [("ml_g", pg); ("ml_m", pm)] /\ level_quantile n q tr y d u /\
  tuned_for best srch "ml_g" x (fun i => if Rle_dec (y i) u then 1 else 0) (group_rows n (fun j => d j = tr)) smpls pg /\ tuned_for best srch "ml_m" x d whole_train smpls pm.
Proof. exact @pq_problems. Qed.
Print Assumptions C84_quantile.

Theorem C84_potential_outcome : forall (P S : Type) (search : string -> string -> nat -> list (row * R) -> result S) (best : S -> P) n x y d lvl smpls out,
  apo_tuning search best n x y d lvl smpls = Ok out -> exists p0 p1 pm,
  to_params out = [("ml_g_d_lvl0", p0); ("ml_g_d_lvl1", p1); ("ml_m", pm)] /\
  tuned_for best (search "ml_g") "ml_g_d_lvl0" (fun i => d i :: x i) y (group_rows n (fun j => lvl j = 0)) smpls p0 /\
  tuned_for best (search "ml_g") "ml_g_d_lvl1" x y (group_rows n (fun j => lvl j = 1)) smpls p1 /\ tuned_for best (search "ml_m") "ml_m" x lvl whole_train smpls pm.
Proof. exact @apo_problems. Qed.
Print Assumptions C84_potential_outcome.

Theorem C84_local_effect : forall (P S : Type) (search : string -> string -> nat -> list (row * R) -> result S) (best : S -> P) n at_ nt x y z d smpls out,
  iivm_tuning search best n at_ nt x y z d smpls = Ok out -> exists p0 p1 pm r0 r1,
  to_params out = ([("ml_g0", p0); ("ml_g1", p1); ("ml_m", pm)] ++ (if at_ then [("ml_r0", r0)] else []) ++ (if nt then [("ml_r1", r1)] else []))%list /\
  tuned_for best (search "ml_g") "ml_g0" x y (group_rows n (fun j => z j = 0)) smpls p0 /\ tuned_for best (search "ml_g") "ml_g1" x y (group_rows n (fun j => z j = 1)) smpls p1 /\
  tuned_for best (search "ml_m") "ml_m" x z whole_train smpls pm /\
  (at_ = true -> tuned_for best (search "ml_r") "ml_r0" x d (group_rows n (fun j => z j = 0)) smpls r0) /\
  (nt = true -> tuned_for best (search "ml_r") "ml_r1" x d (group_rows n (fun j => z j = 1)) smpls r1).
Proof. exact @iivm_problems. Qed.
Print Assumptions C84_local_effect.

Theorem C84_differences : forall (P S : Type) (search : string -> string -> nat -> list (row * R) -> result S) (best : S -> P) n obs x y d smpls out,
  did_tuning search best n obs x y d smpls = Ok out -> exists p0 p1 pm,
  to_params out = ([("ml_g0", p0); ("ml_g1", p1)] ++ (if obs then [("ml_m", pm)] else []))%list /\
  tuned_for best (search "ml_g") "ml_g0" x y (group_rows n (fun j => d j = 0)) smpls p0 /\ tuned_for best (search "ml_g") "ml_g1" x y (group_rows n (fun j => d j = 1)) smpls p1 /\
  (obs = true -> tuned_for best (search "ml_m") "ml_m" x d whole_train smpls pm).
Proof. exact @did_problems. Qed.
Print Assumptions C84_differences.

Theorem C84_cross_sections : forall (P S : Type) (search : string -> string -> nat -> list (row * R) -> result S) (best : S -> P) n obs x y d t smpls out,
  cs_tuning search best n obs x y d t smpls = Ok out -> exists p00 p01 p10 p11 pm,
  to_params out = ([("ml_g_d0_t0", p00); ("ml_g_d0_t1", p01); ("ml_g_d1_t0", p10); ("ml_g_d1_t1", p11)] ++ (if obs then [("ml_m", pm)] else []))%list /\
  tuned_for best (search "ml_g") "ml_g_d0_t0" x y (group_rows n (fun j => d j = 0 /\ t j = 0)) smpls p00 /\ tuned_for best (search "ml_g") "ml_g_d0_t1" x y (group_rows n (fun j => d j = 0 /\ t j = 1)) smpls p01 /\
  tuned_for best (search "ml_g") "ml_g_d1_t0" x y (group_rows n (fun j => d j = 1 /\ t j = 0)) smpls p10 /\ tuned_for best (search "ml_g") "ml_g_d1_t1" x y (group_rows n (fun j => d j = 1 /\ t j = 1)) smpls p11 /\
  (obs = true -> tuned_for best (search "ml_m") "ml_m" x d whole_train smpls pm).
Proof. exact @cs_problems. Qed.
Print Assumptions C84_cross_sections.

Theorem C84_selection : forall (P S : Type) (search : string -> string -> nat -> list (row * R) -> result S) (best : S -> P) n zrow x y d s smpls out,
  ssm_tuning search best n zrow x y d s smpls = Ok out -> exists p0 p1 pp pm,
  to_params out = [("ml_g_d0", p0); ("ml_g_d1", p1); ("ml_pi", pp); ("ml_m", pm)] /\
  tuned_for best (search "ml_g") "ml_g_d0" x y (group_rows n (fun j => d j = 0 /\ s j = 1)) smpls p0 /\ tuned_for best (search "ml_g") "ml_g_d1" x y (group_rows n (fun j => d j = 1 /\ s j = 1)) smpls p1 /\
  tuned_for best (search "ml_pi") "ml_pi" (fun i => match zrow with Some z => (x i ++ [d i] ++ z i)%list | None => (x i ++ [d i])%list end) s whole_train smpls pp /\
  tuned_for best (search "ml_m") "ml_m" x d whole_train smpls pm.
Proof. exact @ssm_problems. Qed.
Print Assumptions C84_selection.

Theorem C84_local_quantile : forall (P S : Type) (search : string -> string -> nat -> list (row * R) -> result S) (best : S -> P) n q tr x y z d smpls out,
  lpq_tuning search best n q tr x y z d smpls = Ok out -> exists pz p0 p1 h0 h1 u,
  to_params out = [("ml_m_z", pz); ("ml_m_d_z0", p0); ("ml_m_d_z1", p1); ("ml_g_du_z0", h0); ("ml_g_du_z1", h1)] /\ level_quantile n q tr y d u /\
  let du := fun i => if Req_EM_T (d i) tr then if Rle_dec (y i) u then 1 else 0 else 0 in
  tuned_for best (search "ml_m_z") "ml_m_z" x z whole_train smpls pz /\
  tuned_for best (search "ml_m_d_z0") "ml_m_d_z0" x d (group_rows n (fun j => z j = 0)) smpls p0 /\ tuned_for best (search "ml_m_d_z1") "ml_m_d_z1" x d (group_rows n (fun j => z j = 1)) smpls p1 /\
  tuned_for best (search "ml_g_du_z0") "ml_g_du_z0" x du (group_rows n (fun j => z j = 0)) smpls h0 /\ tuned_for best (search "ml_g_du_z1") "ml_g_du_z1" x du (group_rows n (fun j => z j = 1)) smpls h1.
Proof. exact @lpq_problems. Qed.
Print Assumptions C84_local_quantile.

Theorem C84_cvar : forall (P S : Type) (search : string -> string -> nat -> list (row * R) -> result S) (best : S -> P) n q tr x y d smpls out,
  cvar_tuning search best n q tr x y d smpls = Ok out -> exists pg pm u,
  to_params out = [("ml_g", pg); ("ml_m", pm)] /\ level_quantile n q tr y d u /\
  tuned_for best (search "ml_g") "ml_g" x (fun i => Rmax u ((y i - q * u) / (1 - q))) (group_rows n (fun j => d j = tr)) smpls pg /\ tuned_for best (search "ml_m") "ml_m" x d whole_train smpls pm.
Proof. exact @cvar_problems. Qed.
Print Assumptions C84_cvar.

Theorem C84_pliv : forall (P S : Type) (search : string -> string -> nat -> list (row * R) -> result S) (best : S -> P) (spred : S -> row -> R) n iv cy cz cd x y d z smpls out,
  pliv_tuning search best spred n iv cy cz cd x y d z smpls = Ok out -> exists pl pm pr,
  tuned_for best (search "ml_l") "ml_l" x y whole_train smpls pl /\ tuned_for best (search "ml_m") "ml_m" x z whole_train smpls pm /\ tuned_for best (search "ml_r") "ml_r" x d whole_train smpls pr /\
  if iv then exists pg theta, to_params out = [("ml_l", pl); ("ml_m", pm); ("ml_r", pr); ("ml_g", pg)] /\ tuned_for best (search "ml_g") "ml_g" x (fun i => y i - theta * d i) whole_train smpls pg /\
    (all_trained n smpls -> exists l m r, last_trained spred cy (search "ml_l") n "ml_l" x y smpls l /\ last_trained spred cz (search "ml_m") n "ml_m" x z smpls m /\ last_trained spred cd (search "ml_r") n "ml_r" x d smpls r /\ prelim_slope n y d z l r m theta)
  else to_params out = [("ml_l", pl); ("ml_m", pm); ("ml_r", pr)].
Proof. exact @pliv_problems. Qed.
Print Assumptions C84_pliv.

Theorem C84_pliv_several : forall (P S : Type) (search : string -> string -> nat -> list (row * R) -> result S) (best : S -> P) x y d zs smpls out,
  pliv_several_tuning search best x y d zs smpls = Ok out -> exists pl pr pms,
  to_params out = ([("ml_l", pl); ("ml_r", pr)] ++ pms)%list /\ map fst pms = map (fun p => "ml_m_" ++ fst p) zs /\
  tuned_for best (search "ml_l") "ml_l" x y whole_train smpls pl /\ tuned_for best (search "ml_r") "ml_r" x d whole_train smpls pr /\
  forall j zc z, nth_error zs j = Some (zc, z) -> exists pm, nth_error pms j = Some ("ml_m_" ++ zc, pm) /\ tuned_for best (search "ml_m") ("ml_m_" ++ zc) x z whole_train smpls pm.
Proof. exact @pliv_several_problems. Qed.
Print Assumptions C84_pliv_several.

Theorem C84_pliv_partialled_instruments : forall (P S : Type) (search : string -> string -> nat -> list (row * R) -> result S) (best : S -> P) x zrow d smpls out,
  pliv_z_tuning search best x zrow d smpls = Ok out -> exists pr,
  to_params out = [("ml_r", pr)] /\ tuned_for best (search "ml_r") "ml_r" (fun i => (x i ++ zrow i)%list) d whole_train smpls pr.
Proof. exact @pliv_z_problems. Qed.
Print Assumptions C84_pliv_partialled_instruments.

Theorem C84_pliv_partialled_both : forall (P S : Type) (search : string -> string -> nat -> list (row * R) -> result S) (best : S -> P) (spred : S -> row -> R) x zrow y d smpls out,
  pliv_xz_tuning search best spred x zrow y d smpls = Ok out -> exists pl pm pr, let xz := fun i => (x i ++ zrow i)%list in
  to_params out = [("ml_l", pl); ("ml_m", pm); ("ml_r", pr)] /\
  tuned_for best (search "ml_l") "ml_l" x y whole_train smpls pl /\ tuned_for best (search "ml_m") "ml_m" xz d whole_train smpls pm /\ length pr = length smpls /\
  forall k h, nth_error smpls k = Some h -> exists sm sr, search "ml_m" "ml_m" k (map (fun j => (xz j, d j)) (fst h)) = Ok sm /\
    search "ml_r" "ml_r" k (map (fun j => (x j, spred sm (xz j))) (fst h)) = Ok sr /\ nth_error pr k = Some (best sr).
Proof. exact @pliv_xz_problems. Qed.
Print Assumptions C84_pliv_partialled_both.

Example C84_case_classes : classes_tuned.
Proof. exact all_tuned. Qed.

(** ** The next fit *)
(** A fit after tuning: every row is predicted by a model with the parameters found on the rows that model is fitted on. *)
Theorem C84_fit_after_tuning : forall (E P S : Type) (L : learner E row P) f g (mc : machinery E P) (best : S -> P) srch (C : ctx P) names (tn : nat -> option nat -> list fold -> result (tune_out P (list (list S)))) a w w1 r0
  n ext r t col name lrn x y sel sm fs v,
  is_true (ta_on_folds a) = true -> is_true (ta_set a) = true -> NoDup (c_dcols C) -> tune C names tn a w = (w1, Ok r0) ->
  m_smpls (w_obj w) = Some sm -> nth_error sm r = Some fs -> (r < m_n_rep (w_obj w))%nat -> nth_error (c_dcols C) t = Some col -> by_rows sel ->
  (forall r' fs' res, tn t (Some r') fs' = Ok res -> exists ps, dict_get name (to_params res) = Some ps /\ tuned_for best srch name x y sel fs' ps) ->
  (forall e, ~ supplied ext col name r e) -> used_prediction L f g mc w1 n ext r t col name lrn x y sel fs v ->
  tuned_prediction L f g mc n best srch name lrn x y sel fs v.
Proof. exact @fit_after_tuning. Qed.
Print Assumptions C84_fit_after_tuning.

(** Constructor, tuning, fit: interactive regression. *)
Theorem C84_interactive_end_to_end : forall (E P S : Type) (L : learner E row P) f g (srch : string -> nat -> list (row * R) -> result S) (best : S -> P) rd fr s ml_g ml_m nf nr wa nm rule thr draw C w0 w names a ret w1 nj store smod w',
  S_Data.reachable fr s -> unclustered s -> sound_randomness rd -> (0 < M_Data.frows fr)%nat ->
  irm_init L rd fr s ml_g ml_m nf nr (PStr "ATE") wa (PBool nm) rule (PFloat thr) draw = Ok (C, w0) -> later C w0 w ->
  let n := M_Data.frows fr in let dcol := hd "" (M_Data.r_d (M_Data.dd_roles s)) in let x := covariates fr s dcol in let y := outcome fr s in let d := col fr dcol in
  is_true (ta_on_folds a) = true -> is_true (ta_set a) = true -> tune C names (fun _ _ fs => irm_tuning srch best n x y d fs) a w = (w1, Ok ret) ->
  exists mc, mc_order mc = rd_order rd /\ runs_on mc "ml_g" ml_g (ly_classifier ml_g) /\ runs_on mc "ml_m" ml_m true /\
  (sound_learning L f g mc w1 ->
  labels_everywhere L g mc w1 n "ml_g" y (fun j => d j = 0) -> labels_everywhere L g mc w1 n "ml_g" y (fun j => d j = 1) -> labels_everywhere L g mc w1 n "ml_m" d everyone ->
  fit C nj store ExtNone smod w1 = (w', Ok tt) ->
  exists F sm, fit_done w1 w' F sm 1 /\ m_smpls (w_obj w) = Some sm /\ forall r fs, nth_error sm r = Some fs -> (r < m_n_rep (w_obj w0))%nat -> exists g0 g1 m0 m,
      tuned_prediction L f g mc n best srch "ml_g0" "ml_g" x y (group_rows n (fun j => d j = 0)) fs g0 /\
      tuned_prediction L f g mc n best srch "ml_g1" "ml_g" x y (group_rows n (fun j => d j = 1)) fs g1 /\
      tuned_prediction L f g mc n best srch "ml_m" "ml_m" x d whole_train fs m0 /\ clipped n true thr m0 m /\
      let W := weights_of wa r in
      let ma := ps_adjust n m d nm in
      let s := fun i => wg W i * (g1 i - g0 i) + resid_weights W i * (d i * (y i - g1 i) / ma i - (1 - d i) * (y i - g0 i) / (1 - ma i)) in
      (off_bounds n ma -> estimate_is F n 0 r (meanf n s) (fun i => s i - meanf n s * (wg W i / meanf n (wg W))) (INR n))).
Proof. exact @irm_tuned_end. Qed.
Print Assumptions C84_interactive_end_to_end.

(** Constructor, tuning, fit: partially linear regression. *)
Theorem C84_plr_end_to_end : forall (E P S : Type) (L : learner E row P) f g (srch : string -> nat -> list (row * R) -> result S) (best : S -> P) spred cy cd rd fr s ml_l ml_m ml_g nf nr draw C w0 w names a ret w1 nj store smod w',
  S_Data.reachable fr s -> unclustered s -> sound_randomness rd -> (0 < M_Data.frows fr)%nat ->
  plr_init L rd fr s ml_l ml_m ml_g nf nr (PStr "partialling out") draw = Ok (C, w0) -> later C w0 w ->
  let n := M_Data.frows fr in let dcols := M_Data.r_d (M_Data.dd_roles s) in let y := outcome fr s in
  is_true (ta_on_folds a) = true -> is_true (ta_set a) = true ->
  tune C names (fun t _ fs => plr_tuning srch best spred n false cy cd (covariates fr s (nth t dcols "")) y (col fr (nth t dcols "")) fs) a w = (w1, Ok ret) ->
  exists mc, mc_order mc = rd_order rd /\ runs_on mc "ml_l" ml_l false /\ runs_on mc "ml_m" ml_m (ly_classifier ml_m) /\
  (sound_learning L f g mc w1 ->
  labels_everywhere L g mc w1 n "ml_l" y everyone -> (forall c, In c dcols -> labels_everywhere L g mc w1 n "ml_m" (col fr c) everyone) ->
  fit C nj store ExtNone smod w1 = (w', Ok tt) ->
  exists F sm, fit_done w1 w' F sm (length dcols) /\ m_smpls (w_obj w) = Some sm /\
    forall r t fs c, nth_error sm r = Some fs -> nth_error dcols t = Some c -> let x := covariates fr s c in let d := col fr c in exists l m,
      tuned_prediction L f g mc n best srch "ml_l" "ml_l" x y whole_train fs l /\
      tuned_prediction L f g mc n best srch "ml_m" "ml_m" x d whole_train fs m /\
      (sumf n (fun i => (d i - m i) ^ 2) <> 0 ->
       let theta := sumf n (fun i => (d i - m i) * (y i - l i)) / sumf n (fun i => (d i - m i) ^ 2) in
       at_ (fw_all_thetas F) [t; r] = theta /\
       at_ (fw_all_ses F) [t; r] = sqrt (sumf n (fun i => ((d i - m i) * (y i - l i - theta * (d i - m i))) ^ 2)) / sumf n (fun i => (d i - m i) ^ 2))).
Proof. exact @plr_tuned_end. Qed.
Print Assumptions C84_plr_end_to_end.

(** Nonignorable selection: learners that can be tuned but not fitted afterwards. *)
Theorem C84_nonignorable_selection_refuted : exists (x zrow : nat -> row) (y d s : vec) smpls out, ssm_tuning width_search (fun e => e) 4 (Some zrow) x y d s smpls = Ok out /\
  ssm_non_nuis width_learner (width_params (to_params out)) halve 2 false true (1 / 100) x zrow y d s smpls = Err ValueError.
Proof. exact @ssm_unfittable. Qed.
Print Assumptions C84_nonignorable_selection_refuted.

Example C84_case : irm_tuned_case.
Proof. exact irm_tuned. Qed.

(** ** C71: no leak of a fold's test rows into its parameters *)
Theorem C71_group_problem : forall (P S : Type) (best : S -> P) srch name x x' y y' n (G G' : nat -> Prop) smpls ps ps' k h,
  tuned_for best srch name x y (group_rows n G) smpls ps -> tuned_for best srch name x' y' (group_rows n G') smpls ps' -> nth_error smpls k = Some h ->
  (forall i, In i (fst h) -> x i = x' i /\ y i = y' i /\ (G i <-> G' i)) -> nth_error ps k = nth_error ps' k.
Proof. exact @problem_no_leak. Qed.
Print Assumptions C71_group_problem.

Theorem C71_whole_problem : forall (P S : Type) (best : S -> P) srch name x x' y y' smpls ps ps' k h,
  tuned_for best srch name x y whole_train smpls ps -> tuned_for best srch name x' y' whole_train smpls ps' -> nth_error smpls k = Some h ->
  (forall i, In i (fst h) -> x i = x' i /\ y i = y' i) -> nth_error ps k = nth_error ps' k.
Proof. exact @problem_no_leak_whole. Qed.
Print Assumptions C71_whole_problem.

Example C71_case_problem : exists ps, tuned_for c_best c_search "ml_m" (fun _ => [0]) (fun _ => 0) whole_train w_smpls ps /\ tuned_for c_best c_search "ml_g0" (fun _ => [0]) (fun _ => 0) (group_rows 8 (fun _ => True)) w_smpls ps.
Proof. exact problem_case. Qed.

(** ** C70: when fold-wise tuning succeeds *)
Theorem C70_folds_accepted : forall (P T : Type) (C : ctx P) names (tn : nat -> option nat -> list fold -> result (tune_out P T)) a w, documented_call names a -> is_true (ta_on_folds a) = true -> reachable C w -> c_dcols C <> [] ->
  (exists sm, m_smpls (w_obj w) = Some sm) -> tuner_returns C tn w -> ((exists w' x, tune C names tn a w = (w', Ok x)) <-> m_n_rep (w_obj w) = length (c_dcols C)).
Proof. exact @tune_folds_iff. Qed.
Print Assumptions C70_folds_accepted.

(** Tuning leads to a state that user calls can reach. *)
Theorem C70_later_state : forall (P T : Type) (C : ctx P) names (tn : nat -> option nat -> list fold -> result (tune_out P T)) a w0 w, later C w0 w -> later C w0 (fst (tune C names tn a w)).
Proof. exact @tune_later. Qed.
Print Assumptions C70_later_state.

Example C70_case_folds : irm_tuned_case.
Proof. exact irm_tuned. Qed.

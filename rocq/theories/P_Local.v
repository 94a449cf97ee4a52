(** Properties of the complete quantile models: C76 and the quantile parts of
    C43, C66, C67 and C74. *)
From Verif Require Import S_Local L_Local L_LocalFit L_Lpq L_LpqWitness L_NuisWitness L_QWitness.
From Coq Require Import Lra Lia.
Local Open Scope R_scope.
Local Open Scope string_scope.

(** ** C76 *)
(** Potential quantile and CVaR: what the reported predictions are. *)
Theorem C76_potential_quantile : forall (E X P : Type) (G M : learner E X P) fG fM gG gM o x0 (c : @pq_cfg E) x y d,
  row_wise G fG gG -> classifier_ok G gG -> row_wise M fM gM -> classifier_ok M gM -> clone_ok M -> qc_ext_m c = None ->
  forall start n smpls r, fst (qc_bounds c) <= start <= snd (qc_bounds c) -> partition_of n smpls ->
  (forall h, In h smpls -> inner_split d (first_half o d h) (qo_skf o (map d (first_half o d h))) (qo_order o)) ->
  pq_nuisance G M o x0 c start x y d smpls = Ok r ->
  length (po_ipw r) = length smpls /\ po_start r = Rmean (po_ipw r) /\
  forall i, (i < n)%nat -> exists k h ipw gi mi, tested_in smpls i k h /\ nth_error (po_ipw r) k = Some ipw /\
    po_g r i = Some gi /\ po_m r i = Some mi /\ pq_preliminary M gM o c x y d k h ipw /\
    match qc_ext_g c with
    | Some ge => gi = ge i /\ predicts01 M fM gM (qc_m c k) x d (fst h) (x i) mi
    | None => pq_cross G M fG fM gG gM o c x y d k h ipw i gi mi
    end.
Proof. exact @pq_documented. Qed.
Print Assumptions C76_potential_quantile.

Example C76_case_nested : row_wise r_learner r_predict r_proba /\ classifier_ok r_learner r_proba /\ clone_ok r_learner /\ partition_of 16 u_smpls /\
  (forall h, In h u_smpls -> inner_split u_d (first_half u_o u_d h) (qo_skf u_o (map u_d (first_half u_o u_d h))) (qo_order u_o)) /\
  forall cv, exists r, pq_nuisance r_learner r_learner u_o [] (u_c cv) 7 u_x u_y u_d u_smpls = Ok r.
Proof. split; [exact r_row|]. split; [exact r_classifier|]. split; [exact r_clone|]. split; [exact u_part|]. split; [exact u_pq_inner|exact u_pq_run]. Qed.

(** The reported quantile solves the weighted, bias-corrected share equation. *)
Theorem C76_quantile_root : forall (E X P : Type) (G M : learner E X P) o x0 (c : @pq_cfg E) x y d sv kde tol start n smpls theta s warn,
  solver_ok o -> brentq_ok sv -> fmin_ok sv -> brentq_near sv tol ->
  smpls <> [] -> (0 < n)%nat -> qc_n c = n -> (11 <= qc_fuel c)%nat -> binary n d -> 0 < qc_thr c < 1 / 2 -> fst (qc_bounds c) <= start <= snd (qc_bounds c) ->
  pq_fit G M o x0 sv kde c start x y d smpls = Ok (theta, s, warn) ->
  fst (qc_bounds c) <= theta <= snd (qc_bounds c) /\
  exists r, pq_nuisance G M o x0 c start x y d smpls = Ok r /\ s = po_start r /\
    let w := arm_weight n (qc_treated c) (qc_norm c) (qc_thr c) d (val (po_m r)) in
    let q' := qc_q c - meanf n (fun i => (1 - w i) * val (po_g r) i) in
    (warn = false -> forall a b, a < theta - tol -> theta + tol < b -> wshare n w (fun i => rleb (y i) a) <= q' <= wshare n w (fun i => rleb (y i) b)).
Proof. exact @pq_fit_root. Qed.
Print Assumptions C76_quantile_root.

Example C76_case_root : forall kde, solver_ok u_o /\ brentq_ok (bs_solvers (1 / 100)) /\ fmin_ok (bs_solvers (1 / 100)) /\ brentq_near (bs_solvers (1 / 100)) (1 / 100) /\ binary 4 e_d /\
  exists theta, pq_fit r_learner r_learner u_o [] (bs_solvers (1 / 100)) kde e_c 5 u_x e_y e_d e_smpls = Ok (theta, 5, false).
Proof.
  intro kde. split; [exact u_solver|]. split; [apply bs_ok|]. split; [apply bs_fmin|]. split; [apply bs_near; lra|]. split; [|exact (e_fit kde)].
  intros i Hi. unfold e_d. destruct i as [|[|[|[|]]]]; try lia; cbn; lra.
Qed.

(** CVaR: the weighted tail mean at the mean of the preliminary quantiles. *)
Theorem C76_cvar : forall (E X P : Type) (G M : learner E X P) o x0 (c : @pq_cfg E) x y d start n smpls theta s,
  (0 < n)%nat -> qc_n c = n -> cvar_fit G M o x0 c start x y d smpls = Ok (theta, s) ->
  s = start /\ exists r, pq_nuisance G M o x0 c start x y d smpls = Ok r /\
    let w := arm_weight n (qc_treated c) (qc_norm c) (qc_thr c) d (val (po_m r)) in
    theta = tail_mean n w y (qc_q c) (Rmean (po_ipw r)) + meanf n (fun i => (1 - w i) * val (po_g r) i).
Proof. exact @cvar_fit_tail. Qed.
Print Assumptions C76_cvar.

Example C76_case_cvar : exists theta, cvar_fit r_learner r_learner u_o [] (u_c true) 7 u_x u_y u_d u_smpls = Ok (theta, 7).
Proof. exact u_cvar_fit. Qed.

(** Local potential quantile: what the reported predictions are. *)
Theorem C76_local_quantile : forall (E X P : Type) (G M : learner E X P) o x0 (c : @lpq_cfg E) fG fM gG gM x y d z,
  row_wise G fG gG -> classifier_ok G gG -> row_wise M fM gM -> classifier_ok M gM -> clone_ok M ->
  forall start n smpls r, fst (lc_bounds c) <= start <= snd (lc_bounds c) -> partition_of n smpls -> (exists name, In name lpq_names /\ lc_ext c name = None) ->
  (forall h, In h smpls -> inner_split z (lfirst_half o d z h) (qo_skf o (map (cells4 d z) (lfirst_half o d z h))) (qo_order o)) ->
  lpq_nuisance G M o x0 c start x y d z smpls = Ok r ->
  length (lo_ipw r) = length smpls /\ lo_start r = Rmean (lo_ipw r) /\
  forall i, (i < n)%nat -> exists k h ipw mz d0 d1 g0 g1, tested_in smpls i k h /\ nth_error (lo_ipw r) k = Some ipw /\
    lo_preds r "ml_m_z" i = Some mz /\ lo_preds r "ml_m_d_z0" i = Some d0 /\ lo_preds r "ml_m_d_z1" i = Some d1 /\
    lo_preds r "ml_g_du_z0" i = Some g0 /\ lo_preds r "ml_g_du_z1" i = Some g1 /\
    lpq_preliminary M fM gM o c x y d z k h ipw /\ lpq_cross G M fG fM gG gM o c x y d z k h ipw i mz d0 d1 g0 g1.
Proof. exact @lpq_documented. Qed.
Print Assumptions C76_local_quantile.

Example C76_case_local :
  (forall h, In h u_smpls -> inner_split u_z (lfirst_half u_o u_d u_z h) (qo_skf u_o (map (cells4 u_d u_z) (lfirst_half u_o u_d u_z h))) (qo_order u_o)) /\
  exists r, lpq_nuisance r_learner r_learner u_o [] (v_c (fun _ => None)) 7 u_x u_y u_d u_z u_smpls = Ok r.
Proof.
  split; [exact v_inner|]. destruct (v_run (fun _ => None)) as (r & E & _); [exists "ml_m_z"; split; [now left|reflexivity]|]. exists r. exact E.
Qed.

(** The reported local quantile is a sign change of the documented Wald ratio. *)
Theorem C76_local_root : forall (E X P : Type) (G M : learner E X P) o x0 (c : @lpq_cfg E) sv kde tol start n x y d z smpls theta s warn,
  solver_ok o -> brentq_ok sv -> fmin_ok sv -> brentq_near sv tol ->
  smpls <> [] -> (0 < n)%nat -> lc_n c = n -> (11 <= lc_fuel c)%nat -> fst (lc_bounds c) <= start <= snd (lc_bounds c) ->
  lpq_fit G M o x0 sv kde c start x y d z smpls = Ok (theta, s, warn) ->
  fst (lc_bounds c) <= theta <= snd (lc_bounds c) /\
  exists r, lpq_nuisance G M o x0 c start x y d z smpls = Ok r /\ s = lo_start r /\
    let mz := lpq_adjust n (lc_norm c) (lc_thr c) z (val (lo_preds r "ml_m_z")) in
    let share := meanf n (dr_signal d z (val (lo_preds r "ml_m_d_z0")) (val (lo_preds r "ml_m_d_z1")) mz) in
    (warn = false -> crosses (fun t => (if lc_treated c then 1 else -1) *
       meanf n (dr_signal (event c y d t) z (val (lo_preds r "ml_g_du_z0")) (val (lo_preds r "ml_g_du_z1")) mz) / share - lc_q c) tol theta).
Proof. exact @lpq_fit_root. Qed.
Print Assumptions C76_local_root.

Example C76_case_local_root : forall kde, exists theta, lpq_fit r_learner r_learner u_o [] (bs_solvers (1 / 100)) kde g_c 5 u_x e_y e_d e_d e_smpls = Ok (theta, 5, false).
Proof. exact g_fit. Qed.

(** ** C74: targets *)
Theorem C74_quantile : forall E (c : @pq_cfg E) y d n smpls ipws i k h t, partition_of n smpls -> qc_ext_g c = None -> tested_in smpls i k h -> nth_error ipws k = Some t ->
  (d i = level (qc_treated c) -> pq_g_targets c y d smpls ipws i = Some (if qc_cvar c then Rmax t ((y i - qc_q c * t) / (1 - qc_q c)) else if Rle_dec (y i) t then 1 else 0)) /\
  (d i <> level (qc_treated c) -> pq_g_targets c y d smpls ipws i = None).
Proof. exact @pq_targets_at. Qed.
Print Assumptions C74_quantile.

Theorem C74_local_quantile : forall E (c : @lpq_cfg E) y d z n smpls r i k h t, partition_of n smpls -> tested_in smpls i k h -> nth_error (lo_ipw r) k = Some t ->
  lpq_targets c y d z smpls r "ml_m_z" i = Some (z i) /\
  (forall b, b = 0 \/ b = 1 ->
     let md := if Req_EM_T b 0 then "ml_m_d_z0" else "ml_m_d_z1" in let g := if Req_EM_T b 0 then "ml_g_du_z0" else "ml_g_du_z1" in
     (z i = b -> lpq_targets c y d z smpls r md i = Some (d i) /\ lpq_targets c y d z smpls r g i = Some (event c y d t i)) /\
     (z i <> b -> lpq_targets c y d z smpls r md i = None /\ lpq_targets c y d z smpls r g i = None)).
Proof. exact @lpq_targets_at. Qed.
Print Assumptions C74_local_quantile.

Example C74_case_quantile : tested_in u_smpls 3 0 (seq 8 8, seq 0 8) /\ u_d 3 <> level true /\ u_d 2 = level true /\ u_z 3 = 1.
Proof.
  split; [|unfold u_d, u_z; cbn; repeat split; lra]. split; [reflexivity|]. split; [cbn; tauto|].
  intros k h Hk Hi. destruct k as [|[|k]]; [reflexivity| |destruct k; discriminate]. injection Hk as <-. cbn in Hi. lia.
Qed.

(** ** C66: held-out rows *)
Theorem C66_local_no_leakage_partial : forall (E X P : Type) (G M : learner E X P) o x0 (c : @lpq_cfg E) start x x' y y' d d' z z' smpls i k f r r',
  splitters_ok o -> tested_in smpls i k f -> agree_on_z f x x' y y' d d' z z' ->
  lpq_nuisance G M o x0 c start x y d z smpls = Ok r -> lpq_nuisance G M o x0 c start x' y' d' z' smpls = Ok r' ->
  forall name, lo_preds r name i = lo_preds r' name i.
Proof. exact @lpq_no_leak. Qed.
Print Assumptions C66_local_no_leakage_partial.

(** The bounds of the search come from all outcomes: changing only the outcome of
    a row changes the prediction for that row. *)
Theorem C66_local_bounds_refuted : exists (G M : learner (option R) nat unit) o x0 (c : R * R -> @lpq_cfg (option R)) x y y' d z smpls r r' n h,
  splitters_ok o /\ solver_ok o /\ partition_of n smpls /\ (forall b, lc_bounds (c b) = b) /\
  tested_in smpls 9 0 h /\ (forall j, j <> 9%nat -> y j = y' j) /\
  lpq_nuisance G M o x0 (c (pq_bounds n y)) (pq_start n true (lc_q (c (pq_bounds n y))) y d) x y d z smpls = Ok r /\
  lpq_nuisance G M o x0 (c (pq_bounds n y')) (pq_start n true (lc_q (c (pq_bounds n y'))) y' d) x y' d z smpls = Ok r' /\
  lo_preds r "ml_g_du_z1" 9%nat = Some 0 /\ lo_preds r' "ml_g_du_z1" 9%nat = Some 1.
Proof. exact s_leak. Qed.
Print Assumptions C66_local_bounds_refuted.

Example C66_case_local : splitters_ok u_o /\ exists r, lpq_nuisance r_learner r_learner u_o [] (v_c (fun _ => None)) 7 u_x u_y u_d u_z u_smpls = Ok r.
Proof. split; [exact u_split|]. destruct (v_run (fun _ => None)) as (r & E & _); [exists "ml_m_z"; split; [now left|reflexivity]|]. exists r. exact E. Qed.

(** ** C67: refitting *)
Theorem C67_local_external_partial : forall (E X P : Type) (G M : learner E X P) o x0 (c : @lpq_cfg E) sv kde start x y d z smpls theta s w,
  (forall name, In name lpq_names -> lc_ext c name <> None) ->
  lpq_fit G M o x0 sv kde c start x y d z smpls = Ok (theta, s, w) -> lpq_fit G M o x0 sv kde c s x y d z smpls = Ok (theta, s, w).
Proof. exact @lpq_external_refit. Qed.
Print Assumptions C67_local_external_partial.

Theorem C67_local_refit_refuted : exists (G M : learner (option R) nat unit) o x0 (c : @lpq_cfg (option R)) x y d z smpls r r',
  splitters_ok o /\ solver_ok o /\ partition_of (lc_n c) smpls /\ lc_bounds c = pq_bounds (lc_n c) y /\
  lpq_nuisance G M o x0 c (pq_start (lc_n c) (lc_treated c) (lc_q c) y d) x y d z smpls = Ok r /\
  lpq_nuisance G M o x0 c (lo_start r) x y d z smpls = Ok r' /\ lo_preds r "ml_g_du_z1" 9%nat = Some 0 /\ lo_preds r' "ml_g_du_z1" 9%nat = Some 1.
Proof. exact s_refit. Qed.
Print Assumptions C67_local_refit_refuted.

Example C67_case_local : forall kde, (forall name, In name lpq_names -> lc_ext g_c name <> None) /\
  exists theta, lpq_fit r_learner r_learner u_o [] (bs_solvers (1 / 100)) kde g_c 5 u_x e_y e_d e_d e_smpls = Ok (theta, 5, false).
Proof. intro kde. split; [discriminate|exact (g_fit kde)]. Qed.

(** ** C43: external predictions *)
(** Four of the five predictions of the local quantile model are accepted and have no effect. *)
Theorem C43_local_quantile_refuted : exists (v : vec) r, let c := v_c (fun name => if String.eqb name "ml_g_du_z1" then None else Some v) in
  (forall name, In name lpq_names -> name <> "ml_g_du_z1" -> lc_ext c name = Some v) /\
  lpq_nuisance r_learner r_learner u_o [] c 7 u_x u_y u_d u_z u_smpls = Ok r /\
  lpq_nuisance r_learner r_learner u_o [] (v_c (fun _ => None)) 7 u_x u_y u_d u_z u_smpls = Ok r /\
  exists m, lo_preds r "ml_m_z" 0%nat = Some m /\ m <> v 0%nat.
Proof. exact partial_ignored. Qed.
Print Assumptions C43_local_quantile_refuted.

(** C01, C36-C39, C41, C56, C57: histories of an estimator object. *)
From Verif Require Import L_ModelExamples.
Local Open Scope R_scope.
Local Open Scope string_scope.

(** A fit that returns; the same object after another draw and a second fit. *)
Example C57_case_history : exists w0 w1 w2 w3, reachable ex_ctx w0 /\ m_smpls (w_obj w0) = Some split_a /\
  fit ex_ctx PNone (PBool true) ExtNone (PBool false) w0 = (w1, Ok tt) /\ draw_sample_splitting ex_ctx g_rev no_perm w1 = (w2, Ok tt) /\
  m_smpls (w_obj w2) = Some split_b /\ fit ex_ctx PNone (PBool false) ExtNone (PBool false) w2 = (w3, Ok tt).
Proof. destruct ex_story as (w0 & w1 & w2 & w3 & A & B & D & E & F & _ & _ & _ & _ & _ & _ & G). exists w0, w1, w2, w3. auto 7. Qed.


(** ** C57 *)

Theorem C57_fit_reports_the_scores_of_the_current_split : forall (P : Type) (C : ctx P) w nj store ext sm w',
  c_dcols C <> [] -> reachable C w -> fit C nj store ext sm w = (w', Ok tt) ->
  exists out f, nuisance_results C w ext out /\ current_fw w' f /\ reports C w out f /\ object_matches C w' f /\ reports_losses C w' out /\
    (store = PBool true -> stores_predictions C w' out) /\ m_smpls (w_obj w') = m_smpls (w_obj w) /\ m_n_rep (w_obj w') = m_n_rep (w_obj w).
Proof. exact @fit_reports. Qed.
Print Assumptions C57_fit_reports_the_scores_of_the_current_split.

(** The hypotheses the algebra of frameworks (C11, C12) needs hold after every fit without clusters. *)
Theorem C57_standard_errors_belong_to_the_scores : forall (P : Type) (C : ctx P) w nj store ext sm w',
  (0 < c_n C)%nat -> c_dcols C <> [] -> c_cluster C = None -> reachable C w -> fit C nj store ext sm w = (w', Ok tt) ->
  (forall r t fs ps e no, c_nuis C r t fs ps e = Ok no -> meanf (c_n C) (no_a no) <> 0) ->
  exists f, current_fw w' f /\ fw_wf f /\ fw_aggregated f /\ fw_ses_from_scores f /\ (0 < fw_n_rep f)%nat /\ forall t, (t < fw_n_thetas f)%nat -> at_ (fw_vs f) [t] = INR (c_n C).
Proof. exact @fit_scores. Qed.
Print Assumptions C57_standard_errors_belong_to_the_scores.

(** ** C37 *)

Theorem C37_same_configuration_same_results : forall (P : Type) (C : ctx P) w1 w2 nj store ext sm w1' w2',
  c_dcols C <> [] -> reachable C w1 -> reachable C w2 -> same_config w1 w2 ->
  fit C nj store ext sm w1 = (w1', Ok tt) -> fit C nj store ext sm w2 = (w2', Ok tt) ->
  exists f1 f2, current_fw w1' f1 /\ current_fw w2' f2 /\ fw_obs_eq f1 f2 /\ fw_cluster f1 = fw_cluster f2 /\ fw_boot f1 = None /\ fw_boot f2 = None /\
    fw_sens_params f1 = None /\ fw_sens_params f2 = None /\
    buf_eq (m_coef (w_obj w1')) (m_coef (w_obj w2')) /\ buf_eq (m_se (w_obj w1')) (m_se (w_obj w2')) /\ dict_eq C (m_loss (w_obj w1')) (m_loss (w_obj w2')) /\
    (store = PBool true -> dict_eq C (m_preds (w_obj w1')) (m_preds (w_obj w2')) /\ dict_eq C (m_targets (w_obj w1')) (m_targets (w_obj w2'))).
Proof. exact @fit_same. Qed.
Print Assumptions C37_same_configuration_same_results.

Theorem C37_success_depends_on_configuration_only : forall (P : Type) (C : ctx P) w1 w2 nj store ext sm,
  c_dcols C <> [] -> reachable C w1 -> reachable C w2 -> same_config w1 w2 ->
  (snd (fit C nj store ext sm w1) = Ok tt <-> snd (fit C nj store ext sm w2) = Ok tt).
Proof. exact @fit_history. Qed.
Print Assumptions C37_success_depends_on_configuration_only.

(** Before the first fit, and after a fit, bootstrap and parameter call: same configuration, different history. *)
Example C37_case : exists w1 w2, reachable ex_ctx w1 /\ reachable ex_ctx w2 /\ same_config w1 w2 /\ m_fw (w_obj w1) = None /\ m_fw (w_obj w2) <> None.
Proof. exact history_case. Qed.


(** ** C36 *)

Theorem C36_refused_until_fit_succeeds : forall (P : Type) (C : ctx P) nf nr dr g perm w0 ops,
  new_object C nf nr dr g perm = Ok w0 -> ~ some_fit C ops w0 ->
  let w := run C ops w0 in
  (forall wt mt nb, obj_bootstrap wt mt nb w = (w, Err ValueError)) /\
  (forall ppf mi a b c d e, obj_sensitivity ppf mi a b c d e w = (w, Err ValueError)) /\
  (forall ppf j l, obj_confint ppf j l w = (w, Err ValueError)) /\
  (forall cdf so mt m rw, obj_p_adjust cdf so mt m rw w = (w, Err ValueError)) /\
  (forall ppf cdf, obj_summary C ppf cdf w = (w, Ok None) \/ obj_summary C ppf cdf w = (w, Err ValueError)).
Proof. exact @refused. Qed.
Print Assumptions C36_refused_until_fit_succeeds.

Theorem C36_inference_uses_the_last_fit : forall (P : Type) (C : ctx P) w nj store ext sm w1 f ops,
  c_dcols C <> [] -> reachable C w -> fit C nj store ext sm w = (w1, Ok tt) -> current_fw w1 f -> no_fit ops ->
  exists f', current_fw (run C ops w1) f' /\ same_results f f' /\
    (forall ppf j lv, snd (obj_confint ppf j lv (run C ops w1)) = confint ppf f' j lv) /\
    (forall cdf so mt m rw, snd (obj_p_adjust cdf so mt m rw (run C ops w1)) = bind (p_adjust cdf so mt f' m rw) (fun p => Ok (fst p))) /\
    (forall wt mt nb w', obj_bootstrap wt mt nb (run C ops w1) = (w', Ok tt) -> exists g, current_fw w' g /\ bootstrap_m wt mt nb f' = (g, Ok tt)) /\
    (forall ppf mi a b c d e w', obj_sensitivity ppf mi a b c d e (run C ops w1) = (w', Ok tt) -> exists g, current_fw w' g /\ sensitivity_analysis_m ppf mi a b c d e f' = (g, Ok tt)).
Proof. exact @on_last_fit. Qed.
Print Assumptions C36_inference_uses_the_last_fit.

Example C36_case : exists w0, new_object ex_ctx (PInt 2) (PInt 1) (PBool true) g_id no_perm = Ok w0 /\
  ~ some_fit ex_ctx [ODraw g_rev no_perm; OFit (PStr "x") (PBool true) ExtNone (PBool false)] w0.
Proof. exact refused_case. Qed.


(** ** C38 *)

(** Proved: the aggregated estimates, standard errors, scores, sensitivity elements never change.
    Missing: the per-repetition estimates and standard errors (next theorems). *)
Theorem C38_values_kept_by_the_framework_partial : forall (P : Type) (C : ctx P) w k f ops,
  reachable C w -> fw_reports w k f -> exists f', fw_reports (run C ops w) k f' /\ same_by_value f f'.
Proof. exact @frozen_value. Qed.
Print Assumptions C38_values_kept_by_the_framework_partial.

(** Everything stays without a further call of fit ... *)
Theorem C38_snapshot_without_refit_partial : forall (P : Type) (C : ctx P) w k f ops,
  reachable C w -> fw_reports w k f -> no_fit ops -> exists f', fw_reports (run C ops w) k f' /\ same_results f f'.
Proof. exact @frozen_no_fit. Qed.
Print Assumptions C38_snapshot_without_refit_partial.

(** ... and whatever follows a successful set_sample_splitting. *)
Theorem C38_snapshot_after_new_split_set_partial : forall (P : Type) (C : ctx P) w k f s asc w1 ops,
  reachable C w -> fw_reports w k f -> set_sample_splitting C s asc w = (w1, Ok tt) ->
  exists f', fw_reports (run C ops w1) k f' /\ same_results f f'.
Proof. exact @frozen_after_set. Qed.
Print Assumptions C38_snapshot_after_new_split_set_partial.

(** After draw_sample_splitting and fit, the old framework reports the new per-repetition estimates
    next to its old aggregate. *)
Theorem C38_snapshot_refuted : exists (C : ctx R) w k f ops f', reachable C w /\ fw_reports w k f /\ current_fw w f /\ fw_aggregated f /\ fw_reports (run C ops w) k f' /\
  at_ (fw_all_thetas f') [0; 0]%nat <> at_ (fw_all_thetas f) [0; 0]%nat /\ ~ fw_aggregated f'.
Proof. exact snapshot_refuted. Qed.
Print Assumptions C38_snapshot_refuted.

(** ** C39 *)

(** Proved: set_sample_splitting clears the object's own estimates; and after the next successful fit
    everything reported belongs to the current split (C57).  Missing: the attached framework. *)
Theorem C39_set_split_clears_estimates_partial : forall (P : Type) (C : ctx P) s asc w w',
  set_sample_splitting C s asc w = (w', Ok tt) ->
  all_nan (m_coef (w_obj w')) /\ all_nan (m_se (w_obj w')) /\ all_nan (hget (w_heap w') (m_all_coef (w_obj w'))) /\ all_nan (hget (w_heap w') (m_all_se (w_obj w'))) /\
  all_nan (m_psi (w_obj w')) /\ forall ppf cdf, obj_summary C ppf cdf w' = (w', Ok None).
Proof. exact @set_clears. Qed.
Print Assumptions C39_set_split_clears_estimates_partial.

Theorem C39_after_draw_refuted : exists (C : ctx R) w w1 w2 w3 f1 f3, reachable C w /\ fit C PNone (PBool true) ExtNone (PBool false) w = (w1, Ok tt) /\ current_fw w1 f1 /\
  (exists g perm, draw_sample_splitting C g perm w1 = (w2, Ok tt)) /\ m_smpls (w_obj w2) <> m_smpls (w_obj w1) /\
  current_fw w2 f1 /\ b_at (m_coef (w_obj w2)) [0%nat] = Some (at_ (fw_thetas f1) [0%nat]) /\
  fit C PNone (PBool false) ExtNone (PBool false) w2 = (w3, Ok tt) /\ current_fw w3 f3 /\ at_ (fw_thetas f3) [0%nat] <> at_ (fw_thetas f1) [0%nat].
Proof. exact stale_after_draw. Qed.
Print Assumptions C39_after_draw_refuted.

Theorem C39_after_set_refuted : exists (C : ctx R) w w1 s w2 w3, reachable C w /\ fit C PNone (PBool true) ExtNone (PBool false) w = (w1, Ok tt) /\
  set_sample_splitting C s None w1 = (w2, Ok tt) /\ m_smpls (w_obj w2) <> m_smpls (w_obj w1) /\ fit C PNone (PBool true) ExtNone (PBool false) w2 = (w3, Ok tt) /\
  forall ppf, exists c1 c2 c3, snd (obj_confint ppf (PBool false) (PFloat (95 / 100)) w1) = Ok c1 /\ snd (obj_confint ppf (PBool false) (PFloat (95 / 100)) w2) = Ok c2 /\
    snd (obj_confint ppf (PBool false) (PFloat (95 / 100)) w3) = Ok c3 /\ at_ c2 [0; 0]%nat = at_ c1 [0; 0]%nat /\ at_ c3 [0; 0]%nat <> at_ c2 [0; 0]%nat.
Proof. exact stale_after_set. Qed.
Print Assumptions C39_after_set_refuted.

Theorem C39_predictions_refuted : exists (C : ctx R) w w1 w2 w3 d v, reachable C w /\ fit C PNone (PBool true) ExtNone (PBool false) w = (w1, Ok tt) /\
  (exists g perm, draw_sample_splitting C g perm w1 = (w2, Ok tt)) /\ fit C PNone (PBool false) ExtNone (PBool false) w2 = (w3, Ok tt) /\
  m_preds (w_obj w3) = m_preds (w_obj w1) /\ m_smpls (w_obj w3) <> m_smpls (w_obj w1) /\
  m_loss (w_obj w3) = Some d /\ b_at (d "ml") [0; 0]%nat = Some 1 /\
  snd (evaluate_learners C None rmse2 w3) = Ok [("ml", [[v]])] /\ v = 0.
Proof. exact stale_predictions. Qed.
Print Assumptions C39_predictions_refuted.

(** ** C01: a rejected split leaves the object as it was. *)

Theorem C01_rejected_split_changes_nothing : forall (P : Type) (C : ctx P) s asc w w' e,
  set_sample_splitting C s asc w = (w', Err e) -> w' = w.
Proof. exact @rejected_split. Qed.
Print Assumptions C01_rejected_split_changes_nothing.

Example C01_case_rejected : exists w0, reachable ex_ctx w0 /\
  set_sample_splitting ex_ctx (SList [STup [IxInt [0%Z]; IxInt [0%Z]]]) None w0 = (w0, Err ValueError).
Proof. destruct ex_new as (w0 & A & B & _). exists w0. split; [exact B|]. reflexivity. Qed.


(** ** C41 *)

Theorem C41_parameters_set : forall (P : Type) (C : ctx P) l t v w w',
  reachable C w -> set_ml_nuisance_params C l t v w = (w', Ok tt) ->
  In l (c_learners C) /\ In t (c_dcols C) /\
  (forall l' t', (l', t') <> (l, t) -> m_params (w_obj w') l' t' = m_params (w_obj w) l' t') /\
  (forall r, (r < m_n_rep (w_obj w))%nat -> nth r (m_params (w_obj w') l t) None =
     match v with ParNone => None | ParDict p => Some (repeat p (m_n_folds (w_obj w))) | ParList ll => Some (nth r ll []) end) /\
  length (m_params (w_obj w') l t) = m_n_rep (w_obj w) /\
  m_smpls (w_obj w') = m_smpls (w_obj w) /\ m_n_rep (w_obj w') = m_n_rep (w_obj w) /\ m_n_folds (w_obj w') = m_n_folds (w_obj w).
Proof. exact @set_params_ok. Qed.
Print Assumptions C41_parameters_set.

Theorem C41_error_is_justified : forall (P : Type) (C : ctx P) l t v w w' e,
  set_ml_nuisance_params C l t v w = (w', Err e) -> w' = w /\
  (~ In l (c_learners C) \/ ~ In t (c_dcols C) \/ exists ll, v = ParList ll /\ ~ (length ll = m_n_rep (w_obj w) /\ forall x, In x ll -> length x = m_n_folds (w_obj w))).
Proof. exact @set_params_err. Qed.
Print Assumptions C41_error_is_justified.

Theorem C41_invalid_is_rejected : forall (P : Type) (C : ctx P) l t v w,
  (~ In l (c_learners C) \/ ~ In t (c_dcols C) \/ exists ll, v = ParList ll /\ ~ (length ll = m_n_rep (w_obj w) /\ forall x, In x ll -> length x = m_n_folds (w_obj w))) ->
  exists e, set_ml_nuisance_params C l t v w = (w, Err e).
Proof. exact @set_params_reject. Qed.
Print Assumptions C41_invalid_is_rejected.

Example C41_case : exists w0, reachable ex_ctx w0 /\ snd (set_ml_nuisance_params ex_ctx "ml" "d" (ParDict 3) w0) = Ok tt /\
  snd (set_ml_nuisance_params ex_ctx "ml" "d" (ParList [[1; 2]]) w0) = Ok tt /\ snd (set_ml_nuisance_params ex_ctx "ml" "d" (ParList [[1]]) w0) <> Ok tt.
Proof. exact params_case. Qed.


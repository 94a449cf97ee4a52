(** C27, C40, C43, C56, C58. *)
From Verif Require Import L_ModelWitness.
From Coq Require Import Lia Lra.
Local Open Scope R_scope.
Local Open Scope string_scope.

(** ** C27 *)
(** Proved: signs, repair of all repetitions, other treatments untouched, and
    what the framework uses.  Missing: a mean-zero influence component. *)
Theorem C27_nu2_repaired_in_every_repetition_partial : forall (P : Type) (C : ctx P) w nj store ext sm w' est,
  c_dcols C <> [] -> reachable C w -> c_sens C = Some est -> fit C nj store ext sm w = (w', Ok tt) ->
  exists out f e, nuisance_results C w ext out /\ current_fw w' f /\ reports C w out f /\ fw_sens f = Some e /\
  forall t, (t < length (c_dcols C))%nat ->
    let so r := sens_of C est w out r t in
    (forall r, (r < m_n_rep (w_obj w))%nat -> exists v psi, reports_nu2 w' r t v psi /\ 0 <= v /\ 0 <= so_sigma2 (so r) /\
       at_ (se_max_bias e) [0%nat; t; r] = sqrt (so_sigma2 (so r) * v)) /\
    ((forall r, (r < m_n_rep (w_obj w))%nat -> 0 < so_nu2 (so r)) ->
       forall r, (r < m_n_rep (w_obj w))%nat -> reports_nu2 w' r t (so_nu2 (so r)) (so_psi_nu2 (so r))) /\
    ((exists r, (r < m_n_rep (w_obj w))%nat /\ so_nu2 (so r) <= 0) ->
       forall r, (r < m_n_rep (w_obj w))%nat -> reports_nu2 w' r t (meanf (c_n C) (fun i => so_rr (so r) i ^ 2)) (fun i => so_rr (so r) i ^ 2)).
Proof. exact @nu2_repair. Qed.
Print Assumptions C27_nu2_repaired_in_every_repetition_partial.

(** The repaired influence component averages to nu2 itself, not to zero. *)
Theorem C27_repaired_component_centered_refuted : exists (C : ctx R) est w w' v psi,
  reachable C w /\ c_sens C = Some est /\ (forall r t no th, meanf (c_n C) (so_psi_nu2 (est r t no th)) = 0) /\
  fit C PNone (PBool true) ExtNone (PBool false) w = (w', Ok tt) /\ reports_nu2 w' 0 0 v psi /\ meanf (c_n C) psi = v /\ v <> 0.
Proof. exact repaired_not_centered. Qed.
Print Assumptions C27_repaired_component_centered_refuted.

Example C27_case : exists w w', reachable sens_ctx w /\ c_sens sens_ctx <> None /\ fit sens_ctx PNone (PBool true) ExtNone (PBool false) w = (w', Ok tt).
Proof. destruct sens_fit as (w & w' & A & _ & B). exists w, w'. split; [exact A|]. split; [discriminate|exact B]. Qed.

(** ** C43 *)
(** Proved: exactly the supplied arrays, per treatment, repetition and learner,
    reach the nuisance estimation whose result is reported.  Missing: an
    accepted dictionary may miss a treatment (next theorem). *)
Theorem C43_supplied_predictions_reach_estimation_partial : forall (P : Type) (C : ctx P) w nj store ext sm w',
  c_dcols C <> [] -> reachable C w -> fit C nj store ext sm w = (w', Ok tt) ->
  exists out f smp, current_fw w' f /\ reports C w out f /\ m_smpls (w_obj w) = Some smp /\
    forall r t d, (r < m_n_rep (w_obj w))%nat -> nth_error (c_dcols C) t = Some d ->
      exists e, c_nuis C r t (nth r smp []) (fun l => nth r (m_params (w_obj w) l d) None) e = Ok (out r t) /\
        forall l, In l (c_learners C) -> (forall v, supplied ext d l r v -> e l = Some v) /\ ((forall v, ~ supplied ext d l r v) -> e l = None).
Proof. exact @supplied_passed. Qed.
Print Assumptions C43_supplied_predictions_reach_estimation_partial.

Theorem C43_accepted_dictionary_never_fails_refuted : exists (C : ctx R) w w' ext,
  reachable C w /\ check_external ext (c_dcols C) (c_learners C) (c_n C) (m_n_rep (w_obj w)) = Ok tt /\
  (exists wn, fit C PNone (PBool true) ExtNone (PBool false) w = (wn, Ok tt)) /\
  fit C PNone (PBool true) ext (PBool false) w = (w', Err KeyError).
Proof. exact missing_key. Qed.
Print Assumptions C43_accepted_dictionary_never_fails_refuted.

Example C43_case : supplied half_ext "d2" "ml" 0 (fun _ => 1).
Proof. do 3 eexists. repeat split. Qed.

(** ** C56 *)
(** Proved: the losses always, and evaluate_learners after a fit that stored
    its predictions.  Missing: fits that do not store them (next theorem). *)
Theorem C56_evaluation_of_the_last_fit_partial : forall (P : Type) (C : ctx P) w nj ext sm w' metric res,
  c_dcols C <> [] -> reachable C w -> fit C nj (PBool true) ext sm w = (w', Ok tt) ->
  forall ls, snd (evaluate_learners C ls metric w') = Ok res ->
  exists out, nuisance_results C w ext out /\ reports_losses C w' out /\ map fst res = match ls with None => c_learners C | Some l => l end /\
    forall l vals, In (l, vals) res -> length vals = m_n_rep (w_obj w) /\ forall r t, (r < m_n_rep (w_obj w))%nat -> (t < length (c_dcols C))%nat ->
      metric (no_preds (out r t) l) (target_of (out r t) l) = Some (nth t (nth r vals []) 0).
Proof. exact @evaluate_last_fit. Qed.
Print Assumptions C56_evaluation_of_the_last_fit_partial.

(** A refit that does not store predictions reports new losses while
    evaluate_learners still scores the old predictions. *)
Theorem C56_unstored_refit_refuted : exists (C : ctx R) w w1 w2 w3 d v, reachable C w /\ fit C PNone (PBool true) ExtNone (PBool false) w = (w1, Ok tt) /\
  (exists g perm, draw_sample_splitting C g perm w1 = (w2, Ok tt)) /\ fit C PNone (PBool false) ExtNone (PBool false) w2 = (w3, Ok tt) /\
  m_preds (w_obj w3) = m_preds (w_obj w1) /\ m_smpls (w_obj w3) <> m_smpls (w_obj w1) /\
  m_loss (w_obj w3) = Some d /\ b_at (d "ml") [0; 0]%nat = Some 1 /\
  snd (evaluate_learners C None rmse2 w3) = Ok [("ml", [[v]])] /\ v = 0.
Proof. exact stale_predictions. Qed.
Print Assumptions C56_unstored_refit_refuted.

Example C56_case : is_loss 2 false (fun i => Some (INR i)) (fun i => if Nat.eqb i 0 then Some 3 else None) (Some (sqrt (3 ^ 2 / 1))).
Proof. unfold is_loss, available. cbn. do 2 f_equal. unfold Rmean, Rsum. cbn. field. Qed.

(** ** C58 *)
Theorem C58_every_split_held_is_valid : forall (P : Type) (C : ctx P), c_cluster C <> Some [] ->
  forall nf nr dr g perm w0 ops, shuffles g -> perm_ok perm -> new_object C nf nr dr g perm = Ok w0 -> (forall o, In o ops -> good_op o) ->
  forall sm, m_smpls (w_obj (run C ops w0)) = Some sm ->
  length sm = m_n_rep (w_obj (run C ops w0)) /\
  forall fs, In fs sm -> valid_rep (c_n C) fs /\ (c_cluster C = None -> length fs = m_n_folds (w_obj (run C ops w0))).
Proof. exact @splits_valid. Qed.
Print Assumptions C58_every_split_held_is_valid.

Example C58_case : exists w0, new_object ex_ctx (PInt 2) (PInt 1) (PBool true) g_id no_perm = Ok w0 /\ shuffles g_id /\ perm_ok no_perm /\
  m_smpls (w_obj (run ex_ctx [OSet set_b None] w0)) = Some split_b.
Proof. eexists. split; [reflexivity|]. split; [split; reflexivity|]. split; [intros r v l; reflexivity|reflexivity]. Qed.

(** ** C40 *)
(** The number of folds per cluster dimension given at construction stays in
    use for the standard errors after another number of folds was set. *)
Theorem C40_new_number_of_folds_used_refuted : exists (C : ctx R) w0 w w' f out cv k s2 v,
  new_object C (PInt 2) (PInt 1) (PBool false) g_id no_perm = Ok w0 /\
  set_sample_splitting C set3 (Some cl3) w0 = (w, Ok tt) /\ c_cluster C = Some [cv] /\ m_smpls (w_obj w) = Some sm3 /\ k = 3%nat /\ (forall fs, In fs sm3 -> length fs = k) /\
  fit C PNone (PBool true) ExtNone (PBool false) w = (w', Ok tt) /\ current_fw w' f /\ nuisance_results C w ExtNone out /\
  var_est (c_n C) (psi_of C (split_cluster C w 0) (out 0%nat 0%nat)) (no_a (out 0%nat 0%nat))
    (Some {| ca_vars := [cv]; ca_smpls := nth 0 sm3 []; ca_smpls_cluster := nth 0 cl3 []; ca_n_folds_per_cluster := k |}) = Ok (s2, v) /\
  at_ (fw_all_ses f) [0; 0]%nat <> sqrt s2.
Proof. exact folds_per_cluster_kept. Qed.
Print Assumptions C40_new_number_of_folds_used_refuted.

(** Complete fits of the model classes: concrete cases. *)
From Verif Require Export L_SensFits L_ClassCluster L_NuisCases L_ModelWitness.
From Coq Require Import Lia Lra FunctionalExtensionality.
Local Open Scope R_scope.
Local Open Scope string_scope.

Section VarOk.
Context {E P : Type}.
Variable L : learner E row P.
Variable mc : machinery E P.
Lemma apo_var_ok n dcol norm bo tr thr w x y d lvl strata : sens_var_ok (apo_ctx L mc n dcol norm bo tr thr w x y d lvl strata).
Proof. intros r t no th. cbn [so_of so_sigma2 apo_sens centred sl_sigma2]. apply sq_mean_nonneg. Qed.
Lemma did_var_ok n dcol obs norm tr thr x y d strata : sens_var_ok (did_ctx L mc n dcol obs norm tr thr x y d strata).
Proof. intros r t no th. cbn [so_of so_sigma2 did_sens centred sl_sigma2]. apply sq_mean_nonneg. Qed.
Lemma cs_var_ok n dcol obs norm tr thr x y d t strata : sens_var_ok (cs_ctx L mc n dcol obs norm tr thr x y d t strata).
Proof. intros r i no th. cbn [so_of so_sigma2 cs_sens centred sl_sigma2]. apply sq_mean_nonneg. Qed.
End VarOk.

(** Two folds of eight rows, one repetition, one treatment "d". *)
Definition w_object (C : ctx unit) : Prop :=
  exists w0, new_object C (PInt 2) (PInt 1) (PBool true) g_id no_perm = Ok w0 /\ m_smpls (w_obj w0) = Some [w_smpls] /\ m_n_rep (w_obj w0) = 1%nat /\ forall l t, m_params (w_obj w0) l t = [None].
Lemma w_case_of (C : ctx unit) : c_dcols C = ["d"] -> c_cluster C = None -> sens_var_ok C -> w_object C ->
  (exists out, c_nuis C 0 0 w_smpls (fun _ => None) (fun _ => None) = Ok out) ->
  exists w w', soundly_reached C w /\ m_smpls (w_obj w) = Some [w_smpls] /\ sound_learning r_learner r_predict r_proba w_machine w /\ fit C PNone (PBool true) ExtNone (PBool false) w = (w', Ok tt).
Proof.
  intros Hd Hc Hv (w0 & N & Es & En & Ep) (out & Ho). assert (Sr : soundly_reached C w0).
  { exists (PInt 2), (PInt 1), (PBool true), g_id, no_perm, w0, []. split; [split; reflexivity|]. split; [intros r v l; reflexivity|]. split; [exact N|]. split; [intros o []|reflexivity]. }
  destruct (fit_complete C PNone (PBool true) ExtNone (PBool false) w0) as (w' & F).
  - rewrite Hd. cbn. lia.
  - apply reachable_wf, reached_reachable, Sr.
  - unfold fit_check, check_fit, lift. cbn. destruct (c_ext_ok C); reflexivity.
  - intros r t Hr Ht. rewrite En in Hr. assert (r = 0%nat) as -> by lia. rewrite Hd in Ht. cbn in Ht. assert (t = 0%nat) as -> by lia.
    unfold step_fun, nuis_call, smpls_rep, cluster_args_of. rewrite Es, Hc, Hd. cbn [set_external bind nth_error nth]. 
    rewrite (functional_extensionality (fun l => nth 0 (m_params (w_obj w0) l "d") None) (fun _ => None)) by (intro l; now rewrite Ep). rewrite Ho. cbn [bind]. eexists. reflexivity.
  - apply var_ok_cond, Hv.
  - exists w0, w'. split; [exact Sr|]. split; [exact Es|]. split; [apply w_learning, Es|exact F].
Qed.
Lemma w_setup0 : setup_of w_machine 8 0 0 (fun _ => None) (fun _ => None) = r_setup 8 true.
Proof. reflexivity. Qed.
Ltac w_obj_tac := eexists; (split; [reflexivity|]); (split; [reflexivity|]); split; reflexivity.
Ltac w_nuis lem := let out := fresh "out" in let H := fresh "H" in destruct lem as (out & H); exists out; exact H.

Definition w_plr_iv_ctx : ctx unit := plr_ctx r_learner w_machine 8 ["d"] true (fun _ => false) (fun _ => w_x) w_y (fun _ => w_d).
Definition w_pliv_ctx (iv : bool) : ctx unit := pliv_ctx r_learner w_machine 8 ["d"] iv (fun _ => w_x) w_y (fun _ => w_d) w_t.
Definition w_several_ctx : ctx unit := pliv_several_ctx r_learner w_machine 8 (fun data v => Rsum v) ["d"] (fun _ => w_x) w_y (fun _ => w_d) [("z1", w_t); ("z2", w_d)].
Definition w_pliv_z_ctx : ctx unit := pliv_z_ctx r_learner w_machine 8 ["d"] (fun _ => w_x) (fun i => [w_t i]) w_y (fun _ => w_d).
Definition w_pliv_xz_ctx : ctx unit := pliv_xz_ctx r_learner w_machine 8 ["d"] (fun _ => w_x) (fun i => [w_t i]) w_y (fun _ => w_d).
Definition w_atte_ctx (w : nat -> wgt) : ctx unit := irm_ctx r_learner w_machine 8 "d" true true false true (1 / 100) w w_x w_y w_d (Some w_strata).
Definition w_ate_ctx (w : nat -> wgt) : ctx unit := irm_ctx r_learner w_machine 8 "d" false true false true (1 / 100) w w_x w_y w_d (Some w_strata).
Definition w_apo_ctx (w : nat -> wgt) : ctx unit := apo_ctx r_learner w_machine 8 "d" true false true (1 / 100) w w_x w_y w_d w_d (Some w_strata).
Definition w_iivm_ctx : ctx unit := iivm_ctx r_learner w_machine 8 "d" true false true false true (1 / 100) w_x w_y w_t w_d (Some w_strata).
Definition w_did_ctx (obs norm : bool) : ctx unit := did_ctx r_learner w_machine 8 "d" obs norm true (1 / 100) w_x w_y w_d (Some w_strata).
Definition w_cs_ctx (obs norm : bool) : ctx unit := cs_ctx r_learner w_machine 8 "d" obs norm true (1 / 100) w_x w_y w_d w_t (Some w_strata).
Definition w_ssm_ctx : ctx unit := ssm_ctx r_learner w_machine 8 ["d"] true true (1 / 100) (fun _ => w_x) w_y (fun _ => w_d) w_t (Some w_strata).
Definition w_ssm_non_ctx : ctx unit := ssm_non_ctx r_learner w_machine 8 (fun _ _ => w_tts) ["d"] true true (1 / 100) (fun _ => w_x) (fun i => [w_t i]) w_y (fun _ => w_d) (fun _ => 1) (Some w_strata).

(** A weighting with separate weights for the residuals. *)
Definition w_weights : warg := WDict (Val {| shape := [8%nat]; at_ := fun i => match i with [j] => 1 + INR j | _ => 0 end |}) (Val {| shape := [8; 1]%nat; at_ := fun i => match i with [j; _] => 2 + INR j | _ => 0 end |}) false.

Definition fits_case (C : ctx unit) : Prop :=
  exists w w', soundly_reached C w /\ m_smpls (w_obj w) = Some [w_smpls] /\ sound_learning r_learner r_predict r_proba w_machine w /\ fit C PNone (PBool true) ExtNone (PBool false) w = (w', Ok tt).
Lemma w_plr_iv_case : fits_case w_plr_iv_ctx.
Proof. apply w_case_of; [reflexivity|reflexivity|apply plr_var_ok|w_obj_tac|w_nuis (w_plr true w_y w_d w_d_both)]. Qed.
Lemma w_pliv_case iv : fits_case (w_pliv_ctx iv).
Proof. apply w_case_of; [reflexivity|reflexivity|exact Logic.I|destruct iv; w_obj_tac|w_nuis (w_pliv iv w_y)]. Qed.
Lemma w_several_case : fits_case w_several_ctx.
Proof. apply w_case_of; [reflexivity|reflexivity|exact Logic.I|w_obj_tac|w_nuis (w_pliv_several (fun data v => Rsum v) w_y)]. Qed.
Lemma w_pliv_z_case : fits_case w_pliv_z_ctx.
Proof. apply w_case_of; [reflexivity|reflexivity|exact Logic.I|w_obj_tac|w_nuis (w_pliv_z w_y)]. Qed.
Lemma w_pliv_xz_case : fits_case w_pliv_xz_ctx.
Proof. apply w_case_of; [reflexivity|reflexivity|exact Logic.I|w_obj_tac|w_nuis (w_pliv_xz w_y)]. Qed.
Lemma w_ate_case w : fits_case (w_ate_ctx w).
Proof. apply w_case_of; [reflexivity|reflexivity|apply irm_var_ok|w_obj_tac|w_nuis (w_irm true true (1 / 100) (w 0%nat) w_y)]. Qed.
Lemma w_atte norm tr thr w y : exists out, irm_nuis r_learner (r_setup 8 true) true norm false tr thr w w_x y w_d w_smpls = Ok out.
Proof. unfold irm_nuis. g_group y "ml_g0" w_d 0 0%nat 4%nat. g_group y "ml_g1" w_d 1 1%nat 5%nat. use_all true "ml_m" "ml_m" w_x w_d. eexists. reflexivity. Qed.
Lemma w_atte_case w : fits_case (w_atte_ctx w).
Proof. apply w_case_of; [reflexivity|reflexivity|apply irm_var_ok|w_obj_tac|w_nuis (w_atte true true (1 / 100) (w 0%nat) w_y)]. Qed.
Lemma w_apo_case w : fits_case (w_apo_ctx w).
Proof. apply w_case_of; [reflexivity|reflexivity|apply apo_var_ok|w_obj_tac|w_nuis (w_apo true true (1 / 100) (w 0%nat) w_y)]. Qed.
Lemma w_iivm_case : fits_case w_iivm_ctx.
Proof. apply w_case_of; [reflexivity|reflexivity|exact Logic.I|w_obj_tac|w_nuis (w_iivm true true (1 / 100) w_y)]. Qed.
Lemma w_did_case obs norm : fits_case (w_did_ctx obs norm).
Proof. apply w_case_of; [reflexivity|reflexivity|apply did_var_ok|destruct obs; w_obj_tac|w_nuis (w_did obs norm true (1 / 100) w_y)]. Qed.
Lemma w_cs_case obs norm : fits_case (w_cs_ctx obs norm).
Proof. apply w_case_of; [reflexivity|reflexivity|apply cs_var_ok|destruct obs; w_obj_tac|w_nuis (w_cs obs norm true (1 / 100) w_y)]. Qed.
Lemma w_ssm_case : fits_case w_ssm_ctx.
Proof. apply w_case_of; [reflexivity|reflexivity|exact Logic.I|w_obj_tac|w_nuis (w_ssm true true (1 / 100) w_y)]. Qed.
Lemma w_ssm_non_case : fits_case w_ssm_non_ctx.
Proof. apply w_case_of; [reflexivity|reflexivity|exact Logic.I|w_obj_tac|w_nuis (w_ssm_non true true (1 / 100) w_y)]. Qed.
Lemma w_weights_ok : check_weights w_weights ScATE 8 1 = Ok tt.
Proof.
  apply accepted_iff. cbn. split; [reflexivity|]. split; [reflexivity|]. do 2 eexists. split; [reflexivity|]. split; [reflexivity|]. split; (split; [reflexivity|]; split).
  - intros i Hi. cbn in *. destruct i as [|j [|k i]]; try lra. pose proof (pos_INR j). lra.
  - exists [0%nat]. cbn. split; [split; [lia|exact Logic.I]|lra].
  - intros i Hi. cbn in *. destruct i as [|j [|k [|l i]]]; try lra. pose proof (pos_INR j). lra.
  - exists [0; 0]%nat. cbn. split; [split; [lia|split; [lia|exact Logic.I]]|lra].
Qed.

(** Clustered data: four clusters of two rows. *)
Definition w_clusters : list (nat -> Z) := [fun i => nth i [0; 0; 1; 1; 2; 2; 3; 3]%Z 0%Z].
Definition w_clustered_plr : ctx unit := clustered w_clusters (plr_ctx r_learner w_machine 8 ["d"] false (fun _ => false) (fun _ => w_x) w_y (fun _ => w_d)).
Definition w_clustered_pliv : ctx unit := clustered w_clusters (w_pliv_ctx false).
Lemma w_cluster_case_of (C : ctx unit) : c_dcols C = ["d"] -> c_cluster C = Some w_clusters -> sens_var_ok C ->
  built C (PInt 2) (PInt 1) (PBool true) g_id no_perm = Some (Some [w_smpls], 1%nat, 2%nat, 2%nat) ->
  (exists out, c_nuis C 0 0 w_smpls (fun _ => None) (fun _ => None) = Ok out) -> fits_case C.
Proof.
  intros Hd Hc Hv B (out & Ho). destruct (built_new C (PInt 2) (PInt 1) (PBool true) g_id no_perm (Some [w_smpls]) 1 2 2 B) as (w0 & N & _ & Es & En & _).
  assert (Ep : forall l t, m_params (w_obj w0) l t = [None]) by (pose proof N as N'; apply new_inv in N'; destruct N' as (_ & _ & _ & _ & _ & _ & _ & _ & H); rewrite En in H; exact H).
  assert (Sr : soundly_reached C w0).
  { exists (PInt 2), (PInt 1), (PBool true), g_id, no_perm, w0, []. split; [split; reflexivity|]. split; [intros r v l; reflexivity|]. split; [exact N|]. split; [intros o []|reflexivity]. }
  pose proof (reachable_wf _ _ (reached_reachable _ _ Sr)) as W.
  assert (Hsc : exists sc, m_smpls_cluster (w_obj w0) = Some sc /\ length sc = m_n_rep (w_obj w0)) by (eapply (wf_smpls_c _ _ W); [exact Hc|exact Es]).
  destruct Hsc as (sc & Esc & Lsc). rewrite En in Lsc. destruct sc as [|c [|c' sc]]; [discriminate| |discriminate].
  destruct (fit_complete C PNone (PBool true) ExtNone (PBool false) w0) as (w' & F).
  - rewrite Hd. cbn. lia.
  - exact W.
  - unfold fit_check, check_fit, lift. cbn. destruct (c_ext_ok C); reflexivity.
  - intros r t Hr Ht. rewrite En in Hr. assert (r = 0%nat) as -> by lia. rewrite Hd in Ht. cbn in Ht. assert (t = 0%nat) as -> by lia.
    unfold step_fun, nuis_call, smpls_rep, cluster_args_of. rewrite Es, Esc, Hc, Hd. cbn [set_external bind nth_error nth].
    rewrite (functional_extensionality (fun l => nth 0 (m_params (w_obj w0) l "d") None) (fun _ => None)) by (intro l; now rewrite Ep). rewrite Ho. cbn [bind]. eexists. reflexivity.
  - apply var_ok_cond, Hv.
  - exists w0, w'. split; [exact Sr|]. split; [exact Es|]. split; [apply w_learning, Es|exact F].
Qed.
Lemma w_clustered_plr_case : fits_case w_clustered_plr.
Proof.
  apply w_cluster_case_of; [reflexivity|reflexivity|exact (plr_var_ok r_learner w_machine 8 ["d"] false (fun _ => false) (fun _ => w_x) w_y (fun _ => w_d))|vm_compute; reflexivity|w_nuis (w_plr false w_y w_d w_d_both)].
Qed.
Lemma w_clustered_pliv_case : fits_case w_clustered_pliv.
Proof. apply w_cluster_case_of; [reflexivity|reflexivity|exact Logic.I|vm_compute; reflexivity|w_nuis (w_pliv false w_y)]. Qed.

(** The learners of the cases: only "ml_m" predicts probabilities, and both
    values of its targets occur in all train parts. *)
Lemma w_case_labels w : m_smpls (w_obj w) = Some [w_smpls] -> (forall lrn y G, lrn <> "ml_m" -> labels_everywhere r_learner r_proba w_machine w 8 lrn y G) /\
  labels_everywhere r_learner r_proba w_machine w 8 "ml_m" w_d everyone /\ labels_everywhere r_learner r_proba w_machine w 8 "ml_m" w_t everyone.
Proof. intro Es. split; [intros; now apply not_classified|]. split; apply w_everywhere_all; try exact Es; [exact w_d_both|exact w_t_both]. Qed.

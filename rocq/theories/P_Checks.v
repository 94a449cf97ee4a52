(** Properties of checks and success: C77, C78, C79. *)
From Verif Require Import S_Checks L_Checks L_Success L_FitSuccess L_ChecksWitness.
From Coq Require Import Lra Lia.
Local Open Scope R_scope.
Local Open Scope string_scope.

(** ** C77 *)
(** Partially linear model with a binary treatment: the propensities are not all 0 or 1. *)
Theorem C77_binary_treatment : forall (E P : Type) (L : learner E row P) (su : setup E P) iv x y d smpls out,
  plr_nuis L su iv true x y d smpls = Ok out -> ~ class_labels (su_n su) out "ml_m".
Proof. exact @plr_refuses. Qed.
Print Assumptions C77_binary_treatment.

(** Interactive model with a binary outcome.  Missing: an external "ml_g0" is not checked. *)
Theorem C77_binary_outcome_partial : forall (E P : Type) (L : learner E row P) (su : setup E P) atte norm tr thr w x y d smpls out,
  irm_nuis L su atte norm true tr thr w x y d smpls = Ok out ->
  (su_ext su "ml_g0" = None -> ~ class_labels (su_n su) out "ml_g0") /\ (atte = false -> ~ class_labels (su_n su) out "ml_g1").
Proof. exact @irm_refuses. Qed.
Print Assumptions C77_binary_outcome_partial.

Theorem C77_potential_outcome : forall (E P : Type) (L : learner E row P) (su : setup E P) norm tr thr w x y d t smpls out,
  apo_nuis L su norm true tr thr w x y d t smpls = Ok out -> ~ class_labels (su_n su) out "ml_g_d_lvl0" /\ ~ class_labels (su_n su) out "ml_g_d_lvl1".
Proof. exact @apo_refuses. Qed.
Print Assumptions C77_potential_outcome.

Theorem C77_local_effect : forall (E P : Type) (L : learner E row P) (su : setup E P) norm at_ nt tr thr x y z d smpls out,
  iivm_nuis L su norm true at_ nt tr thr x y z d smpls = Ok out -> ~ class_labels (su_n su) out "ml_g0" /\ ~ class_labels (su_n su) out "ml_g1".
Proof. exact @iivm_refuses. Qed.
Print Assumptions C77_local_effect.

Example C77_case_fitted : (exists out, irm_nuis h_learner h_setup false false true true (1 / 100) unit_weights w_x w_t w_d w_smpls = Ok out) /\ su_ext h_setup "ml_g0" = None.
Proof. split; [exact h_binary_irm|reflexivity]. Qed.

(** With external predictions the check is the only reason to refuse. *)
Theorem C77_nothing_else_refused : forall (E P : Type) (L : learner E row P) (su : setup E P) bin x y d smpls l m,
  su_ext su "ml_l" = Some l -> su_ext su "ml_m" = Some m ->
  (bin = true /\ labels_only (su_n su) m -> plr_nuis L su false bin x y d smpls = Err ValueError) /\
  (~ (bin = true /\ labels_only (su_n su) m) -> exists out, plr_nuis L su false bin x y d smpls = Ok out).
Proof. exact @plr_external. Qed.
Print Assumptions C77_nothing_else_refused.

Theorem C77_nothing_else_refused_interactive : forall (E P : Type) (L : learner E row P) (su : setup E P) atte norm bin tr thr w x y d smpls g0 g1 m,
  su_ext su "ml_g0" = Some g0 -> su_ext su "ml_g1" = Some g1 -> su_ext su "ml_m" = Some m ->
  (bin = true /\ atte = false /\ labels_only (su_n su) g1 -> irm_nuis L su atte norm bin tr thr w x y d smpls = Err ValueError) /\
  (~ (bin = true /\ atte = false /\ labels_only (su_n su) g1) -> exists out, irm_nuis L su atte norm bin tr thr w x y d smpls = Ok out).
Proof. exact @irm_external. Qed.
Print Assumptions C77_nothing_else_refused_interactive.

Example C77_case_external : su_ext (ext_setup mixed) "ml_l" = Some half /\ su_ext (ext_setup mixed) "ml_g0" = Some w_d /\ labels_only 8 w_d /\ ~ labels_only 8 half.
Proof. split; [reflexivity|]. split; [reflexivity|]. split; [exact w_d_labels|exact half_not_labels]. Qed.

(** The full property would also refuse 0/1 predictions of the control outcome;
    the same array is accepted as "ml_g0" and refused as "ml_g1". *)
Theorem C77_external_control_refuted : exists (su : setup r_memo unit) v g0 m, (forall x y d smpls, exists out,
    irm_nuis r_learner su false false true true (1 / 100) unit_weights x y d smpls = Ok out /\ su_ext su "ml_g0" = Some v /\ class_labels 8 out "ml_g0") /\
  forall x y d smpls, irm_nuis r_learner (ext_setup (fun l => if String.eqb l "ml_g1" then v else if String.eqb l "ml_g0" then g0 else m)) false false true true (1 / 100) unit_weights x y d smpls = Err ValueError.
Proof. exact control_treated. Qed.
Print Assumptions C77_external_control_refuted.

(** ** C78 *)
Theorem C78_plr : forall (E P E' P' : Type) (L : learner E row P) (L' : learner E' row P') (su : setup E P) (su' : setup E' P'), same_external su su' -> forall bin x y d smpls,
  all_external su ["ml_l"; "ml_m"] -> plr_nuis L su false bin x y d smpls = plr_nuis L' su' false bin x y d smpls.
Proof. exact @plr_po_irrelevant. Qed.
Print Assumptions C78_plr.

Theorem C78_plr_iv_type : forall (E P E' P' : Type) (L : learner E row P) (L' : learner E' row P') (su : setup E P) (su' : setup E' P'), same_external su su' -> forall bin x y d smpls,
  all_external su ["ml_m"; "ml_g"] -> plr_nuis L su true bin x y d smpls = plr_nuis L' su' true bin x y d smpls.
Proof. exact @plr_iv_irrelevant. Qed.
Print Assumptions C78_plr_iv_type.

Theorem C78_interactive : forall (E P E' P' : Type) (L : learner E row P) (L' : learner E' row P') (su : setup E P) (su' : setup E' P'), same_external su su' -> forall atte norm bin tr thr w x y d smpls,
  all_external su ["ml_g0"; "ml_g1"; "ml_m"] ->
  irm_nuis L su atte norm bin tr thr w x y d smpls = irm_nuis L' su' atte norm bin tr thr w x y d smpls.
Proof. exact @irm_irrelevant. Qed.
Print Assumptions C78_interactive.

Theorem C78_potential_outcome : forall (E P E' P' : Type) (L : learner E row P) (L' : learner E' row P') (su : setup E P) (su' : setup E' P'), same_external su su' -> forall norm bin tr thr w x y d t smpls,
  all_external su ["ml_g_d_lvl0"; "ml_g_d_lvl1"; "ml_m"] ->
  apo_nuis L su norm bin tr thr w x y d t smpls = apo_nuis L' su' norm bin tr thr w x y d t smpls.
Proof. exact @apo_irrelevant. Qed.
Print Assumptions C78_potential_outcome.

Theorem C78_local_effect : forall (E P E' P' : Type) (L : learner E row P) (L' : learner E' row P') (su : setup E P) (su' : setup E' P'), same_external su su' -> forall norm bin at_ nt tr thr x y z d smpls,
  all_external su ["ml_g0"; "ml_g1"; "ml_m"; "ml_r0"; "ml_r1"] ->
  iivm_nuis L su norm bin at_ nt tr thr x y z d smpls = iivm_nuis L' su' norm bin at_ nt tr thr x y z d smpls.
Proof. exact @iivm_irrelevant. Qed.
Print Assumptions C78_local_effect.

Theorem C78_did : forall (E P E' P' : Type) (L : learner E row P) (L' : learner E' row P') (su : setup E P) (su' : setup E' P'), same_external su su' -> forall (obs : bool) norm tr thr x y d smpls,
  all_external su ("ml_g0" :: "ml_g1" :: if obs then ["ml_m"] else []) ->
  did_nuis L su obs norm tr thr x y d smpls = did_nuis L' su' obs norm tr thr x y d smpls.
Proof. exact @did_irrelevant. Qed.
Print Assumptions C78_did.

Theorem C78_did_cross_sections : forall (E P E' P' : Type) (L : learner E row P) (L' : learner E' row P') (su : setup E P) (su' : setup E' P'), same_external su su' -> forall (obs : bool) norm tr thr x y d t smpls,
  all_external su ("ml_g_d0_t0" :: "ml_g_d0_t1" :: "ml_g_d1_t0" :: "ml_g_d1_t1" :: if obs then ["ml_m"] else []) ->
  cs_nuis L su obs norm tr thr x y d t smpls = cs_nuis L' su' obs norm tr thr x y d t smpls.
Proof. exact @cs_irrelevant. Qed.
Print Assumptions C78_did_cross_sections.

Theorem C78_instrument : forall (E P E' P' : Type) (L : learner E row P) (L' : learner E' row P') (su : setup E P) (su' : setup E' P'), same_external su su' -> forall (iv : bool) x y d z smpls,
  all_external su ("ml_l" :: "ml_m" :: "ml_r" :: if iv then ["ml_g"] else []) ->
  pliv_x_nuis L su iv x y d z smpls = pliv_x_nuis L' su' iv x y d z smpls.
Proof. exact @pliv_irrelevant. Qed.
Print Assumptions C78_instrument.

Theorem C78_several_instruments : forall (E P E' P' : Type) (L : learner E row P) (L' : learner E' row P') (su : setup E P) (su' : setup E' P'), same_external su su' -> forall proj x y d zs smpls,
  all_external su ("ml_l" :: "ml_r" :: map (fun p : string * vec => ("ml_m_" ++ fst p)%string) zs) ->
  pliv_xs_nuis L su proj x y d zs smpls = pliv_xs_nuis L' su' proj x y d zs smpls.
Proof. exact @pliv_several_irrelevant. Qed.
Print Assumptions C78_several_instruments.

Example C78_case : same_external (ext_setup mixed) (with_ext h_setup (fun l => Some (mixed l))) /\ all_external (ext_setup mixed) ["ml_g0"; "ml_g1"; "ml_m"] /\ su_proba (ext_setup mixed) "ml_m" <> su_proba h_setup "ml_m".
Proof. split; [split; reflexivity|]. split; [intros name _; eexists; reflexivity|discriminate]. Qed.

(** ** C79 *)
Theorem C79_plr : forall (E P : Type) (L : learner E row P) f g (su : setup E P) (iv bin : bool) x y d smpls,
  (0 < (su_n su))%nat -> setting L f g su smpls ->
  (iv = false \/ su_ext su "ml_g" = None -> obtainable L g su "ml_l" "ml_l" y everyone smpls) -> obtainable L g su "ml_m" "ml_m" d everyone smpls ->
  (iv = true -> forall t, obtainable L g su "ml_g" "ml_g" t everyone smpls) ->
  (bin = true -> never_labels f g su "ml_m" "ml_m") -> exists out, plr_nuis L su iv bin x y d smpls = Ok out.
Proof. exact @plr_success. Qed.
Print Assumptions C79_plr.

Theorem C79_interactive : forall (E P : Type) (L : learner E row P) f g (su : setup E P) atte norm (bin : bool) tr thr w x y d smpls,
  (0 < (su_n su))%nat -> setting L f g su smpls ->
  obtainable L g su "ml_g0" "ml_g" y (fun i => d i = 0) smpls -> obtainable L g su "ml_g1" "ml_g" y (fun i => d i = 1) smpls -> obtainable L g su "ml_m" "ml_m" d everyone smpls ->
  (bin = true -> su_ext su "ml_g0" = None -> never_labels f g su "ml_g0" "ml_g") -> (bin = true -> atte = false -> never_labels f g su "ml_g1" "ml_g") ->
  exists out, irm_nuis L su atte norm bin tr thr w x y d smpls = Ok out.
Proof. exact @irm_success. Qed.
Print Assumptions C79_interactive.

Theorem C79_potential_outcome : forall (E P : Type) (L : learner E row P) f g (su : setup E P) norm (bin : bool) tr thr w x y d t smpls,
  (0 < (su_n su))%nat -> setting L f g su smpls ->
  obtainable L g su "ml_g_d_lvl0" "ml_g" y (fun i => t i = 0) smpls -> obtainable L g su "ml_g_d_lvl1" "ml_g" y (fun i => t i = 1) smpls -> obtainable L g su "ml_m" "ml_m" t everyone smpls ->
  (bin = true -> never_labels f g su "ml_g_d_lvl0" "ml_g" /\ never_labels f g su "ml_g_d_lvl1" "ml_g") ->
  exists out, apo_nuis L su norm bin tr thr w x y d t smpls = Ok out.
Proof. exact @apo_success. Qed.
Print Assumptions C79_potential_outcome.

Theorem C79_local_effect : forall (E P : Type) (L : learner E row P) f g (su : setup E P) norm (bin at_ nt tr : bool) thr x y z d smpls,
  (0 < (su_n su))%nat -> setting L f g su smpls ->
  obtainable L g su "ml_g0" "ml_g" y (fun i => z i = 0) smpls -> obtainable L g su "ml_g1" "ml_g" y (fun i => z i = 1) smpls -> obtainable L g su "ml_m" "ml_m" z everyone smpls ->
  (at_ = true -> obtainable L g su "ml_r0" "ml_r" d (fun i => z i = 0) smpls) -> (nt = true -> obtainable L g su "ml_r1" "ml_r" d (fun i => z i = 1) smpls) ->
  (bin = true -> never_labels f g su "ml_g0" "ml_g" /\ never_labels f g su "ml_g1" "ml_g") ->
  exists out, iivm_nuis L su norm bin at_ nt tr thr x y z d smpls = Ok out.
Proof. exact @iivm_success. Qed.
Print Assumptions C79_local_effect.

Theorem C79_did : forall (E P : Type) (L : learner E row P) f g (su : setup E P) (obs norm tr : bool) thr x y d smpls,
  (0 < (su_n su))%nat -> setting L f g su smpls ->
  obtainable L g su "ml_g0" "ml_g" y (fun i => d i = 0) smpls -> obtainable L g su "ml_g1" "ml_g" y (fun i => d i = 1) smpls -> (obs = true -> obtainable L g su "ml_m" "ml_m" d everyone smpls) ->
  exists out, did_nuis L su obs norm tr thr x y d smpls = Ok out.
Proof. exact @did_success. Qed.
Print Assumptions C79_did.

Theorem C79_did_cross_sections : forall (E P : Type) (L : learner E row P) f g (su : setup E P) (obs norm tr : bool) thr x y d t smpls,
  (0 < (su_n su))%nat -> setting L f g su smpls ->
  (forall a b name, In (name, (a, b)) [("ml_g_d0_t0", (0, 0)); ("ml_g_d0_t1", (0, 1)); ("ml_g_d1_t0", (1, 0)); ("ml_g_d1_t1", (1, 1))] -> obtainable L g su name "ml_g" y (fun i => d i = a /\ t i = b) smpls) ->
  (obs = true -> obtainable L g su "ml_m" "ml_m" d everyone smpls) ->
  exists out, cs_nuis L su obs norm tr thr x y d t smpls = Ok out.
Proof. exact @cs_success. Qed.
Print Assumptions C79_did_cross_sections.

Theorem C79_instrument : forall (E P : Type) (L : learner E row P) f g (su : setup E P) (iv : bool) x y d z smpls,
  (0 < (su_n su))%nat -> setting L f g su smpls ->
  obtainable L g su "ml_l" "ml_l" y everyone smpls -> obtainable L g su "ml_m" "ml_m" z everyone smpls -> obtainable L g su "ml_r" "ml_r" d everyone smpls ->
  (iv = true -> forall t, obtainable L g su "ml_g" "ml_g" t everyone smpls) -> exists out, pliv_x_nuis L su iv x y d z smpls = Ok out.
Proof. exact @pliv_success. Qed.
Print Assumptions C79_instrument.

Theorem C79_several_instruments : forall (E P : Type) (L : learner E row P) f g (su : setup E P) proj x y d zs smpls,
  (0 < (su_n su))%nat -> setting L f g su smpls ->
  obtainable L g su "ml_l" "ml_l" y everyone smpls -> (forall name z, In (name, z) zs -> obtainable L g su ("ml_m_" ++ name)%string "ml_m" z everyone smpls) -> obtainable L g su "ml_r" "ml_r" d everyone smpls ->
  exists out, pliv_xs_nuis L su proj x y d zs smpls = Ok out.
Proof. exact @pliv_several_success. Qed.
Print Assumptions C79_several_instruments.

Theorem C79_instrument_first_stage : forall (E P : Type) (L : learner E row P) f g (su : setup E P) x zrow y d smpls,
  (0 < (su_n su))%nat -> setting L f g su smpls -> trainable L g su "ml_r" "ml_r" d everyone smpls -> exists out, pliv_z_nuis L su x zrow y d smpls = Ok out.
Proof. exact @pliv_z_success. Qed.
Print Assumptions C79_instrument_first_stage.

Theorem C79_selection : forall (E P : Type) (L : learner E row P) f g (su : setup E P) norm tr thr x y d s smpls,
  (0 < (su_n su))%nat -> setting L f g su smpls ->
  trainable L g su "ml_pi" "ml_pi" s everyone smpls -> trainable L g su "ml_m" "ml_m" d everyone smpls ->
  trainable L g su "ml_g_d1" "ml_g" y (fun i => d i = 1 /\ s i = 1) smpls -> trainable L g su "ml_g_d0" "ml_g" y (fun i => d i = 0 /\ s i = 1) smpls ->
  exists out, ssm_mar_nuis L su norm tr thr x y d s smpls = Ok out.
Proof. exact @ssm_success. Qed.
Print Assumptions C79_selection.

Example C79_case_regressors : setting r_learner r_predict r_proba (r_setup 8 true) w_smpls /\
  (forall name lrn y, lrn <> "ml_m" -> trainable r_learner r_proba (r_setup 8 true) name lrn y everyone w_smpls) /\
  (forall name y b, b = 0 \/ b = 1 -> trainable r_learner r_proba (r_setup 8 true) name "ml_g" y (fun i => w_d i = b) w_smpls) /\
  (forall name lrn y b, b = 0 \/ b = 1 -> lrn <> "ml_m" -> trainable r_learner r_proba (r_setup 8 true) name lrn y (fun i => w_t i = b) w_smpls) /\
  (forall name lrn y a b, a = 0 \/ a = 1 -> b = 0 \/ b = 1 -> lrn <> "ml_m" -> trainable r_learner r_proba (r_setup 8 true) name lrn y (fun i => w_d i = a /\ w_t i = b) w_smpls).
Proof. split; [apply w_setting|]. split; [exact w_ready_all|]. split; [exact w_ready_d|]. split; [exact w_ready_z|exact w_ready_cell]. Qed.
Example C79_case_classifier : su_proba (r_setup 8 true) "ml_m" = true /\
  forall name, trainable r_learner r_proba (r_setup 8 true) name "ml_m" w_d everyone w_smpls /\ trainable r_learner r_proba (r_setup 8 true) name "ml_m" w_t everyone w_smpls.
Proof. split; [reflexivity|exact w_ready_m]. Qed.
Example C79_case_no_labels : setting h_learner (fun _ _ => 1 / 2) r_proba h_setup w_smpls /\ (forall name lrn, never_labels (fun _ _ => 1 / 2) r_proba h_setup name lrn) /\
  forall name lrn y, trainable h_learner r_proba h_setup name lrn y (fun i => w_d i = 0) w_smpls.
Proof. split; [exact h_setting|]. split; [exact h_soft|]. intros. apply (h_trainable _ _ _ _ 0 4); cbn; (lia || lra). Qed.

(** Complete fits, in every state reached by method calls. *)
Theorem C79_fit_plr : forall (E P : Type) (L : learner E row P) f g (mc : machinery E P) n dcols iv bin x y d w nj b b',
  let C := plr_ctx L mc n dcols iv bin x y d in
  (0 < n)%nat -> dcols <> [] -> soundly_reached C w -> sound_learning L f g mc w -> no_jobs_or_int nj -> (exists sm, m_smpls (w_obj w) = Some sm) ->
  (forall t col, nth_error dcols t = Some col -> ready L g mc w n t col "ml_l" "ml_l" y everyone /\ ready L g mc w n t col "ml_m" "ml_m" (d t) everyone /\
     (iv = true -> forall v, ready L g mc w n t col "ml_g" "ml_g" v everyone) /\ (bin t = true -> soft f g mc "ml_m")) ->
  exists w', fit C nj (PBool b) ExtNone (PBool b') w = (w', Ok tt).
Proof. exact @plr_fit_success. Qed.
Print Assumptions C79_fit_plr.

Theorem C79_fit_interactive : forall (E P : Type) (L : learner E row P) f g (mc : machinery E P) n dcol atte norm bin tr thr wt x y d strata w nj b b',
  let C := irm_ctx L mc n dcol atte norm bin tr thr wt x y d strata in
  (0 < n)%nat -> soundly_reached C w -> sound_learning L f g mc w -> no_jobs_or_int nj -> (exists sm, m_smpls (w_obj w) = Some sm) ->
  ready L g mc w n 0 dcol "ml_g0" "ml_g" y (fun i => d i = 0) -> ready L g mc w n 0 dcol "ml_g1" "ml_g" y (fun i => d i = 1) -> ready L g mc w n 0 dcol "ml_m" "ml_m" d everyone ->
  (bin = true -> soft f g mc "ml_g") -> exists w', fit C nj (PBool b) ExtNone (PBool b') w = (w', Ok tt).
Proof. exact @irm_fit_success. Qed.
Print Assumptions C79_fit_interactive.

Example C79_case_fit : exists w, soundly_reached w_irm_ctx w /\ sound_learning r_learner r_predict r_proba w_machine w /\ (exists sm, m_smpls (w_obj w) = Some sm) /\
  ready r_learner r_proba w_machine w 8 0 "d" "ml_g0" "ml_g" w_y (fun i => w_d i = 0) /\ ready r_learner r_proba w_machine w 8 0 "d" "ml_g1" "ml_g" w_y (fun i => w_d i = 1) /\
  ready r_learner r_proba w_machine w 8 0 "d" "ml_m" "ml_m" w_d everyone.
Proof. exact w_fit_ready. Qed.
Example C79_case_fit_plr : exists w, soundly_reached w_plr_ctx w /\ sound_learning r_learner r_predict r_proba w_machine w /\ (exists sm, m_smpls (w_obj w) = Some sm) /\
  forall t col, nth_error ["d"; "e"] t = Some col -> ready r_learner r_proba w_machine w 8 t col "ml_l" "ml_l" w_y everyone /\ ready r_learner r_proba w_machine w 8 t col "ml_m" "ml_m" (match t with O => w_d | _ => w_t end) everyone.
Proof. exact w_plr_fit_ready. Qed.

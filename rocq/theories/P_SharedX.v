(** C105: a model object uses the covariates that its data object has when a method is called. *)
From Verif Require Import S_Shared L_SharedXWitness L_EqualWitness L_AloneWitness.
From Coq Require Import Lia Lra.
Local Open Scope R_scope.
Local Open Scope string_scope.

(** Histories in which the user changes covariates: every call acts like the call on a model object created from the data object as it then is. *)
Theorem C105_history {P} f (Ks : list (M_Data.ddata -> ctx P)) makes s0 : S_Data.reachable f s0 -> switchable f s0 -> Forall2 (fun m K => exists w0, keeps_up f s0 m K w0) makes Ks ->
  forall ops s s' ws, S_Data.reachable f s -> same_but_covariates s0 s -> activated s s' -> covariates_only f ops s -> length ws = length Ks ->
  exists s'' ws' log, shared_run f Ks ops (s', ws) = ((s'', ws'), log) /\ length ws' = length Ks /\
    forall i m w, nth_error makes i = Some m -> nth_error ws i = Some w -> nth_error ws' i = Some (fst (recreated f m i ops s w)) /\ own_results i log = snd (recreated f m i ops s w).
Proof. exact (shared_recreated f Ks makes s0). Qed.
Print Assumptions C105_history.

(** The hypothesis [keeps_up] holds for the objects of each class: partially linear model, *)
Theorem C105_plr {E P : Type} (L : learner E row P) (rd : randomness) (f : M_Data.frame) (s : M_Data.ddata) ml_l ml_m ml_g nf nr score draw C w0 : plr_init L rd f s ml_l ml_m ml_g nf nr score draw = Ok (C, w0) ->
  exists mc iv, keeps_up f s (fun s => plr_init L rd f s ml_l ml_m ml_g nf nr score draw) (live_plr L mc f iv) w0.
Proof. exact (plr_moves L rd f s ml_l ml_m ml_g nf nr score draw C w0). Qed.
Print Assumptions C105_plr.

(** partially linear IV model, *)
Theorem C105_pliv {E P : Type} (L : learner E row P) (rd : randomness) (f : M_Data.frame) (s : M_Data.ddata) proj ml_l ml_m ml_r ml_g nf nr score draw C w0 : pliv_init L rd f s proj ml_l ml_m ml_r ml_g nf nr score draw = Ok (C, w0) ->
  exists mc, (exists iv zc, keeps_up f s (fun s => pliv_init L rd f s proj ml_l ml_m ml_r ml_g nf nr score draw) (live_pliv L mc f iv zc) w0) \/
    exists zs, keeps_up f s (fun s => pliv_init L rd f s proj ml_l ml_m ml_r ml_g nf nr score draw) (live_pliv_several L mc f proj zs) w0.
Proof. exact (pliv_moves L rd f s proj ml_l ml_m ml_r ml_g nf nr score draw C w0). Qed.
Print Assumptions C105_pliv.

(** interactive model, *)
Theorem C105_irm {E P : Type} (L : learner E row P) (rd : randomness) (f : M_Data.frame) (s : M_Data.ddata) (Re : S_Data.reachable f s) ml_g ml_m nf nr score wa norm rule thr draw C w0 : irm_init L rd f s ml_g ml_m nf nr score wa norm rule thr draw = Ok (C, w0) ->
  exists mc atte nm th st, keeps_up f s (fun s => irm_init L rd f s ml_g ml_m nf nr score wa norm rule thr draw) (live_irm L mc f atte nm th (weights_of wa) st) w0.
Proof. exact (irm_moves L rd f s Re ml_g ml_m nf nr score wa norm rule thr draw C w0). Qed.
Print Assumptions C105_irm.

(** average potential outcomes, *)
Theorem C105_apo {E P : Type} (L : learner E row P) (rd : randomness) (f : M_Data.frame) (s : M_Data.ddata) (Re : S_Data.reachable f s) ml_g ml_m level nf nr score wa norm rule thr draw C w0 : apo_init L rd f s ml_g ml_m level nf nr score wa norm rule thr draw = Ok (C, w0) ->
  exists mc nm th st, keeps_up f s (fun s => apo_init L rd f s ml_g ml_m level nf nr score wa norm rule thr draw) (live_apo L mc f nm th (weights_of wa) (treated_at f s level) st) w0.
Proof. exact (apo_moves L rd f s Re ml_g ml_m level nf nr score wa norm rule thr draw C w0). Qed.
Print Assumptions C105_apo.

(** interactive IV model, *)
Theorem C105_iivm {E P : Type} (L : learner E row P) (rd : randomness) (f : M_Data.frame) (s : M_Data.ddata) (Re : S_Data.reachable f s) ml_g ml_m ml_r nf nr score sg norm rule thr draw C w0 : iivm_init L rd f s ml_g ml_m ml_r nf nr score sg norm rule thr draw = Ok (C, w0) ->
  exists mc nm a b th zc st, keeps_up f s (fun s => iivm_init L rd f s ml_g ml_m ml_r nf nr score sg norm rule thr draw) (live_iivm L mc f nm a b th zc st) w0.
Proof. exact (iivm_moves L rd f s Re ml_g ml_m ml_r nf nr score sg norm rule thr draw C w0). Qed.
Print Assumptions C105_iivm.

(** difference in differences, *)
Theorem C105_did {E P : Type} (L : learner E row P) (rd : randomness) (f : M_Data.frame) (s : M_Data.ddata) (Re : S_Data.reachable f s) ml_g ml_m nf nr score norm rule thr draw C w0 : did_init L rd f s ml_g ml_m nf nr score norm rule thr draw = Ok (C, w0) ->
  exists mc obs nm th st, keeps_up f s (fun s => did_init L rd f s ml_g ml_m nf nr score norm rule thr draw) (live_did L mc f obs nm th st) w0.
Proof. exact (did_moves L rd f s Re ml_g ml_m nf nr score norm rule thr draw C w0). Qed.
Print Assumptions C105_did.

(** the same with repeated cross-sections, *)
Theorem C105_did_cross_section {E P : Type} (L : learner E row P) (rd : randomness) (f : M_Data.frame) (s : M_Data.ddata) (Re : S_Data.reachable f s) ml_g ml_m nf nr score norm rule thr draw C w0 : cs_init L rd f s ml_g ml_m nf nr score norm rule thr draw = Ok (C, w0) ->
  exists mc obs nm th tc st, keeps_up f s (fun s => cs_init L rd f s ml_g ml_m nf nr score norm rule thr draw) (live_cs L mc f obs nm th tc st) w0.
Proof. exact (cs_moves L rd f s Re ml_g ml_m nf nr score norm rule thr draw C w0). Qed.
Print Assumptions C105_did_cross_section.

(** sample selection with one treatment (with several, C104_selection_strata_refuted). *)
Theorem C105_selection {E P : Type} (L : learner E row P) (rd : randomness) (f : M_Data.frame) (s : M_Data.ddata) (Re : S_Data.reachable f s) tts ml_g ml_pi ml_m nf nr score norm rule thr draw C w0 : length (M_Data.r_d (M_Data.dd_roles s)) = 1%nat -> ssm_init L rd f s tts ml_g ml_pi ml_m nf nr score norm rule thr draw = Ok (C, w0) ->
  exists mc nm th selc st, keeps_up f s (fun s => ssm_init L rd f s tts ml_g ml_pi ml_m nf nr score norm rule thr draw) (live_ssm L mc f nm th selc st) w0 \/
    keeps_up f s (fun s => ssm_init L rd f s tts ml_g ml_pi ml_m nf nr score norm rule thr draw) (live_ssm_non L mc f tts nm th selc st) w0.
Proof. exact (ssm_moves L rd f s Re tts ml_g ml_pi ml_m nf nr score norm rule thr draw C w0). Qed.
Print Assumptions C105_selection.

(** The checks of the constructor are not repeated: with instruments assigned later the constructor would refuse the data, while [fit] goes on. *)
Theorem C105_checks_repeated_refuted : exists f s s' C mc iv w0 w, let K := live_plr h_learner mc f iv in
  S_Data.constructed f s /\ plr_init h_learner i_rd f s reg cls None (PInt 2) (PInt 1) (PStr "partialling out") (PBool false) = Ok (C, w0) /\ follows s C K /\ later C w0 w /\
  M_Data.assign f s (M_Data.SetZ (M_Data.CStr "z")) = (s', None) /\ plr_init h_learner i_rd f s' reg cls None (PInt 2) (PInt 1) (PStr "partialling out") (PBool false) = Err ValueError /\
  snd (live_fit f K PNone (PBool true) ExtNone (PBool false) (s', w)) = Ok tt.
Proof. exact checks_not_repeated. Qed.
Print Assumptions C105_checks_repeated_refuted.

(** An object created with one covariate and fitted after another one was added. *)
Example C105_case_covariate_added : moved_case.
Proof. exact moved_holds. Qed.

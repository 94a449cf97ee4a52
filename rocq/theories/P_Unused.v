(** C106: columns without a role have no influence, and cluster labels only through their order. *)
From Verif Require Import S_Unused L_UnusedWrap L_UnusedWitness L_EqualWitness.
From Coq Require Import Lia Lra.
Local Open Scope R_scope.
Local Open Scope string_scope.

(** Data objects with the same roles and options are equal. *)
Theorem C106_data_object f f' s s' : S_Data.constructed f s -> S_Data.constructed f' s' -> M_Data.dd_roles s' = M_Data.dd_roles s -> M_Data.dd_other s' = M_Data.dd_other s -> M_Data.dd_force s' = M_Data.dd_force s ->
  agree_on_roles (M_Data.dd_roles s) f f' -> s' = s.
Proof. exact (same_object f f' s s'). Qed.
Print Assumptions C106_data_object.

(** The same constructor call gives the same object, or the same exception: partially linear model, *)
Theorem C106_plr {E P : Type} (L : learner E row P) (rd : randomness) (f f' : M_Data.frame) (s : M_Data.ddata) (Re : S_Data.reachable f s) (Ag : agree_on_roles (M_Data.dd_roles s) f f') ml_l ml_m ml_g nf nr score draw : plr_init L rd f' s ml_l ml_m ml_g nf nr score draw = plr_init L rd f s ml_l ml_m ml_g nf nr score draw.
Proof. exact (plr_unused L rd f f' s Re Ag ml_l ml_m ml_g nf nr score draw). Qed.
Print Assumptions C106_plr.

(** partially linear IV model, *)
Theorem C106_pliv {E P : Type} (L : learner E row P) (rd : randomness) (f f' : M_Data.frame) (s : M_Data.ddata) (Re : S_Data.reachable f s) (Ag : agree_on_roles (M_Data.dd_roles s) f f') proj ml_l ml_m ml_r ml_g nf nr score draw : pliv_init L rd f' s proj ml_l ml_m ml_r ml_g nf nr score draw = pliv_init L rd f s proj ml_l ml_m ml_r ml_g nf nr score draw.
Proof. exact (pliv_unused L rd f f' s Re Ag proj ml_l ml_m ml_r ml_g nf nr score draw). Qed.
Print Assumptions C106_pliv.

(** interactive model, *)
Theorem C106_irm {E P : Type} (L : learner E row P) (rd : randomness) (f f' : M_Data.frame) (s : M_Data.ddata) (Re : S_Data.reachable f s) (Ag : agree_on_roles (M_Data.dd_roles s) f f') ml_g ml_m nf nr score wa norm rule thr draw : irm_init L rd f' s ml_g ml_m nf nr score wa norm rule thr draw = irm_init L rd f s ml_g ml_m nf nr score wa norm rule thr draw.
Proof. exact (irm_unused L rd f f' s Re Ag ml_g ml_m nf nr score wa norm rule thr draw). Qed.
Print Assumptions C106_irm.

(** average potential outcomes, *)
Theorem C106_apo {E P : Type} (L : learner E row P) (rd : randomness) (f f' : M_Data.frame) (s : M_Data.ddata) (Re : S_Data.reachable f s) (Ag : agree_on_roles (M_Data.dd_roles s) f f') ml_g ml_m level nf nr score wa norm rule thr draw : apo_init L rd f' s ml_g ml_m level nf nr score wa norm rule thr draw = apo_init L rd f s ml_g ml_m level nf nr score wa norm rule thr draw.
Proof. exact (apo_unused L rd f f' s Re Ag ml_g ml_m level nf nr score wa norm rule thr draw). Qed.
Print Assumptions C106_apo.

(** interactive IV model, *)
Theorem C106_iivm {E P : Type} (L : learner E row P) (rd : randomness) (f f' : M_Data.frame) (s : M_Data.ddata) (Re : S_Data.reachable f s) (Ag : agree_on_roles (M_Data.dd_roles s) f f') ml_g ml_m ml_r nf nr score sg norm rule thr draw : iivm_init L rd f' s ml_g ml_m ml_r nf nr score sg norm rule thr draw = iivm_init L rd f s ml_g ml_m ml_r nf nr score sg norm rule thr draw.
Proof. exact (iivm_unused L rd f f' s Re Ag ml_g ml_m ml_r nf nr score sg norm rule thr draw). Qed.
Print Assumptions C106_iivm.

(** difference in differences, *)
Theorem C106_did {E P : Type} (L : learner E row P) (rd : randomness) (f f' : M_Data.frame) (s : M_Data.ddata) (Re : S_Data.reachable f s) (Ag : agree_on_roles (M_Data.dd_roles s) f f') ml_g ml_m nf nr score norm rule thr draw : did_init L rd f' s ml_g ml_m nf nr score norm rule thr draw = did_init L rd f s ml_g ml_m nf nr score norm rule thr draw.
Proof. exact (did_unused L rd f f' s Re Ag ml_g ml_m nf nr score norm rule thr draw). Qed.
Print Assumptions C106_did.

(** the same with repeated cross-sections, *)
Theorem C106_did_cross_section {E P : Type} (L : learner E row P) (rd : randomness) (f f' : M_Data.frame) (s : M_Data.ddata) (Re : S_Data.reachable f s) (Ag : agree_on_roles (M_Data.dd_roles s) f f') ml_g ml_m nf nr score norm rule thr draw : cs_init L rd f' s ml_g ml_m nf nr score norm rule thr draw = cs_init L rd f s ml_g ml_m nf nr score norm rule thr draw.
Proof. exact (cs_unused L rd f f' s Re Ag ml_g ml_m nf nr score norm rule thr draw). Qed.
Print Assumptions C106_did_cross_section.

(** sample selection, *)
Theorem C106_selection {E P : Type} (L : learner E row P) (rd : randomness) (f f' : M_Data.frame) (s : M_Data.ddata) (Re : S_Data.reachable f s) (Ag : agree_on_roles (M_Data.dd_roles s) f f') tts ml_g ml_pi ml_m nf nr score norm rule thr draw : ssm_init L rd f' s tts ml_g ml_pi ml_m nf nr score norm rule thr draw = ssm_init L rd f s tts ml_g ml_pi ml_m nf nr score norm rule thr draw.
Proof. exact (ssm_unused L rd f f' s Re Ag tts ml_g ml_pi ml_m nf nr score norm rule thr draw). Qed.
Print Assumptions C106_selection.

(** conditional value at risk, *)
Theorem C106_cvar {E P : Type} (L : learner E row P) (rd : randomness) (f f' : M_Data.frame) (s : M_Data.ddata) (Re : S_Data.reachable f s) (Ag : agree_on_roles (M_Data.dd_roles s) f f') o ml_g ml_m treatment quantile nf nr score norm rule thr draw : cvar_init L rd f' s o ml_g ml_m treatment quantile nf nr score norm rule thr draw = cvar_init L rd f s o ml_g ml_m treatment quantile nf nr score norm rule thr draw.
Proof. exact (cvar_unused L rd f f' s Re Ag o ml_g ml_m treatment quantile nf nr score norm rule thr draw). Qed.
Print Assumptions C106_cvar.

(** potential quantiles, *)
Theorem C106_quantile {E P : Type} (L : learner E row P) (rd : randomness) (f f' : M_Data.frame) (s : M_Data.ddata) (Re : S_Data.reachable f s) (Ag : agree_on_roles (M_Data.dd_roles s) f f') dflt o ml_g ml_m treatment quantile nf nr score norm kde rule thr draw : pq_init L rd f' s dflt o ml_g ml_m treatment quantile nf nr score norm kde rule thr draw = pq_init L rd f s dflt o ml_g ml_m treatment quantile nf nr score norm kde rule thr draw.
Proof. exact (pq_unused L rd f f' s Re Ag dflt o ml_g ml_m treatment quantile nf nr score norm kde rule thr draw). Qed.
Print Assumptions C106_quantile.

(** local potential quantiles, *)
Theorem C106_local_quantile {E P : Type} (L : learner E row P) (rd : randomness) (f f' : M_Data.frame) (s : M_Data.ddata) (Re : S_Data.reachable f s) (Ag : agree_on_roles (M_Data.dd_roles s) f f') dflt o ml_g ml_m treatment quantile nf nr score norm kde rule thr draw : lpq_init L rd f' s dflt o ml_g ml_m treatment quantile nf nr score norm kde rule thr draw = lpq_init L rd f s dflt o ml_g ml_m treatment quantile nf nr score norm kde rule thr draw.
Proof. exact (lpq_unused L rd f f' s Re Ag dflt o ml_g ml_m treatment quantile nf nr score norm kde rule thr draw). Qed.
Print Assumptions C106_local_quantile.

(** quantile treatment effects, *)
Theorem C106_quantile_effects {E P : Type} (L : learner E row P) (rd : randomness) (f f' : M_Data.frame) (s : M_Data.ddata) (Re : S_Data.reachable f s) (Ag : agree_on_roles (M_Data.dd_roles s) f f') sv dflt o ml_g ml_m qs nf nr score norm kde rule thr draw : qte_init L rd f' s sv dflt o ml_g ml_m qs nf nr score norm kde rule thr draw = qte_init L rd f s sv dflt o ml_g ml_m qs nf nr score norm kde rule thr draw.
Proof. exact (qte_unused L rd f f' s Re Ag sv dflt o ml_g ml_m qs nf nr score norm kde rule thr draw). Qed.
Print Assumptions C106_quantile_effects.

(** several potential outcomes. *)
Theorem C106_potential_outcomes {E P : Type} (L : learner E row P) (rd : randomness) (f f' : M_Data.frame) (s : M_Data.ddata) (Re : S_Data.reachable f s) (Ag : agree_on_roles (M_Data.dd_roles s) f f') ml_g ml_m levels nf nr score w norm rule thr draw : apos_init L rd f' s ml_g ml_m levels nf nr score w norm rule thr draw = apos_init L rd f s ml_g ml_m levels nf nr score w norm rule thr draw.
Proof. exact (apos_unused L rd f f' s Re Ag ml_g ml_m levels nf nr score w norm rule thr draw). Qed.
Print Assumptions C106_potential_outcomes.

(** Clustered data; other labels and an additional column of missing values. *)
Example C106_case_labels : unused_case.
Proof. exact unused_holds. Qed.

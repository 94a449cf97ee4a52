(** C104: model objects that share one data object do not influence one another. *)
From Verif Require Import S_Shared L_SharedWitness L_EqualWitness L_AloneWitness.
From Coq Require Import Lia Lra.
Local Open Scope R_scope.
Local Open Scope string_scope.

(** Whatever the objects and the user of the data do in between, every object goes through the states, and every call has the outcome, of its own calls alone. *)
Theorem C104_independent {P} f (Ks : list (M_Data.ddata -> ctx P)) Cs s : switchable f s -> Forall2 (follows s) Cs Ks ->
  forall ops s' ws, only_activations ops -> activated s s' -> length ws = length Ks ->
  exists s'' ws' log, shared_run f Ks ops (s', ws) = ((s'', ws'), log) /\ activated s s'' /\ length ws' = length Ks /\
    forall i C w, nth_error Cs i = Some C -> nth_error ws i = Some w -> nth_error ws' i = Some (run C (own_calls i ops) w) /\ own_results i log = outcomes C (own_calls i ops) w.
Proof. exact (shared_alone f Ks Cs s). Qed.
Print Assumptions C104_independent.

(** The hypothesis [follows] holds for the objects of each class: partially linear model, *)
Theorem C104_plr {E P : Type} (L : learner E row P) (rd : randomness) (f : M_Data.frame) (s : M_Data.ddata) (Re : S_Data.reachable f s) ml_l ml_m ml_g nf nr score draw C w0 : plr_init L rd f s ml_l ml_m ml_g nf nr score draw = Ok (C, w0) -> exists mc iv, follows s C (live_plr L mc f iv).
Proof. exact (plr_follows L rd f s Re ml_l ml_m ml_g nf nr score draw C w0). Qed.
Print Assumptions C104_plr.

(** partially linear IV model, *)
Theorem C104_pliv {E P : Type} (L : learner E row P) (rd : randomness) (f : M_Data.frame) (s : M_Data.ddata) (Re : S_Data.reachable f s) proj ml_l ml_m ml_r ml_g nf nr score draw C w0 : pliv_init L rd f s proj ml_l ml_m ml_r ml_g nf nr score draw = Ok (C, w0) ->
  exists mc, (exists iv zc, M_Data.r_z (M_Data.dd_roles s) = Some [zc] /\ follows s C (live_pliv L mc f iv zc)) \/
    exists zs, M_Data.r_z (M_Data.dd_roles s) = Some zs /\ (1 < length zs)%nat /\ follows s C (live_pliv_several L mc f proj zs).
Proof. exact (pliv_follows L rd f s Re proj ml_l ml_m ml_r ml_g nf nr score draw C w0). Qed.
Print Assumptions C104_pliv.

(** interactive model, *)
Theorem C104_irm {E P : Type} (L : learner E row P) (rd : randomness) (f : M_Data.frame) (s : M_Data.ddata) (Re : S_Data.reachable f s) ml_g ml_m nf nr score wa norm rule thr draw C w0 : irm_init L rd f s ml_g ml_m nf nr score wa norm rule thr draw = Ok (C, w0) -> exists mc atte nm th st, follows s C (live_irm L mc f atte nm th (weights_of wa) st).
Proof. exact (irm_follows L rd f s Re ml_g ml_m nf nr score wa norm rule thr draw C w0). Qed.
Print Assumptions C104_irm.

(** average potential outcomes, *)
Theorem C104_apo {E P : Type} (L : learner E row P) (rd : randomness) (f : M_Data.frame) (s : M_Data.ddata) (Re : S_Data.reachable f s) ml_g ml_m level nf nr score wa norm rule thr draw C w0 : apo_init L rd f s ml_g ml_m level nf nr score wa norm rule thr draw = Ok (C, w0) -> exists mc nm th st, follows s C (live_apo L mc f nm th (weights_of wa) (treated_at f s level) st).
Proof. exact (apo_follows L rd f s Re ml_g ml_m level nf nr score wa norm rule thr draw C w0). Qed.
Print Assumptions C104_apo.

(** interactive IV model, *)
Theorem C104_iivm {E P : Type} (L : learner E row P) (rd : randomness) (f : M_Data.frame) (s : M_Data.ddata) (Re : S_Data.reachable f s) ml_g ml_m ml_r nf nr score sg norm rule thr draw C w0 : iivm_init L rd f s ml_g ml_m ml_r nf nr score sg norm rule thr draw = Ok (C, w0) -> exists mc nm a b th zc st, M_Data.r_z (M_Data.dd_roles s) = Some [zc] /\ follows s C (live_iivm L mc f nm a b th zc st).
Proof. exact (iivm_follows L rd f s Re ml_g ml_m ml_r nf nr score sg norm rule thr draw C w0). Qed.
Print Assumptions C104_iivm.

(** difference in differences, *)
Theorem C104_did {E P : Type} (L : learner E row P) (rd : randomness) (f : M_Data.frame) (s : M_Data.ddata) (Re : S_Data.reachable f s) ml_g ml_m nf nr score norm rule thr draw C w0 : did_init L rd f s ml_g ml_m nf nr score norm rule thr draw = Ok (C, w0) -> exists mc obs nm th st, follows s C (live_did L mc f obs nm th st).
Proof. exact (did_follows L rd f s Re ml_g ml_m nf nr score norm rule thr draw C w0). Qed.
Print Assumptions C104_did.

(** the same with repeated cross-sections, *)
Theorem C104_did_cross_section {E P : Type} (L : learner E row P) (rd : randomness) (f : M_Data.frame) (s : M_Data.ddata) (Re : S_Data.reachable f s) ml_g ml_m nf nr score norm rule thr draw C w0 : cs_init L rd f s ml_g ml_m nf nr score norm rule thr draw = Ok (C, w0) -> exists mc obs nm th tc st, M_Data.r_t (M_Data.dd_roles s) = Some tc /\ follows s C (live_cs L mc f obs nm th tc st).
Proof. exact (cs_follows L rd f s Re ml_g ml_m nf nr score norm rule thr draw C w0). Qed.
Print Assumptions C104_did_cross_section.

(** sample selection. *)
Theorem C104_selection {E P : Type} (L : learner E row P) (rd : randomness) (f : M_Data.frame) (s : M_Data.ddata) (Re : S_Data.reachable f s) tts ml_g ml_pi ml_m nf nr score norm rule thr draw C w0 : ssm_init L rd f s tts ml_g ml_pi ml_m nf nr score norm rule thr draw = Ok (C, w0) ->
  exists mc nm th selc st, M_Data.r_s (M_Data.dd_roles s) = Some selc /\ (follows s C (live_ssm L mc f nm th selc st) \/ follows s C (live_ssm_non L mc f tts nm th selc st)).
Proof. exact (ssm_follows L rd f s Re tts ml_g ml_pi ml_m nf nr score norm rule thr draw C w0). Qed.
Print Assumptions C104_selection.

(** The hypothesis [switchable] holds unless y_col or d_cols was assigned after the construction; *)
Theorem C104_all_treatments_usable f s : kept_treatments f s -> switchable f s.
Proof. exact (kept_switchable f s). Qed.
Print Assumptions C104_all_treatments_usable.

(** in general it says that the treatment columns hold numbers. *)
Theorem C104_usable_treatments f s : S_Data.reachable f s -> (switchable f s <-> forall c, In c (M_Data.r_d (M_Data.dd_roles s)) -> S_Data.number_column f c).
Proof. exact (switchable_iff f s). Qed.
Print Assumptions C104_usable_treatments.

(** What a fit leaves behind in the data object. *)
Theorem C104_after_fit {P} f (K : M_Data.ddata -> ctx P) nj st ext sm s w s' w' : (0 < m_n_rep (w_obj w))%nat -> live_fit f K nj st ext sm (s, w) = ((s', w'), Ok tt) ->
  let dcols := M_Data.r_d (M_Data.dd_roles s) in
  (length dcols = 1%nat -> s' = s) /\
  ((1 < length dcols)%nat -> (forall c, In c dcols -> snd (M_Data.assign f s (M_Data.SetXD (M_Data.CStr c))) = None) /\
     let c := last dcols EmptyString in s' = M_Data.with_xd s c (M_Data.xd_list s c)).
Proof. exact (fit_active f K nj st ext sm s w s' w'). Qed.
Print Assumptions C104_after_fit.

(** A fit does not leave the data object as it found it. *)
Theorem C104_fit_keeps_data_refuted : exists f s C mc iv w0 w s' w', let K := live_plr h_learner mc f iv in
  S_Data.constructed f s /\ plr_init h_learner i_rd f s reg cls None (PInt 2) (PInt 1) (PStr "partialling out") (PBool false) = Ok (C, w0) /\ follows s C K /\ later C w0 w /\
  live_fit f K PNone (PBool true) ExtNone (PBool false) (s, w) = ((s', w'), Ok tt) /\ M_Data.c_d s = "d" /\ M_Data.c_x s = ["x"; "e"] /\ M_Data.c_d s' = "e" /\ M_Data.c_x s' = ["x"; "d"].
Proof. exact fit_changes_data. Qed.
Print Assumptions C104_fit_keeps_data_refuted.

(** After an assignment to d_cols a model can be accepted that no call of fit can estimate. *)
Theorem C104_reassigned_treatments_refuted : exists f s C mc iv w0, let K := live_plr h_learner mc f iv in S_Data.reachable f s /\ M_Data.r_d (M_Data.dd_roles s) = ["d"; "e"] /\
  plr_init h_learner i_rd f s reg reg None (PInt 2) (PInt 1) (PStr "partialling out") (PBool false) = Ok (C, w0) /\ follows s C K /\
  forall w nj st ext sm s' w', later C w0 w -> live_fit f K nj st ext sm (s, w) <> ((s', w'), Ok tt).
Proof. exact reassigned_never_fits. Qed.
Print Assumptions C104_reassigned_treatments_refuted.

(** DoubleMLSSM stratifies by selection and the treatment that is active at its creation; *)
Theorem C104_selection_strata {E P} (L : learner E row P) rd f s s' tts ml_g ml_pi ml_m nf nr score norm rule thr C w0 : activated s s' -> ssm_init L rd f s tts ml_g ml_pi ml_m nf nr score norm rule thr (PBool false) = Ok (C, w0) ->
  exists selc C', M_Data.c_s s = Some selc /\ ssm_init L rd f s' tts ml_g ml_pi ml_m nf nr score norm rule thr (PBool false) = Ok (C', w0) /\
    c_strata C = Some (value_codes (fun i => col f (M_Data.c_d s) i + 2 * col f selc i)) /\ c_strata C' = Some (value_codes (fun i => col f (M_Data.c_d s') i + 2 * col f selc i)).
Proof. exact (ssm_strata L rd f s s' tts ml_g ml_pi ml_m nf nr score norm rule thr C w0). Qed.
Print Assumptions C104_selection_strata.

(** so the order of activation and creation matters for its splits. *)
Theorem C104_selection_strata_refuted : exists f s s' C C' w0 v v', S_Data.constructed f s /\ M_Data.assign f s (M_Data.SetXD (M_Data.CStr "x")) = (s', None) /\
  ssm_init h_learner i_rd f s (fun _ _ => w_tts) reg cls cls (PInt 2) (PInt 1) (PStr "missing-at-random") (PBool false) (PStr "truncate") (PFloat (1 / 100)) (PBool false) = Ok (C, w0) /\
  ssm_init h_learner i_rd f s' (fun _ _ => w_tts) reg cls cls (PInt 2) (PInt 1) (PStr "missing-at-random") (PBool false) (PStr "truncate") (PFloat (1 / 100)) (PBool false) = Ok (C', w0) /\
  c_strata C = Some v /\ c_strata C' = Some v' /\ v 0%nat = v 2%nat /\ v' 0%nat <> v' 2%nat.
Proof. exact strata_depend. Qed.
Print Assumptions C104_selection_strata_refuted.

(** Two fitted objects that share a data object with two treatments; the user activates one in between. *)
Example C104_case_two_objects : shared_case.
Proof. exact shared_holds. Qed.

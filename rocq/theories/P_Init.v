(** Properties of the model constructors: C81, C83. *)
From Verif Require Import L_InitAccept L_InitSplit L_InitErrors L_InitAcceptAll L_InitErrorsAll L_InitWitness L_InitAllWitness.
From Coq Require Import Lia Lra.
Local Open Scope R_scope.
Local Open Scope string_scope.

(** ** C81: a constructor returns an object exactly for the documented arguments *)
(** Partially linear regression; an "ml_g" that does not fit the score is ignored. *)
Theorem C81_plr : forall (E P : Type) (L : learner E row P) rd f s, S_Data.constructed f s ->
  forall (ml_l : pylearner E) (ml_m : pylearner E) (ml_g : option (pylearner E)) nf nr score draw,
  succeeds (plr_init L rd f s ml_l ml_m ml_g nf nr score draw) <->
  no_instruments s /\ data_split f s nf nr draw None /\
  (score = PStr "partialling out" \/ score = PStr "IV-type" /\ forall l, ml_g = Some l -> predicts_values l) /\
  predicts_values ml_l /\ predicts_either ml_m /\ (ly_classifier ml_m = true -> forall c, In c (M_Data.r_d (M_Data.dd_roles s)) -> S_Data.zero_one_column f c).
Proof. exact @plr_accepts_all. Qed.
Print Assumptions C81_plr.

(** Instrumental variables. *)
Theorem C81_pliv : forall (E P : Type) (L : learner E row P) rd f s, S_Data.constructed f s ->
  forall proj (ml_l : pylearner E) (ml_m : pylearner E) (ml_r : pylearner E) (ml_g : option (pylearner E)) nf nr score draw,
  succeeds (pliv_init L rd f s proj ml_l ml_m ml_r ml_g nf nr score draw) <->
  data_split f s nf nr draw None /\ predicts_values ml_l /\ predicts_values ml_m /\ predicts_values ml_r /\
  exists z more, M_Data.r_z (M_Data.dd_roles s) = Some (z :: more) /\
    (score = PStr "partialling out" \/ score = PStr "IV-type" /\ more = [] /\ exists l, ml_g = Some l /\ predicts_values l).
Proof. exact @pliv_accepts_all. Qed.
Print Assumptions C81_pliv.

(** The constructor for instruments partialled out of the treatment; [dummy] is the placeholder learner it passes. *)
Theorem C81_pliv_partialled_instruments : forall (E P : Type) (L : learner E row P) rd f s, S_Data.constructed f s ->
  forall proj (dummy : pylearner E) (ml_r : pylearner E) nf nr score draw,
  predicts_values dummy ->
  (succeeds (pliv_partial_z L rd f s proj dummy ml_r nf nr score draw) <->
   data_split f s nf nr draw None /\ predicts_values ml_r /\ score = PStr "partialling out" /\ exists z more, M_Data.r_z (M_Data.dd_roles s) = Some (z :: more)).
Proof. exact @pliv_z_accepts_all. Qed.
Print Assumptions C81_pliv_partialled_instruments.

Theorem C81_pliv_partialled_both : forall (E P : Type) (L : learner E row P) rd f s, S_Data.constructed f s ->
  forall proj (ml_l : pylearner E) (ml_m : pylearner E) (ml_r : pylearner E) nf nr score draw,
  succeeds (pliv_partial_xz L rd f s proj ml_l ml_m ml_r nf nr score draw) <->
  data_split f s nf nr draw None /\ predicts_values ml_l /\ predicts_values ml_m /\ predicts_values ml_r /\ score = PStr "partialling out" /\ exists z more, M_Data.r_z (M_Data.dd_roles s) = Some (z :: more).
Proof. exact @pliv_xz_accepts_all. Qed.
Print Assumptions C81_pliv_partialled_both.

(** Interactive regression. *)
Theorem C81_interactive : forall (E P : Type) (L : learner E row P) rd f s, S_Data.constructed f s ->
  forall (ml_g : pylearner E) (ml_m : pylearner E) nf nr score wa norm rule thr draw,
  succeeds (irm_init L rd f s ml_g ml_m nf nr score wa norm rule thr draw) <->
  no_instruments s /\ (exists c, binary_treatment f s c /\ data_split f s nf nr draw (Some (col f c))) /\
  (score = PStr "ATE" /\ weights_ok wa ScATE (M_Data.frows f) (Z.to_nat (int_val nr)) \/ score = PStr "ATTE" /\ weights_ok wa ScATTE (M_Data.frows f) (Z.to_nat (int_val nr))) /\
  outcome_learner f s ml_g /\ predicts_probabilities ml_m /\ boolean norm /\ trimming_ok rule thr.
Proof. exact @irm_accepts_all. Qed.
Print Assumptions C81_interactive.

(** Average potential outcome: at least five rows have the wanted level. *)
Theorem C81_potential_outcome : forall (E P : Type) (L : learner E row P) rd f s, S_Data.constructed f s ->
  forall (ml_g : pylearner E) (ml_m : pylearner E) level nf nr score wa norm rule thr draw,
  succeeds (apo_init L rd f s ml_g ml_m level nf nr score wa norm rule thr draw) <->
  no_instruments s /\ (exists c r, M_Data.r_d (M_Data.dd_roles s) = [c] /\ level_number level = Some r /\ (5 <= rows_with (M_Data.frows f) (col f c) r)%nat /\ data_split f s nf nr draw (Some (col f c))) /\
  score = PStr "APO" /\ weights_ok wa ScATE (M_Data.frows f) (Z.to_nat (int_val nr)) /\
  outcome_learner f s ml_g /\ predicts_probabilities ml_m /\ boolean norm /\ trimming_ok rule thr.
Proof. exact @apo_accepts_all. Qed.
Print Assumptions C81_potential_outcome.

(** Local average treatment effect. *)
Theorem C81_local_effect : forall (E P : Type) (L : learner E row P) rd f s, S_Data.constructed f s ->
  forall (ml_g : pylearner E) (ml_m : pylearner E) (ml_r : pylearner E) nf nr score sg norm rule thr draw,
  succeeds (iivm_init L rd f s ml_g ml_m ml_r nf nr score sg norm rule thr draw) <->
  (exists c z, binary_treatment f s c /\ M_Data.r_z (M_Data.dd_roles s) = Some [z] /\ S_Data.zero_one_column f z /\ data_split f s nf nr draw (Some (fun i => col f c i + 2 * col f z i))) /\
  score = PStr "LATE" /\ outcome_learner f s ml_g /\ predicts_probabilities ml_m /\ predicts_probabilities ml_r /\ boolean norm /\ trimming_ok rule thr /\ subgroups_ok sg.
Proof. exact @iivm_accepts_all. Qed.
Print Assumptions C81_local_effect.

(** Difference in differences, panel data. *)
Theorem C81_differences : forall (E P : Type) (L : learner E row P) rd f s, S_Data.constructed f s ->
  forall (ml_g : pylearner E) (ml_m : option (pylearner E)) nf nr score norm rule thr draw,
  succeeds (did_init L rd f s ml_g ml_m nf nr score norm rule thr draw) <->
  no_instruments s /\ (exists c, binary_treatment f s c /\ data_split f s nf nr draw (Some (col f c))) /\
  did_score_ok score ml_m /\ outcome_learner f s ml_g /\ boolean norm /\ trimming_ok rule thr.
Proof. exact @did_accepts_all. Qed.
Print Assumptions C81_differences.

(** Difference in differences, repeated cross sections. *)
Theorem C81_cross_sections : forall (E P : Type) (L : learner E row P) rd f s, S_Data.constructed f s ->
  forall (ml_g : pylearner E) (ml_m : option (pylearner E)) nf nr score norm rule thr draw,
  succeeds (cs_init L rd f s ml_g ml_m nf nr score norm rule thr draw) <->
  no_instruments s /\ (exists c t, binary_treatment f s c /\ M_Data.r_t (M_Data.dd_roles s) = Some t /\ S_Data.zero_one_column f t /\ data_split f s nf nr draw (Some (fun i => col f c i + 2 * col f t i))) /\
  did_score_ok score ml_m /\ outcome_learner f s ml_g /\ boolean norm /\ trimming_ok rule thr.
Proof. exact @cs_accepts_all. Qed.
Print Assumptions C81_cross_sections.

(** Sample selection. *)
Theorem C81_selection : forall (E P : Type) (L : learner E row P) rd f s, S_Data.constructed f s ->
  forall tts (ml_g : pylearner E) (ml_pi : pylearner E) (ml_m : pylearner E) nf nr score norm rule thr draw,
  succeeds (ssm_init L rd f s tts ml_g ml_pi ml_m nf nr score norm rule thr draw) <->
  (exists sel, M_Data.r_s (M_Data.dd_roles s) = Some sel /\ data_split f s nf nr draw (Some (fun i => col f (M_Data.c_d s) i + 2 * col f sel i))) /\
  (score = PStr "missing-at-random" \/ score = PStr "nonignorable" /\ ~ no_instruments s) /\
  outcome_learner f s ml_g /\ predicts_probabilities ml_pi /\ predicts_probabilities ml_m /\ boolean norm /\ trimming_ok rule thr.
Proof. exact @ssm_accepts_all. Qed.
Print Assumptions C81_selection.

(** The split of a new object: the wanted repetitions and folds; stratified where
    the class asks for it. *)
Theorem C81_split_plr : forall (E P : Type) (L : learner E row P) rd fr s, S_Data.reachable fr s -> unclustered s -> sound_randomness rd ->
  forall (ml_l : pylearner E) (ml_m : pylearner E) (ml_g : option (pylearner E)) nf nr score C w0,
  plr_init L rd fr s ml_l ml_m ml_g nf nr score (PBool true) = Ok (C, w0) -> split_drawn (M_Data.frows fr) nf nr w0.
Proof. exact @plr_drawn. Qed.
Print Assumptions C81_split_plr.

Theorem C81_split_pliv : forall (E P : Type) (L : learner E row P) rd fr s, S_Data.reachable fr s -> unclustered s -> sound_randomness rd ->
  forall proj (ml_l : pylearner E) (ml_m : pylearner E) (ml_r : pylearner E) (ml_g : option (pylearner E)) nf nr score C w0,
  pliv_init L rd fr s proj ml_l ml_m ml_r ml_g nf nr score (PBool true) = Ok (C, w0) -> split_drawn (M_Data.frows fr) nf nr w0.
Proof. exact @pliv_drawn. Qed.
Print Assumptions C81_split_pliv.

Theorem C81_split_interactive : forall (E P : Type) (L : learner E row P) rd fr s, S_Data.reachable fr s -> unclustered s -> sound_randomness rd ->
  forall (ml_g : pylearner E) (ml_m : pylearner E) nf nr score wa norm rule thr C w0,
  irm_init L rd fr s ml_g ml_m nf nr score wa norm rule thr (PBool true) = Ok (C, w0) ->
  exists c, M_Data.r_d (M_Data.dd_roles s) = [c] /\ stratified_by (M_Data.frows fr) nf nr (col fr c) w0.
Proof. exact @irm_drawn. Qed.
Print Assumptions C81_split_interactive.

Theorem C81_split_potential_outcome : forall (E P : Type) (L : learner E row P) rd fr s, S_Data.reachable fr s -> unclustered s -> sound_randomness rd ->
  forall (ml_g : pylearner E) (ml_m : pylearner E) level nf nr score wa norm rule thr C w0,
  apo_init L rd fr s ml_g ml_m level nf nr score wa norm rule thr (PBool true) = Ok (C, w0) ->
  exists c, M_Data.r_d (M_Data.dd_roles s) = [c] /\ stratified_by (M_Data.frows fr) nf nr (col fr c) w0.
Proof. exact @apo_drawn. Qed.
Print Assumptions C81_split_potential_outcome.

Theorem C81_split_local_effect : forall (E P : Type) (L : learner E row P) rd fr s, S_Data.reachable fr s -> unclustered s -> sound_randomness rd ->
  forall (ml_g : pylearner E) (ml_m : pylearner E) (ml_r : pylearner E) nf nr score sg norm rule thr C w0,
  iivm_init L rd fr s ml_g ml_m ml_r nf nr score sg norm rule thr (PBool true) = Ok (C, w0) ->
  exists c z, M_Data.r_d (M_Data.dd_roles s) = [c] /\ M_Data.r_z (M_Data.dd_roles s) = Some [z] /\ stratified_by (M_Data.frows fr) nf nr (fun i => col fr c i + 2 * col fr z i) w0.
Proof. exact @iivm_drawn. Qed.
Print Assumptions C81_split_local_effect.

Theorem C81_split_differences : forall (E P : Type) (L : learner E row P) rd fr s, S_Data.reachable fr s -> unclustered s -> sound_randomness rd ->
  forall (ml_g : pylearner E) (ml_m : option (pylearner E)) nf nr score norm rule thr C w0,
  did_init L rd fr s ml_g ml_m nf nr score norm rule thr (PBool true) = Ok (C, w0) ->
  exists c, M_Data.r_d (M_Data.dd_roles s) = [c] /\ stratified_by (M_Data.frows fr) nf nr (col fr c) w0.
Proof. exact @did_drawn. Qed.
Print Assumptions C81_split_differences.

Theorem C81_split_cross_sections : forall (E P : Type) (L : learner E row P) rd fr s, S_Data.reachable fr s -> unclustered s -> sound_randomness rd ->
  forall (ml_g : pylearner E) (ml_m : option (pylearner E)) nf nr score norm rule thr C w0,
  cs_init L rd fr s ml_g ml_m nf nr score norm rule thr (PBool true) = Ok (C, w0) ->
  exists c t, M_Data.r_d (M_Data.dd_roles s) = [c] /\ M_Data.r_t (M_Data.dd_roles s) = Some t /\ stratified_by (M_Data.frows fr) nf nr (fun i => col fr c i + 2 * col fr t i) w0.
Proof. exact @cs_drawn. Qed.
Print Assumptions C81_split_cross_sections.

Theorem C81_split_selection : forall (E P : Type) (L : learner E row P) rd fr s, S_Data.reachable fr s -> unclustered s -> sound_randomness rd ->
  forall tts (ml_g : pylearner E) (ml_pi : pylearner E) (ml_m : pylearner E) nf nr score norm rule thr C w0,
  ssm_init L rd fr s tts ml_g ml_pi ml_m nf nr score norm rule thr (PBool true) = Ok (C, w0) ->
  exists c sel, In c (M_Data.r_d (M_Data.dd_roles s)) /\ M_Data.r_s (M_Data.dd_roles s) = Some sel /\ stratified_by (M_Data.frows fr) nf nr (fun i => col fr c i + 2 * col fr sel i) w0.
Proof. exact @ssm_drawn. Qed.
Print Assumptions C81_split_selection.

(** Calls that are accepted, with the 8 rows of [i_frame], followed by a split and a successful fit. *)
(** On clustered data the split is drawn over the clusters. *)
Theorem C81_cells_plr : forall (E P : Type) (L : learner E row P) rd fr s, S_Data.reachable fr s -> forall cs, M_Data.r_cl (M_Data.dd_roles s) = Some cs -> sound_randomness rd ->
  forall (ml_l : pylearner E) (ml_m : pylearner E) (ml_g : option (pylearner E)) nf nr score C w0,
  plr_init L rd fr s ml_l ml_m ml_g nf nr score (PBool true) = Ok (C, w0) -> cluster_split_drawn fr cs nf nr w0.
Proof. exact @plr_cells. Qed.
Print Assumptions C81_cells_plr.

Theorem C81_cells_pliv : forall (E P : Type) (L : learner E row P) rd fr s, S_Data.reachable fr s -> forall cs, M_Data.r_cl (M_Data.dd_roles s) = Some cs -> sound_randomness rd ->
  forall proj (ml_l : pylearner E) (ml_m : pylearner E) (ml_r : pylearner E) (ml_g : option (pylearner E)) nf nr score C w0,
  pliv_init L rd fr s proj ml_l ml_m ml_r ml_g nf nr score (PBool true) = Ok (C, w0) -> cluster_split_drawn fr cs nf nr w0.
Proof. exact @pliv_cells. Qed.
Print Assumptions C81_cells_pliv.

Theorem C81_cells_interactive : forall (E P : Type) (L : learner E row P) rd fr s, S_Data.reachable fr s -> forall cs, M_Data.r_cl (M_Data.dd_roles s) = Some cs -> sound_randomness rd ->
  forall (ml_g : pylearner E) (ml_m : pylearner E) nf nr score wa norm rule thr C w0,
  irm_init L rd fr s ml_g ml_m nf nr score wa norm rule thr (PBool true) = Ok (C, w0) -> cluster_split_drawn fr cs nf nr w0.
Proof. exact @irm_cells. Qed.
Print Assumptions C81_cells_interactive.

Theorem C81_cells_potential_outcome : forall (E P : Type) (L : learner E row P) rd fr s, S_Data.reachable fr s -> forall cs, M_Data.r_cl (M_Data.dd_roles s) = Some cs -> sound_randomness rd ->
  forall (ml_g : pylearner E) (ml_m : pylearner E) level nf nr score wa norm rule thr C w0,
  apo_init L rd fr s ml_g ml_m level nf nr score wa norm rule thr (PBool true) = Ok (C, w0) -> cluster_split_drawn fr cs nf nr w0.
Proof. exact @apo_cells. Qed.
Print Assumptions C81_cells_potential_outcome.

Theorem C81_cells_local_effect : forall (E P : Type) (L : learner E row P) rd fr s, S_Data.reachable fr s -> forall cs, M_Data.r_cl (M_Data.dd_roles s) = Some cs -> sound_randomness rd ->
  forall (ml_g : pylearner E) (ml_m : pylearner E) (ml_r : pylearner E) nf nr score sg norm rule thr C w0,
  iivm_init L rd fr s ml_g ml_m ml_r nf nr score sg norm rule thr (PBool true) = Ok (C, w0) -> cluster_split_drawn fr cs nf nr w0.
Proof. exact @iivm_cells. Qed.
Print Assumptions C81_cells_local_effect.

Theorem C81_cells_differences : forall (E P : Type) (L : learner E row P) rd fr s, S_Data.reachable fr s -> forall cs, M_Data.r_cl (M_Data.dd_roles s) = Some cs -> sound_randomness rd ->
  forall (ml_g : pylearner E) (ml_m : option (pylearner E)) nf nr score norm rule thr C w0,
  did_init L rd fr s ml_g ml_m nf nr score norm rule thr (PBool true) = Ok (C, w0) -> cluster_split_drawn fr cs nf nr w0.
Proof. exact @did_cells. Qed.
Print Assumptions C81_cells_differences.

Theorem C81_cells_cross_sections : forall (E P : Type) (L : learner E row P) rd fr s, S_Data.reachable fr s -> forall cs, M_Data.r_cl (M_Data.dd_roles s) = Some cs -> sound_randomness rd ->
  forall (ml_g : pylearner E) (ml_m : option (pylearner E)) nf nr score norm rule thr C w0,
  cs_init L rd fr s ml_g ml_m nf nr score norm rule thr (PBool true) = Ok (C, w0) -> cluster_split_drawn fr cs nf nr w0.
Proof. exact @cs_cells. Qed.
Print Assumptions C81_cells_cross_sections.

Theorem C81_cells_selection : forall (E P : Type) (L : learner E row P) rd fr s, S_Data.reachable fr s -> forall cs, M_Data.r_cl (M_Data.dd_roles s) = Some cs -> sound_randomness rd ->
  forall tts (ml_g : pylearner E) (ml_pi : pylearner E) (ml_m : pylearner E) nf nr score norm rule thr C w0,
  ssm_init L rd fr s tts ml_g ml_pi ml_m nf nr score norm rule thr (PBool true) = Ok (C, w0) -> cluster_split_drawn fr cs nf nr w0.
Proof. exact @ssm_cells. Qed.
Print Assumptions C81_cells_selection.

Example C81_case_linear : plr_case rd1 "partialling out" /\ plr_case rd2 "IV-type" /\ pliv_case rz1 "IV-type" /\ pliv_case rz2 "partialling out" /\ pliv_z_case /\ pliv_xz_case.
Proof. exact (conj (proj1 (plr_cases _ (or_introl eq_refl))) (conj (proj2 (plr_cases _ (or_intror eq_refl))) (conj (pliv_cases _ (or_intror eq_refl)) (conj pliv_several_cases (conj pliv_z_cases pliv_xz_cases))))). Qed.
Example C81_case_effects : irm_case "ATE" /\ irm_case "ATTE" /\ apo_case /\ iivm_case /\ did_case "observational" /\ cs_case "experimental" /\ ssm_case /\ ssm_non_case.
Proof. exact (conj (irm_cases _ (or_introl eq_refl)) (conj (irm_cases _ (or_intror eq_refl)) (conj apo_cases (conj iivm_cases (conj (did_cases _ (or_introl eq_refl)) (conj (cs_cases _ (or_intror eq_refl)) (conj ssm_cases ssm_non_cases))))))). Qed.

Example C81_case_clusters : exists s, i_data rcc s /\ (exists C w0, irm_call s (PInt 2) = Ok (C, w0) /\ cluster_split_drawn i_frame ["c"; "t"] (PInt 2) (PInt 1) w0) /\ ~ succeeds (irm_call s (PInt 3)).
Proof. exact two_way_cases. Qed.
Example C81_case_cluster_fits : plr_cl_case /\ pliv_cl_case.
Proof. exact (conj plr_cl_cases pliv_cl_cases). Qed.

(** ** C83: a refused call raises TypeError or ValueError *)
Theorem C83_plr : forall (E P : Type) (L : learner E row P) rd f s, S_Data.constructed f s -> two_clusters s ->
  forall (ml_l : pylearner E) (ml_m : pylearner E) (ml_g : option (pylearner E)) nf nr score draw, type_or_value_error (plr_init L rd f s ml_l ml_m ml_g nf nr score draw).
Proof. exact @plr_refused_all. Qed.
Print Assumptions C83_plr.

Theorem C83_pliv : forall (E P : Type) (L : learner E row P) rd f s, S_Data.constructed f s -> two_clusters s ->
  forall proj (ml_l : pylearner E) (ml_m : pylearner E) (ml_r : pylearner E) (ml_g : option (pylearner E)) nf nr score draw, type_or_value_error (pliv_init L rd f s proj ml_l ml_m ml_r ml_g nf nr score draw).
Proof. exact @pliv_refused_all. Qed.
Print Assumptions C83_pliv.

Theorem C83_pliv_partialled_instruments : forall (E P : Type) (L : learner E row P) rd f s, S_Data.constructed f s -> two_clusters s ->
  forall proj (dummy : pylearner E) (ml_r : pylearner E) nf nr score draw, type_or_value_error (pliv_partial_z L rd f s proj dummy ml_r nf nr score draw).
Proof. exact @pliv_z_refused_all. Qed.
Print Assumptions C83_pliv_partialled_instruments.

Theorem C83_pliv_partialled_both : forall (E P : Type) (L : learner E row P) rd f s, S_Data.constructed f s -> two_clusters s ->
  forall proj (ml_l : pylearner E) (ml_m : pylearner E) (ml_r : pylearner E) nf nr score draw, type_or_value_error (pliv_partial_xz L rd f s proj ml_l ml_m ml_r nf nr score draw).
Proof. exact @pliv_xz_refused_all. Qed.
Print Assumptions C83_pliv_partialled_both.

(** Missing: weight dictionaries whose entries are no arrays. *)
Theorem C83_interactive_partial : forall (E P : Type) (L : learner E row P) rd f s, S_Data.constructed f s -> two_clusters s ->
  forall (ml_g : pylearner E) (ml_m : pylearner E) nf nr score wa norm rule thr draw, arrays_given wa -> type_or_value_error (irm_init L rd f s ml_g ml_m nf nr score wa norm rule thr draw).
Proof. exact @irm_refused_all. Qed.
Print Assumptions C83_interactive_partial.

(** Missing: weight dictionaries whose entries are no arrays. *)
Theorem C83_potential_outcome_partial : forall (E P : Type) (L : learner E row P) rd f s, S_Data.constructed f s -> two_clusters s ->
  forall (ml_g : pylearner E) (ml_m : pylearner E) level nf nr score wa norm rule thr draw, arrays_given wa -> type_or_value_error (apo_init L rd f s ml_g ml_m level nf nr score wa norm rule thr draw).
Proof. exact @apo_refused_all. Qed.
Print Assumptions C83_potential_outcome_partial.

Theorem C83_local_effect : forall (E P : Type) (L : learner E row P) rd f s, S_Data.constructed f s -> two_clusters s ->
  forall (ml_g : pylearner E) (ml_m : pylearner E) (ml_r : pylearner E) nf nr score sg norm rule thr draw, type_or_value_error (iivm_init L rd f s ml_g ml_m ml_r nf nr score sg norm rule thr draw).
Proof. exact @iivm_refused_all. Qed.
Print Assumptions C83_local_effect.

Theorem C83_differences : forall (E P : Type) (L : learner E row P) rd f s, S_Data.constructed f s -> two_clusters s ->
  forall (ml_g : pylearner E) (ml_m : option (pylearner E)) nf nr score norm rule thr draw, type_or_value_error (did_init L rd f s ml_g ml_m nf nr score norm rule thr draw).
Proof. exact @did_refused_all. Qed.
Print Assumptions C83_differences.

Theorem C83_cross_sections : forall (E P : Type) (L : learner E row P) rd f s, S_Data.constructed f s -> two_clusters s ->
  forall (ml_g : pylearner E) (ml_m : option (pylearner E)) nf nr score norm rule thr draw, type_or_value_error (cs_init L rd f s ml_g ml_m nf nr score norm rule thr draw).
Proof. exact @cs_refused_all. Qed.
Print Assumptions C83_cross_sections.

(** Missing: data without a selection indicator. *)
Theorem C83_selection_partial : forall (E P : Type) (L : learner E row P) rd f s, S_Data.constructed f s -> two_clusters s ->
  forall tts (ml_g : pylearner E) (ml_pi : pylearner E) (ml_m : pylearner E) nf nr score norm rule thr draw, M_Data.r_s (M_Data.dd_roles s) <> None -> type_or_value_error (ssm_init L rd f s tts ml_g ml_pi ml_m nf nr score norm rule thr draw).
Proof. exact @ssm_refused_all. Qed.
Print Assumptions C83_selection_partial.

(** More than two cluster columns are not implemented, whatever the other arguments. *)
Theorem C83_many_clusters_plr : forall (E P : Type) (L : learner E row P) rd f s, S_Data.constructed f s -> ~ two_clusters s ->
  forall (ml_l : pylearner E) (ml_m : pylearner E) (ml_g : option (pylearner E)) nf nr score draw,
  plr_init L rd f s ml_l ml_m ml_g nf nr score draw = Err NotImplementedError.
Proof. exact @plr_many. Qed.
Print Assumptions C83_many_clusters_plr.

Theorem C83_many_clusters_pliv : forall (E P : Type) (L : learner E row P) rd f s, S_Data.constructed f s -> ~ two_clusters s ->
  forall proj (ml_l : pylearner E) (ml_m : pylearner E) (ml_r : pylearner E) (ml_g : option (pylearner E)) nf nr score draw,
  pliv_init L rd f s proj ml_l ml_m ml_r ml_g nf nr score draw = Err NotImplementedError.
Proof. exact @pliv_many. Qed.
Print Assumptions C83_many_clusters_pliv.

Theorem C83_many_clusters_interactive : forall (E P : Type) (L : learner E row P) rd f s, S_Data.constructed f s -> ~ two_clusters s ->
  forall (ml_g : pylearner E) (ml_m : pylearner E) nf nr score wa norm rule thr draw,
  irm_init L rd f s ml_g ml_m nf nr score wa norm rule thr draw = Err NotImplementedError.
Proof. exact @irm_many. Qed.
Print Assumptions C83_many_clusters_interactive.

Theorem C83_many_clusters_potential_outcome : forall (E P : Type) (L : learner E row P) rd f s, S_Data.constructed f s -> ~ two_clusters s ->
  forall (ml_g : pylearner E) (ml_m : pylearner E) level nf nr score wa norm rule thr draw,
  apo_init L rd f s ml_g ml_m level nf nr score wa norm rule thr draw = Err NotImplementedError.
Proof. exact @apo_many. Qed.
Print Assumptions C83_many_clusters_potential_outcome.

Theorem C83_many_clusters_local_effect : forall (E P : Type) (L : learner E row P) rd f s, S_Data.constructed f s -> ~ two_clusters s ->
  forall (ml_g : pylearner E) (ml_m : pylearner E) (ml_r : pylearner E) nf nr score sg norm rule thr draw,
  iivm_init L rd f s ml_g ml_m ml_r nf nr score sg norm rule thr draw = Err NotImplementedError.
Proof. exact @iivm_many. Qed.
Print Assumptions C83_many_clusters_local_effect.

Theorem C83_many_clusters_differences : forall (E P : Type) (L : learner E row P) rd f s, S_Data.constructed f s -> ~ two_clusters s ->
  forall (ml_g : pylearner E) (ml_m : option (pylearner E)) nf nr score norm rule thr draw,
  did_init L rd f s ml_g ml_m nf nr score norm rule thr draw = Err NotImplementedError.
Proof. exact @did_many. Qed.
Print Assumptions C83_many_clusters_differences.

Theorem C83_many_clusters_cross_sections : forall (E P : Type) (L : learner E row P) rd f s, S_Data.constructed f s -> ~ two_clusters s ->
  forall (ml_g : pylearner E) (ml_m : option (pylearner E)) nf nr score norm rule thr draw,
  cs_init L rd f s ml_g ml_m nf nr score norm rule thr draw = Err NotImplementedError.
Proof. exact @cs_many. Qed.
Print Assumptions C83_many_clusters_cross_sections.

Theorem C83_many_clusters_selection : forall (E P : Type) (L : learner E row P) rd f s, S_Data.constructed f s -> ~ two_clusters s ->
  forall tts (ml_g : pylearner E) (ml_pi : pylearner E) (ml_m : pylearner E) nf nr score norm rule thr draw,
  ssm_init L rd f s tts ml_g ml_pi ml_m nf nr score norm rule thr draw = Err NotImplementedError.
Proof. exact @ssm_many. Qed.
Print Assumptions C83_many_clusters_selection.

Theorem C83_many_clusters_pliv_partialled_instruments : forall (E P : Type) (L : learner E row P) rd f s, S_Data.constructed f s -> ~ two_clusters s ->
  forall proj (dummy : pylearner E) (ml_r : pylearner E) nf nr score draw, pliv_partial_z L rd f s proj dummy ml_r nf nr score draw = Err NotImplementedError.
Proof. exact @pliv_z_many. Qed.
Print Assumptions C83_many_clusters_pliv_partialled_instruments.

Theorem C83_many_clusters_pliv_partialled_both : forall (E P : Type) (L : learner E row P) rd f s, S_Data.constructed f s -> ~ two_clusters s ->
  forall proj (ml_l : pylearner E) (ml_m : pylearner E) (ml_r : pylearner E) nf nr score draw, pliv_partial_xz L rd f s proj ml_l ml_m ml_r nf nr score draw = Err NotImplementedError.
Proof. exact @pliv_xz_many. Qed.
Print Assumptions C83_many_clusters_pliv_partialled_both.

(** A weight dictionary whose entries are no arrays: AttributeError. *)
Theorem C83_weights_refuted : exists s, i_data rd1 s /\
  irm_init q_learner i_rd i_frame s reg cls (PInt 2) (PInt 1) (PStr "ATE") (WDict Wrong Wrong false) (PBool false) (PStr "truncate") (PFloat (1 / 100)) (PBool true) = Err AttributeError.
Proof. exact @weights_no_array. Qed.
Print Assumptions C83_weights_refuted.

(** A sample selection model on data without a selection indicator: AttributeError. *)
Theorem C83_selection_refuted : exists s, i_data rd1 s /\
  ssm_init q_learner i_rd i_frame s (fun _ _ => w_tts) reg cls cls (PInt 2) (PInt 1) (PStr "missing-at-random") (PBool false) (PStr "truncate") (PFloat (1 / 100)) (PBool true) = Err AttributeError.
Proof. exact @ssm_no_selection. Qed.
Print Assumptions C83_selection_refuted.

(** A sample selection model for a treatment with four values is not refused. *)
Theorem C83_treatment_refuted : exists s, i_data rs3 s /\ ~ S_Data.zero_one_column i_frame "c" /\
  succeeds (ssm_init q_learner i_rd i_frame s (fun _ _ => w_tts) reg cls cls (PInt 2) (PInt 1) (PStr "missing-at-random") (PBool false) (PStr "truncate") (PFloat (1 / 100)) (PBool true)).
Proof. exact @ssm_any_treatment. Qed.
Print Assumptions C83_treatment_refuted.

(** Two instruments, one called "ml_l": not refused, but no later fit returns. *)
Theorem C83_instrument_name_refuted : exists s C w0, i_data rz3 s /\
  pliv_init q_learner i_rd i_frame s (fun _ _ => 0) reg reg reg None (PInt 2) (PInt 1) (PStr "partialling out") (PBool true) = Ok (C, w0) /\
  forall w nj store ext sm w', later C w0 w -> fit C nj store ext sm w <> (w', Ok tt).
Proof. exact @instrument_name. Qed.
Print Assumptions C83_instrument_name_refuted.

Example C83_case_refused : exists s, i_data rd1 s /\ unclustered s /\ exists e, irm_init q_learner i_rd i_frame s reg reg (PInt 2) (PInt 1) (PStr "ATE") WNone (PBool false) (PStr "truncate") (PFloat (1 / 100)) (PBool true) = Err e.
Proof. exact regressor_refused. Qed.
Example C83_case_clusters : exists s, i_data rccc s /\ ~ two_clusters s /\ irm_call s (PInt 2) = Err NotImplementedError.
Proof. exact three_way_cases. Qed.

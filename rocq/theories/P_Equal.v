(** C101: equivalent formulations of one estimation problem report equal results. *)
From Verif Require Import L_EqualSubWitness.
From Coq Require Import Lia Lra.
Local Open Scope R_scope.
Local Open Scope string_scope.

(** Interactive model with treated and untreated units exchanged (d replaced by 1 - d): the effect changes its sign, the standard error stays. *)
Theorem C101_labels_swapped : forall (E P : Type) (L : learner E row P) f g rd rd' fr fr' s s' dc dc' ml_g ml_m wa nm nf nf' nr nr' draw draw' rule rule' thr C C' w0 w0' w w' nj nj' store store' ext ext' smod smod' w1 w1',
  let n := M_Data.frows fr in let y := outcome fr s in let d := col fr dc in
  S_Data.reachable fr s -> unclustered s -> sound_randomness rd -> (0 < n)%nat -> S_Data.reachable fr' s' -> unclustered s' -> sound_randomness rd' ->
  irm_init L rd fr s ml_g ml_m nf nr (PStr "ATE") wa (PBool nm) rule (PFloat thr) draw = Ok (C, w0) -> later C w0 w -> reliable L f g rd w ->
  irm_init L rd' fr' s' ml_g ml_m nf' nr' (PStr "ATE") wa (PBool nm) rule' (PFloat thr) draw' = Ok (C', w0') -> later C' w0' w' -> reliable L f g rd' w' ->
  same_problem fr s w fr' s' w' -> M_Data.r_d (M_Data.dd_roles s) = [dc] -> M_Data.r_d (M_Data.dd_roles s') = [dc'] ->
  (forall i, (i < n)%nat -> col fr' dc' i = 1 - d i) -> (forall i, (i < n)%nat -> covariates fr' s' dc' i = covariates fr s dc i) -> both_groups n d ->
  labels_seen L g (ly_classifier ml_g) w n y (fun j => d j = 0) -> labels_seen L g (ly_classifier ml_g) w n y (fun j => d j = 1) -> labels_seen L g true w n d everyone ->
  fit C nj store ext smod w = (w1, Ok tt) -> fit C' nj' store' ext' smod' w' = (w1', Ok tt) ->
  exists mc F F' sm, runs_on mc "ml_m" ml_m true /\ fit_done w w1 F sm 1 /\ fit_done w' w1' F' sm 1 /\
    forall r fs, nth_error sm r = Some fs -> (r < m_n_rep (w_obj w0))%nat -> (r < m_n_rep (w_obj w0'))%nat ->
      matched w w' ext ext' dc "ml_g0" dc' "ml_g1" r -> matched w w' ext ext' dc "ml_g1" dc' "ml_g0" r -> mirrored L g w w' ext ext' dc "ml_m" dc' "ml_m" r ->
      exists m0 m, used_prediction L f g mc w n ext r 0 dc "ml_m" "ml_m" (covariates fr s dc) d whole_train fs m0 /\ clipped n true thr m0 m /\ (off_bounds n (ps_adjust n m d nm) -> signed F F' 0 r (-1)).
Proof. exact irm_swapped. Qed.
Print Assumptions C101_labels_swapped.

(** The average treatment effect is the difference of the two average potential outcomes. *)
Theorem C101_potential_outcomes : forall (E P : Type) (L : learner E row P) f g rd rd1 rd0 fr s dc ml_g ml_m sc1 sc0 wa nm nf nf1 nf0 nr nr1 nr0 draw draw1 draw0 rule rule1 rule0 thr C C1 C0 w0 w01 w00 w wa1 wa0 nj nj1 nj0 store store1 store0 ext ext1 ext0 smod smod1 smod0 w1 w1' w0',
  let n := M_Data.frows fr in let y := outcome fr s in let d := col fr dc in
  S_Data.reachable fr s -> unclustered s -> sound_randomness rd -> sound_randomness rd1 -> sound_randomness rd0 -> (0 < n)%nat ->
  irm_init L rd fr s ml_g ml_m nf nr (PStr "ATE") wa (PBool nm) rule (PFloat thr) draw = Ok (C, w0) -> later C w0 w -> reliable L f g rd w ->
  apo_init L rd1 fr s ml_g ml_m (PInt 1) nf1 nr1 sc1 wa (PBool nm) rule1 (PFloat thr) draw1 = Ok (C1, w01) -> later C1 w01 wa1 -> reliable L f g rd1 wa1 ->
  apo_init L rd0 fr s ml_g ml_m (PInt 0) nf0 nr0 sc0 wa (PBool nm) rule0 (PFloat thr) draw0 = Ok (C0, w00) -> later C0 w00 wa0 -> reliable L f g rd0 wa0 ->
  same_problem fr s w fr s wa1 -> same_problem fr s w fr s wa0 -> M_Data.r_d (M_Data.dd_roles s) = [dc] -> both_groups n d ->
  labels_seen L g (ly_classifier ml_g) w n y (fun j => d j = 0) -> labels_seen L g (ly_classifier ml_g) w n y (fun j => d j = 1) -> labels_seen L g true w n d everyone ->
  fit C nj store ext smod w = (w1, Ok tt) -> fit C1 nj1 store1 ext1 smod1 wa1 = (w1', Ok tt) -> fit C0 nj0 store0 ext0 smod0 wa0 = (w0', Ok tt) ->
  exists mc F F1 F0 sm, runs_on mc "ml_m" ml_m true /\ fit_done w w1 F sm 1 /\ fit_done wa1 w1' F1 sm 1 /\ fit_done wa0 w0' F0 sm 1 /\
    forall r fs, nth_error sm r = Some fs -> (r < m_n_rep (w_obj w0))%nat -> (r < m_n_rep (w_obj w01))%nat -> (r < m_n_rep (w_obj w00))%nat ->
      matched w wa1 ext ext1 dc "ml_g1" dc "ml_g_d_lvl1" r -> matched w wa1 ext ext1 dc "ml_m" dc "ml_m" r ->
      matched w wa0 ext ext0 dc "ml_g0" dc "ml_g_d_lvl1" r -> mirrored L g w wa0 ext ext0 dc "ml_m" dc "ml_m" r ->
      exists m0 m, used_prediction L f g mc w n ext r 0 dc "ml_m" "ml_m" (covariates fr s dc) d whole_train fs m0 /\ clipped n true thr m0 m /\ (off_bounds n (ps_adjust n m d nm) -> difference_of n 0 r F F1 F0).
Proof. exact apo_contrast. Qed.
Print Assumptions C101_potential_outcomes.

(** Subtracting the two fitted potential-outcome objects gives an object with the estimate and the standard error of the average treatment effect. *)
Theorem C101_difference_object : forall (E P : Type) (L : learner E row P) f g rd rd1 rd0 fr s dc ml_g ml_m sc1 sc0 wa nm nf nf1 nf0 nr nr1 nr0 draw draw1 draw0 rule rule1 rule0 thr C C1 C0 w0 w01 w00 w wa1 wa0 nj nj1 nj0 store store1 store0 ext ext1 ext0 smod smod1 smod0 w1 w1' w0',
  let n := M_Data.frows fr in let y := outcome fr s in let d := col fr dc in
  S_Data.reachable fr s -> unclustered s -> sound_randomness rd -> sound_randomness rd1 -> sound_randomness rd0 -> (0 < n)%nat ->
  irm_init L rd fr s ml_g ml_m nf nr (PStr "ATE") wa (PBool nm) rule (PFloat thr) draw = Ok (C, w0) -> later C w0 w -> reliable L f g rd w ->
  apo_init L rd1 fr s ml_g ml_m (PInt 1) nf1 nr1 sc1 wa (PBool nm) rule1 (PFloat thr) draw1 = Ok (C1, w01) -> later C1 w01 wa1 -> reliable L f g rd1 wa1 ->
  apo_init L rd0 fr s ml_g ml_m (PInt 0) nf0 nr0 sc0 wa (PBool nm) rule0 (PFloat thr) draw0 = Ok (C0, w00) -> later C0 w00 wa0 -> reliable L f g rd0 wa0 ->
  same_problem fr s w fr s wa1 -> same_problem fr s w fr s wa0 -> M_Data.r_d (M_Data.dd_roles s) = [dc] -> both_groups n d ->
  labels_seen L g (ly_classifier ml_g) w n y (fun j => d j = 0) -> labels_seen L g (ly_classifier ml_g) w n y (fun j => d j = 1) -> labels_seen L g true w n d everyone ->
  fit C nj store ext smod w = (w1, Ok tt) -> fit C1 nj1 store1 ext1 smod1 wa1 = (w1', Ok tt) -> fit C0 nj0 store0 ext0 smod0 wa0 = (w0', Ok tt) ->
  exists mc F F1 F0 sm h, runs_on mc "ml_m" ml_m true /\ fit_done w w1 F sm 1 /\ fit_done wa1 w1' F1 sm 1 /\ fit_done wa0 w0' F0 sm 1 /\ fw_sub F1 (OpFw F0) = Ok h /\
    (forall r fs, nth_error sm r = Some fs -> (r < m_n_rep (w_obj w0))%nat -> (r < m_n_rep (w_obj w01))%nat -> (r < m_n_rep (w_obj w00))%nat ->
      matched w wa1 ext ext1 dc "ml_g1" dc "ml_g_d_lvl1" r -> matched w wa1 ext ext1 dc "ml_m" dc "ml_m" r ->
      matched w wa0 ext ext0 dc "ml_g0" dc "ml_g_d_lvl1" r -> mirrored L g w wa0 ext ext0 dc "ml_m" dc "ml_m" r ->
      exists m0 m, used_prediction L f g mc w n ext r 0 dc "ml_m" "ml_m" (covariates fr s dc) d whole_train fs m0 /\ clipped n true thr m0 m /\ (off_bounds n (ps_adjust n m d nm) -> signed F h 0 r 1)) /\
    ((forall r, (r < length sm)%nat -> signed F h 0 r 1) -> at_ (fw_thetas h) [0%nat] = at_ (fw_thetas F) [0%nat] /\ at_ (fw_ses h) [0%nat] = at_ (fw_ses F) [0%nat]).
Proof. exact apo_difference. Qed.
Print Assumptions C101_difference_object.

(** Interactive IV model with the treatment as its own instrument and without always and never takers: the average treatment effect. *)
Theorem C101_full_compliance : forall (E P : Type) (L : learner E row P) f g rd rd' fr fr' s s' dc dc' zc ml_g ml_m ml_r score l nm nf nf' nr nr' draw draw' rule rule' thr C C' w0 w0' w w' nj nj' store store' ext ext' smod smod' w1 w1',
  let n := M_Data.frows fr in let y := outcome fr s in let d := col fr dc in
  S_Data.reachable fr s -> unclustered s -> sound_randomness rd -> (0 < n)%nat -> S_Data.reachable fr' s' -> unclustered s' -> sound_randomness rd' ->
  irm_init L rd fr s ml_g ml_m nf nr (PStr "ATE") WNone (PBool nm) rule (PFloat thr) draw = Ok (C, w0) -> later C w0 w -> reliable L f g rd w ->
  iivm_init L rd' fr' s' ml_g ml_m ml_r nf' nr' score (SgDict l) (PBool nm) rule' (PFloat thr) draw' = Ok (C', w0') -> later C' w0' w' -> reliable L f g rd' w' ->
  dict_get "always_takers" l = Some (PBool false) -> dict_get "never_takers" l = Some (PBool false) ->
  same_problem fr s w fr' s' w' -> M_Data.r_d (M_Data.dd_roles s) = [dc] -> M_Data.r_d (M_Data.dd_roles s') = [dc'] -> M_Data.r_z (M_Data.dd_roles s') = Some [zc] ->
  (forall i, (i < n)%nat -> col fr' dc' i = d i) -> (forall i, (i < n)%nat -> col fr' zc i = d i) -> (forall i, (i < n)%nat -> covariates fr' s' dc' i = covariates fr s dc i) ->
  labels_seen L g (ly_classifier ml_g) w n y (fun j => d j = 0) -> labels_seen L g (ly_classifier ml_g) w n y (fun j => d j = 1) -> labels_seen L g true w n d everyone ->
  fit C nj store ext smod w = (w1, Ok tt) -> fit C' nj' store' ext' smod' w' = (w1', Ok tt) ->
  exists mc F F' sm, runs_on mc "ml_m" ml_m true /\ fit_done w w1 F sm 1 /\ fit_done w' w1' F' sm 1 /\
    forall r fs, nth_error sm r = Some fs -> (r < m_n_rep (w_obj w0))%nat ->
      (forall k, k = "ml_g0" \/ k = "ml_g1" \/ k = "ml_m" -> matched w w' ext ext' dc k dc' k r) ->
      exists m0 m, used_prediction L f g mc w n ext r 0 dc "ml_m" "ml_m" (covariates fr s dc) d whole_train fs m0 /\ clipped n true thr m0 m /\ (off_bounds n (ps_adjust n m d nm) -> signed F F' 0 r 1).
Proof. exact iivm_compliance. Qed.
Print Assumptions C101_full_compliance.

(** Partially linear IV model with the treatment as its own instrument: the partially linear model. *)
Theorem C101_own_instrument : forall (E P : Type) (L : learner E row P) f g rd rd' fr fr' s s' zc proj ml_l ml_m ml_g ml_g' nf nf' nr nr' draw draw' C C' w0 w0' w w' nj nj' store store' ext ext' smod smod' w1 w1',
  let n := M_Data.frows fr in let dcols := M_Data.r_d (M_Data.dd_roles s) in
  S_Data.reachable fr s -> unclustered s -> sound_randomness rd -> (0 < n)%nat -> S_Data.reachable fr' s' -> unclustered s' -> sound_randomness rd' ->
  plr_init L rd fr s ml_l ml_m ml_g nf nr (PStr "partialling out") draw = Ok (C, w0) -> later C w0 w -> reliable L f g rd w -> ly_classifier ml_m = false ->
  M_Data.r_z (M_Data.dd_roles s') = Some [zc] ->
  pliv_init L rd' fr' s' proj ml_l ml_m ml_m ml_g' nf' nr' (PStr "partialling out") draw' = Ok (C', w0') -> later C' w0' w' -> reliable L f g rd' w' ->
  same_problem fr s w fr' s' w' ->
  fit C nj store ext smod w = (w1, Ok tt) -> fit C' nj' store' ext' smod' w' = (w1', Ok tt) ->
  exists mc F F' sm, runs_on mc "ml_m" ml_m false /\ fit_done w w1 F sm (length dcols) /\ fit_done w' w1' F' sm (length (M_Data.r_d (M_Data.dd_roles s'))) /\
    forall r t t' fs c c', nth_error sm r = Some fs -> nth_error dcols t = Some c -> nth_error (M_Data.r_d (M_Data.dd_roles s')) t' = Some c' ->
      (forall i, (i < n)%nat -> col fr' c' i = col fr c i) -> (forall i, (i < n)%nat -> col fr' zc i = col fr c i) -> (forall i, (i < n)%nat -> covariates fr' s' c' i = covariates fr s c i) ->
      matched w w' ext ext' c "ml_l" c' "ml_l" r -> matched w w' ext ext' c "ml_m" c' "ml_m" r -> matched w w' ext ext' c "ml_m" c' "ml_r" r ->
      exists m, used_prediction L f g mc w n ext r t c "ml_m" "ml_m" (covariates fr s c) (col fr c) whole_train fs m /\
        (sumf n (fun i => (col fr c i - m i) ^ 2) <> 0 ->
         at_ (fw_all_thetas F') [t'; r] = at_ (fw_all_thetas F) [t; r] /\ at_ (fw_all_ses F') [t'; r] = at_ (fw_all_ses F) [t; r]).
Proof. exact pliv_own_instrument. Qed.
Print Assumptions C101_own_instrument.

(** Fitted pairs of objects with learners that train on every fold. *)
Example C101_case_swapped : swap_case.
Proof. exact swap_holds. Qed.
Example C101_case_potential_outcomes : contrast_case.
Proof. exact contrast_holds. Qed.
Example C101_case_difference_object : difference_case.
Proof. exact difference_holds. Qed.
Example C101_case_compliance : compliance_case.
Proof. exact compliance_holds. Qed.
Example C101_case_own_instrument : own_case.
Proof. exact own_holds. Qed.

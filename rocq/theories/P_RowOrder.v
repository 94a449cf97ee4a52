(** C102: the order of rows, folds and repetitions has no influence on estimates and standard errors. *)
From Verif Require Import L_RowOrderWitness.
From Coq Require Import Lia Lra.
Local Open Scope R_scope.
Local Open Scope string_scope.

(** Partially linear model, every treatment variable. *)
Theorem C102_plr : forall (E P : Type) (L : learner E row P) f g rd rd' fr fr' s s' ml_l ml_m ml_g ml_g' nf nf' nr nr' draw draw' C C' w0 w0' w w' nj nj' store store' ext ext' smod smod' w1 w1' pm om ro,
  let n := M_Data.frows fr in let dcols := M_Data.r_d (M_Data.dd_roles s) in
  S_Data.reachable fr s -> unclustered s -> sound_randomness rd -> (0 < n)%nat -> S_Data.reachable fr' s' -> unclustered s' -> sound_randomness rd' ->
  plr_init L rd fr s ml_l ml_m ml_g nf nr (PStr "partialling out") draw = Ok (C, w0) -> later C w0 w -> reliable L f g rd w ->
  plr_init L rd' fr' s' ml_l ml_m ml_g' nf' nr' (PStr "partialling out") draw' = Ok (C', w0') -> later C' w0' w' -> reliable L f g rd' w' ->
  rearranged pm om ro fr s w fr' s' w' ->
  (forall c, In c dcols -> labels_seen L g (ly_classifier ml_m) w n (col fr c) everyone) ->
  fit C nj store ext smod w = (w1, Ok tt) -> fit C' nj' store' ext' smod' w' = (w1', Ok tt) ->
  exists mc F F' sm sm', runs_on mc "ml_m" ml_m (ly_classifier ml_m) /\ fit_done w w1 F sm (length dcols) /\ fit_done w' w1' F' sm' (length dcols) /\ same_aggregates F F' ro (length sm) (length dcols) /\
    forall r t fs c, nth_error sm r = Some fs -> nth_error dcols t = Some c ->
      followed L f g n pm ext ext' c "ml_l" r (ro r) -> followed L f g n pm ext ext' c "ml_m" r (ro r) ->
      exists m, used_prediction L f g mc w n ext r t c "ml_m" "ml_m" (covariates fr s c) (col fr c) whole_train fs m /\
        (sumf n (fun i => (col fr c i - m i) ^ 2) <> 0 -> same_estimates_at F F' t r (ro r)).
Proof. exact plr_order. Qed.
Print Assumptions C102_plr.

(** Partially linear IV model with one instrument. *)
Theorem C102_pliv : forall (E P : Type) (L : learner E row P) f g rd rd' fr fr' s s' zc zc' proj proj' ml_l ml_m ml_r ml_g ml_g' nf nf' nr nr' draw draw' C C' w0 w0' w w' nj nj' store store' ext ext' smod smod' w1 w1' pm om ro,
  let n := M_Data.frows fr in let dcols := M_Data.r_d (M_Data.dd_roles s) in
  S_Data.reachable fr s -> unclustered s -> sound_randomness rd -> (0 < n)%nat -> S_Data.reachable fr' s' -> unclustered s' -> sound_randomness rd' ->
  M_Data.r_z (M_Data.dd_roles s) = Some [zc] -> M_Data.r_z (M_Data.dd_roles s') = Some [zc'] ->
  pliv_init L rd fr s proj ml_l ml_m ml_r ml_g nf nr (PStr "partialling out") draw = Ok (C, w0) -> later C w0 w -> reliable L f g rd w ->
  pliv_init L rd' fr' s' proj' ml_l ml_m ml_r ml_g' nf' nr' (PStr "partialling out") draw' = Ok (C', w0') -> later C' w0' w' -> reliable L f g rd' w' ->
  rearranged pm om ro fr s w fr' s' w' -> moved n pm (col fr zc) (col fr' zc') ->
  fit C nj store ext smod w = (w1, Ok tt) -> fit C' nj' store' ext' smod' w' = (w1', Ok tt) ->
  exists mc F F' sm sm', runs_on mc "ml_m" ml_m false /\ runs_on mc "ml_r" ml_r false /\ fit_done w w1 F sm (length dcols) /\ fit_done w' w1' F' sm' (length dcols) /\ same_aggregates F F' ro (length sm) (length dcols) /\
    forall r t fs c, nth_error sm r = Some fs -> nth_error dcols t = Some c ->
      followed L f g n pm ext ext' c "ml_l" r (ro r) -> followed L f g n pm ext ext' c "ml_m" r (ro r) -> followed L f g n pm ext ext' c "ml_r" r (ro r) ->
      exists m q, used_prediction L f g mc w n ext r t c "ml_m" "ml_m" (covariates fr s c) (col fr zc) whole_train fs m /\
        used_prediction L f g mc w n ext r t c "ml_r" "ml_r" (covariates fr s c) (col fr c) whole_train fs q /\
        (sumf n (fun i => (col fr zc i - m i) * (col fr c i - q i)) <> 0 -> same_estimates_at F F' t r (ro r)).
Proof. exact pliv_order. Qed.
Print Assumptions C102_pliv.

(** Interactive model, average effect; weights move with the rows. *)
Theorem C102_irm_ate : forall (E P : Type) (L : learner E row P) f g rd rd' fr fr' s s' ml_g ml_m wa wa' nm nf nf' nr nr' draw draw' rule rule' thr C C' w0 w0' w w' nj nj' store store' ext ext' smod smod' w1 w1' pm om ro,
  let n := M_Data.frows fr in
  S_Data.reachable fr s -> unclustered s -> sound_randomness rd -> (0 < n)%nat -> S_Data.reachable fr' s' -> unclustered s' -> sound_randomness rd' ->
  irm_init L rd fr s ml_g ml_m nf nr (PStr "ATE") wa (PBool nm) rule (PFloat thr) draw = Ok (C, w0) -> later C w0 w -> reliable L f g rd w ->
  irm_init L rd' fr' s' ml_g ml_m nf' nr' (PStr "ATE") wa' (PBool nm) rule' (PFloat thr) draw' = Ok (C', w0') -> later C' w0' w' -> reliable L f g rd' w' ->
  rearranged pm om ro fr s w fr' s' w' -> moved_weights n pm ro wa wa' ->
  (forall c, In c (M_Data.r_d (M_Data.dd_roles s)) -> labels_seen L g (ly_classifier ml_g) w n (outcome fr s) (fun j => col fr c j = 0) /\ labels_seen L g (ly_classifier ml_g) w n (outcome fr s) (fun j => col fr c j = 1) /\ labels_seen L g true w n (col fr c) everyone) ->
  fit C nj store ext smod w = (w1, Ok tt) -> fit C' nj' store' ext' smod' w' = (w1', Ok tt) ->
  exists dcol mc F F' sm sm', M_Data.r_d (M_Data.dd_roles s) = [dcol] /\ runs_on mc "ml_m" ml_m true /\ fit_done w w1 F sm 1 /\ fit_done w' w1' F' sm' 1 /\ same_aggregates F F' ro (length sm) 1 /\
    forall r fs, nth_error sm r = Some fs -> (r < m_n_rep (w_obj w0))%nat -> (ro r < m_n_rep (w_obj w0'))%nat ->
      followed L f g n pm ext ext' dcol "ml_g0" r (ro r) -> followed L f g n pm ext ext' dcol "ml_g1" r (ro r) -> followed L f g n pm ext ext' dcol "ml_m" r (ro r) ->
      exists m0 m, used_prediction L f g mc w n ext r 0 dcol "ml_m" "ml_m" (covariates fr s dcol) (col fr dcol) whole_train fs m0 /\ clipped n true thr m0 m /\ (off_bounds n (ps_adjust n m (col fr dcol) nm) -> same_estimates_at F F' 0 r (ro r)).
Proof. exact irm_order. Qed.
Print Assumptions C102_irm_ate.

(** Interactive model, effect of the treated. *)
Theorem C102_irm_atte : forall (E P : Type) (L : learner E row P) f g rd rd' fr fr' s s' ml_g ml_m wa wa' nm nf nf' nr nr' draw draw' rule rule' thr C C' w0 w0' w w' nj nj' store store' ext ext' smod smod' w1 w1' pm om ro,
  let n := M_Data.frows fr in
  S_Data.reachable fr s -> unclustered s -> sound_randomness rd -> (0 < n)%nat -> S_Data.reachable fr' s' -> unclustered s' -> sound_randomness rd' ->
  irm_init L rd fr s ml_g ml_m nf nr (PStr "ATTE") wa (PBool nm) rule (PFloat thr) draw = Ok (C, w0) -> later C w0 w -> reliable L f g rd w ->
  irm_init L rd' fr' s' ml_g ml_m nf' nr' (PStr "ATTE") wa' (PBool nm) rule' (PFloat thr) draw' = Ok (C', w0') -> later C' w0' w' -> reliable L f g rd' w' ->
  rearranged pm om ro fr s w fr' s' w' -> moved_weights n pm ro wa wa' ->
  (forall c, In c (M_Data.r_d (M_Data.dd_roles s)) -> labels_seen L g (ly_classifier ml_g) w n (outcome fr s) (fun j => col fr c j = 0) /\ labels_seen L g (ly_classifier ml_g) w n (outcome fr s) (fun j => col fr c j = 1) /\ labels_seen L g true w n (col fr c) everyone) ->
  fit C nj store ext smod w = (w1, Ok tt) -> fit C' nj' store' ext' smod' w' = (w1', Ok tt) ->
  exists dcol mc F F' sm sm', M_Data.r_d (M_Data.dd_roles s) = [dcol] /\ runs_on mc "ml_m" ml_m true /\ fit_done w w1 F sm 1 /\ fit_done w' w1' F' sm' 1 /\ same_aggregates F F' ro (length sm) 1 /\
    forall r fs, nth_error sm r = Some fs -> 
      followed L f g n pm ext ext' dcol "ml_g0" r (ro r) -> followed L f g n pm ext ext' dcol "ml_m" r (ro r) ->
      exists m0 m, used_prediction L f g mc w n ext r 0 dcol "ml_m" "ml_m" (covariates fr s dcol) (col fr dcol) whole_train fs m0 /\ clipped n true thr m0 m /\ (sumf n (fun i => wg (weights_of wa r) i * col fr dcol i) <> 0 -> off_bounds n (ps_adjust n m (col fr dcol) nm) -> same_estimates_at F F' 0 r (ro r)).
Proof. exact atte_order. Qed.
Print Assumptions C102_irm_atte.

(** Average potential outcomes. *)
Theorem C102_apo : forall (E P : Type) (L : learner E row P) f g rd rd' fr fr' s s' ml_g ml_m level score score' wa wa' nm nf nf' nr nr' draw draw' rule rule' thr C C' w0 w0' w w' nj nj' store store' ext ext' smod smod' w1 w1' pm om ro,
  let n := M_Data.frows fr in
  S_Data.reachable fr s -> unclustered s -> sound_randomness rd -> (0 < n)%nat -> S_Data.reachable fr' s' -> unclustered s' -> sound_randomness rd' ->
  apo_init L rd fr s ml_g ml_m level nf nr score wa (PBool nm) rule (PFloat thr) draw = Ok (C, w0) -> later C w0 w -> reliable L f g rd w ->
  apo_init L rd' fr' s' ml_g ml_m level nf' nr' score' wa' (PBool nm) rule' (PFloat thr) draw' = Ok (C', w0') -> later C' w0' w' -> reliable L f g rd' w' ->
  rearranged pm om ro fr s w fr' s' w' -> moved_weights n pm ro wa wa' ->
  (forall c, In c (M_Data.r_d (M_Data.dd_roles s)) -> labels_seen L g (ly_classifier ml_g) w n (outcome fr s) (fun j => at_level level (col fr c) j = 0) /\ labels_seen L g (ly_classifier ml_g) w n (outcome fr s) (fun j => at_level level (col fr c) j = 1) /\ labels_seen L g true w n (at_level level (col fr c)) everyone) ->
  fit C nj store ext smod w = (w1, Ok tt) -> fit C' nj' store' ext' smod' w' = (w1', Ok tt) ->
  exists dcol mc F F' sm sm', M_Data.r_d (M_Data.dd_roles s) = [dcol] /\ runs_on mc "ml_m" ml_m true /\ fit_done w w1 F sm 1 /\ fit_done w' w1' F' sm' 1 /\ same_aggregates F F' ro (length sm) 1 /\
    forall r fs, nth_error sm r = Some fs -> (r < m_n_rep (w_obj w0))%nat -> (ro r < m_n_rep (w_obj w0'))%nat ->
      followed L f g n pm ext ext' dcol "ml_g_d_lvl1" r (ro r) -> followed L f g n pm ext ext' dcol "ml_m" r (ro r) ->
      exists m0 m, used_prediction L f g mc w n ext r 0 dcol "ml_m" "ml_m" (covariates fr s dcol) (at_level level (col fr dcol)) whole_train fs m0 /\ clipped n true thr m0 m /\
        ((forall i, (i < n)%nat -> ps_adjust n m (at_level level (col fr dcol)) nm i <> 0) -> same_estimates_at F F' 0 r (ro r)).
Proof. exact apo_order. Qed.
Print Assumptions C102_apo.

(** Difference in differences. *)
Theorem C102_did : forall (E P : Type) (L : learner E row P) f g rd rd' fr fr' s s' ml_g ml_m nm nf nf' nr nr' draw draw' rule rule' thr C C' w0 w0' w w' nj nj' store store' ext ext' smod smod' w1 w1' pm om ro,
  let n := M_Data.frows fr in
  S_Data.reachable fr s -> unclustered s -> sound_randomness rd -> (0 < n)%nat -> S_Data.reachable fr' s' -> unclustered s' -> sound_randomness rd' ->
  did_init L rd fr s ml_g (Some ml_m) nf nr (PStr "observational") (PBool nm) rule (PFloat thr) draw = Ok (C, w0) -> later C w0 w -> reliable L f g rd w ->
  did_init L rd' fr' s' ml_g (Some ml_m) nf' nr' (PStr "observational") (PBool nm) rule' (PFloat thr) draw' = Ok (C', w0') -> later C' w0' w' -> reliable L f g rd' w' ->
  rearranged pm om ro fr s w fr' s' w' ->
  (forall c, In c (M_Data.r_d (M_Data.dd_roles s)) -> labels_seen L g (ly_classifier ml_g) w n (outcome fr s) (fun j => col fr c j = 0) /\ labels_seen L g (ly_classifier ml_g) w n (outcome fr s) (fun j => col fr c j = 1) /\ labels_seen L g true w n (col fr c) everyone) ->
  fit C nj store ext smod w = (w1, Ok tt) -> fit C' nj' store' ext' smod' w' = (w1', Ok tt) ->
  exists dcol mc F F' sm sm', M_Data.r_d (M_Data.dd_roles s) = [dcol] /\ runs_on mc "ml_m" ml_m true /\ fit_done w w1 F sm 1 /\ fit_done w' w1' F' sm' 1 /\ same_aggregates F F' ro (length sm) 1 /\
    forall r fs, nth_error sm r = Some fs -> followed L f g n pm ext ext' dcol "ml_g0" r (ro r) -> followed L f g n pm ext ext' dcol "ml_m" r (ro r) ->
      exists m0 m p, used_prediction L f g mc w n ext r 0 dcol "ml_m" "ml_m" (covariates fr s dcol) (col fr dcol) whole_train fs m0 /\ clipped n true thr m0 m /\ share_of fs (col fr dcol) p /\
        (share_ok n nm (col fr dcol) p -> share_ok n nm (fun i => (1 - col fr dcol i) * (m i / (1 - m i))) p -> sumf n (share_weight n nm (col fr dcol) p) <> 0 -> same_estimates_at F F' 0 r (ro r)).
Proof. exact did_order. Qed.
Print Assumptions C102_did.

(** Interactive IV model. *)
Theorem C102_iivm : forall (E P : Type) (L : learner E row P) f g rd rd' fr fr' s s' ml_g ml_m ml_r score score' sg nm nf nf' nr nr' draw draw' rule rule' thr C C' w0 w0' w w' nj nj' store store' ext ext' smod smod' w1 w1' pm om ro,
  let n := M_Data.frows fr in
  S_Data.reachable fr s -> unclustered s -> sound_randomness rd -> (0 < n)%nat -> S_Data.reachable fr' s' -> unclustered s' -> sound_randomness rd' ->
  iivm_init L rd fr s ml_g ml_m ml_r nf nr score sg (PBool nm) rule (PFloat thr) draw = Ok (C, w0) -> later C w0 w -> reliable L f g rd w ->
  iivm_init L rd' fr' s' ml_g ml_m ml_r nf' nr' score' sg (PBool nm) rule' (PFloat thr) draw' = Ok (C', w0') -> later C' w0' w' -> reliable L f g rd' w' ->
  rearranged pm om ro fr s w fr' s' w' ->
  M_Data.r_z (M_Data.dd_roles s') = M_Data.r_z (M_Data.dd_roles s) -> (forall z, M_Data.r_z (M_Data.dd_roles s) = Some [z] -> moved n pm (col fr z) (col fr' z)) ->
  (forall c z v, M_Data.r_d (M_Data.dd_roles s) = [c] -> M_Data.r_z (M_Data.dd_roles s) = Some [z] -> v = 0 \/ v = 1 ->
    labels_seen L g (ly_classifier ml_g) w n (outcome fr s) (fun j => col fr z j = v) /\ labels_seen L g true w n (col fr z) everyone) ->
  (forall c z v at1 nt1, M_Data.r_d (M_Data.dd_roles s) = [c] -> M_Data.r_z (M_Data.dd_roles s) = Some [z] -> subgroups_are sg at1 nt1 -> v = 0 /\ at1 = true \/ v = 1 /\ nt1 = true ->
    labels_seen L g true w n (col fr c) (fun j => col fr z j = v)) ->
  fit C nj store ext smod w = (w1, Ok tt) -> fit C' nj' store' ext' smod' w' = (w1', Ok tt) ->
  exists dcol zcol mc at1 nt1 F F' sm sm', M_Data.r_d (M_Data.dd_roles s) = [dcol] /\ M_Data.r_z (M_Data.dd_roles s) = Some [zcol] /\ runs_on mc "ml_m" ml_m true /\ runs_on mc "ml_r" ml_r true /\ subgroups_are sg at1 nt1 /\
    fit_done w w1 F sm 1 /\ fit_done w' w1' F' sm' 1 /\ same_aggregates F F' ro (length sm) 1 /\
    forall r fs, nth_error sm r = Some fs -> let x := covariates fr s dcol in let d := col fr dcol in let z := col fr zcol in
      (forall k, k = "ml_g0" \/ k = "ml_g1" -> followed L f g n pm ext ext' dcol k r (ro r)) -> (forall k, k = "ml_m" \/ k = "ml_r0" \/ k = "ml_r1" -> followed L f g n pm ext ext' dcol k r (ro r)) ->
      exists m0 m r0 r1, used_prediction L f g mc w n ext r 0 dcol "ml_m" "ml_m" x z whole_train fs m0 /\ clipped n true thr m0 m /\
        (if at1 then used_prediction L f g mc w n ext r 0 dcol "ml_r0" "ml_r" x d (group_rows n (fun j => z j = 0)) fs r0 else forall i, (i < n)%nat -> r0 i = 0) /\
        (if nt1 then used_prediction L f g mc w n ext r 0 dcol "ml_r1" "ml_r" x d (group_rows n (fun j => z j = 1)) fs r1 else forall i, (i < n)%nat -> r1 i = 1) /\
        (off_bounds n (iivm_adjust n nm d m) -> sumf n (dr_signal d z r0 r1 (iivm_adjust n nm d m)) <> 0 -> same_estimates_at F F' 0 r (ro r)).
Proof. exact iivm_order. Qed.
Print Assumptions C102_iivm.

(** Two fitted objects; the rows are listed in reverse, which also exchanges the two folds. *)
Example C102_case_reversed : order_case.
Proof. exact order_holds. Qed.

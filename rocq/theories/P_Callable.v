(** C95: scores that are functions of the user. *)
From Verif Require Import L_CallableEnd L_CallableWitness.
Local Open Scope R_scope.
Local Open Scope string_scope.

(** PLR with a function as score: accepted calls. *)
Theorem C95_plr_accepts : forall (E P : Type) (L : learner E row P) rd f s, S_Data.constructed f s ->
  forall user (ml_l : pylearner E) (ml_m : pylearner E) (ml_g : option (pylearner E)) nf nr draw,
  succeeds (plr_call_init L rd f s user ml_l ml_m ml_g nf nr draw) <->
  no_instruments s /\ data_split f s nf nr draw None /\ predicts_values ml_l /\ predicts_either ml_m /\ (forall l, ml_g = Some l -> predicts_values l) /\
  (ly_classifier ml_m = true -> forall c, In c (M_Data.r_d (M_Data.dd_roles s)) -> S_Data.zero_one_column f c).
Proof. exact @plr_call_accepts. Qed.
Print Assumptions C95_plr_accepts.

(** PLIV. *)
Theorem C95_pliv_accepts : forall (E P : Type) (L : learner E row P) rd f s, S_Data.constructed f s ->
  forall user proj (ml_l : pylearner E) (ml_m : pylearner E) (ml_r : pylearner E) (ml_g : option (pylearner E)) nf nr draw,
  succeeds (pliv_call_init L rd f s user proj ml_l ml_m ml_r ml_g nf nr draw) <->
  data_split f s nf nr draw None /\ predicts_values ml_l /\ predicts_values ml_m /\ predicts_values ml_r /\ (forall l, ml_g = Some l -> predicts_values l) /\
  exists z more, M_Data.r_z (M_Data.dd_roles s) = Some (z :: more).
Proof. exact @pliv_call_accepts. Qed.
Print Assumptions C95_pliv_accepts.

(** PLIV, partialling out the instruments only. *)
Theorem C95_pliv_partialled_instruments_accepts : forall (E P : Type) (L : learner E row P) rd f s, S_Data.constructed f s ->
  forall user proj (dummy : pylearner E) (ml_r : pylearner E) nf nr draw,
  predicts_values dummy ->
  (succeeds (pliv_call_partial_z L rd f s user proj dummy ml_r nf nr draw) <->
   data_split f s nf nr draw None /\ predicts_values ml_r /\ exists z more, M_Data.r_z (M_Data.dd_roles s) = Some (z :: more)).
Proof. exact @pliv_call_z_accepts. Qed.
Print Assumptions C95_pliv_partialled_instruments_accepts.

(** PLIV, partialling out covariates and instruments. *)
Theorem C95_pliv_partialled_both_accepts : forall (E P : Type) (L : learner E row P) rd f s, S_Data.constructed f s ->
  forall user proj (ml_l : pylearner E) (ml_m : pylearner E) (ml_r : pylearner E) nf nr draw,
  succeeds (pliv_call_partial_xz L rd f s user proj ml_l ml_m ml_r nf nr draw) <->
  data_split f s nf nr draw None /\ predicts_values ml_l /\ predicts_values ml_m /\ predicts_values ml_r /\ exists z more, M_Data.r_z (M_Data.dd_roles s) = Some (z :: more).
Proof. exact @pliv_call_xz_accepts. Qed.
Print Assumptions C95_pliv_partialled_both_accepts.

(** IRM: weights are None or an array. *)
Theorem C95_interactive_accepts : forall (E P : Type) (L : learner E row P) rd f s, S_Data.constructed f s ->
  forall user (ml_g : pylearner E) (ml_m : pylearner E) nf nr wa norm rule thr draw,
  succeeds (irm_call_init L rd f s user ml_g ml_m nf nr wa norm rule thr draw) <->
  no_instruments s /\ (exists c, binary_treatment f s c /\ data_split f s nf nr draw (Some (col f c))) /\ weights_ok wa ScCallable (M_Data.frows f) (Z.to_nat (int_val nr)) /\
  outcome_learner f s ml_g /\ predicts_probabilities ml_m /\ boolean norm /\ trimming_ok rule thr.
Proof. exact @irm_call_accepts. Qed.
Print Assumptions C95_interactive_accepts.

(** IIVM. *)
Theorem C95_local_effect_accepts : forall (E P : Type) (L : learner E row P) rd f s, S_Data.constructed f s ->
  forall user (ml_g : pylearner E) (ml_m : pylearner E) (ml_r : pylearner E) nf nr sg norm rule thr draw,
  succeeds (iivm_call_init L rd f s user ml_g ml_m ml_r nf nr sg norm rule thr draw) <->
  (exists c z, binary_treatment f s c /\ M_Data.r_z (M_Data.dd_roles s) = Some [z] /\ S_Data.zero_one_column f z /\ data_split f s nf nr draw (Some (fun i => col f c i + 2 * col f z i))) /\
  outcome_learner f s ml_g /\ predicts_probabilities ml_m /\ predicts_probabilities ml_r /\ boolean norm /\ trimming_ok rule thr /\ subgroups_ok sg.
Proof. exact @iivm_call_accepts. Qed.
Print Assumptions C95_local_effect_accepts.

(** Fits: the function receives outcome, treatment, the predictions in use and the folds, and estimate and standard error solve the score it returns.  The function receives predictions of ml_g exactly if the user gave that learner. *)
Theorem C95_plr : forall (E P : Type) (L : learner E row P) f g rd fr s user ml_l ml_m ml_g nf nr draw C w0 w nj store ext smod w',
  S_Data.reachable fr s -> unclustered s -> sound_randomness rd -> (0 < M_Data.frows fr)%nat ->
  plr_call_init L rd fr s user ml_l ml_m ml_g nf nr draw = Ok (C, w0) -> later C w0 w ->
  exists mc, mc_order mc = rd_order rd /\ runs_on mc "ml_l" ml_l false /\ runs_on mc "ml_m" ml_m (ly_classifier ml_m) /\ (forall l, ml_g = Some l -> runs_on mc "ml_g" l false) /\
  let n := M_Data.frows fr in let dcols := M_Data.r_d (M_Data.dd_roles s) in let y := outcome fr s in
  (sound_learning L f g mc w ->
  labels_everywhere L g mc w n "ml_l" y everyone -> (forall c, In c dcols -> labels_everywhere L g mc w n "ml_m" (col fr c) everyone) ->
  fit C nj store ext smod w = (w', Ok tt) ->
  exists F sm, fit_done w w' F sm (length dcols) /\
    forall r t fs c, nth_error sm r = Some fs -> nth_error dcols t = Some c -> let x := covariates fr s c in let d := col fr c in exists l m gg e,
      used_prediction L f g mc w n ext r t c "ml_l" "ml_l" x y whole_train fs l /\ used_prediction L f g mc w n ext r t c "ml_m" "ml_m" x d whole_train fs m /\
      match ml_g, gg with
      | Some _, Some v => exists th, used_prediction L f g mc w n ext r t c "ml_g" "ml_g" x (fun i => y i - th * d i) whole_train fs v /\
          (sumf n (fun i => (d i - m i) ^ 2) <> 0 -> th = sumf n (fun i => (d i - m i) * (y i - l i)) / sumf n (fun i => (d i - m i) ^ 2))
      | None, None => True
      | _, _ => False
      end /\ user y d l m gg fs = Ok e /\ solves F n t r e).
Proof. exact @plr_call_end. Qed.
Print Assumptions C95_plr.

(** PLIV with one instrument. *)
Theorem C95_pliv : forall (E P : Type) (L : learner E row P) f g rd fr s zc user proj ml_l ml_m ml_r ml_g nf nr draw C w0 w nj store ext smod w',
  S_Data.reachable fr s -> unclustered s -> sound_randomness rd -> (0 < M_Data.frows fr)%nat -> M_Data.r_z (M_Data.dd_roles s) = Some [zc] ->
  pliv_call_init L rd fr s user proj ml_l ml_m ml_r ml_g nf nr draw = Ok (C, w0) -> later C w0 w ->
  exists mc, mc_order mc = rd_order rd /\ runs_on mc "ml_l" ml_l false /\ runs_on mc "ml_m" ml_m false /\ runs_on mc "ml_r" ml_r false /\ (forall l, ml_g = Some l -> runs_on mc "ml_g" l false) /\
  let n := M_Data.frows fr in let dcols := M_Data.r_d (M_Data.dd_roles s) in let y := outcome fr s in let z := col fr zc in
  (sound_learning L f g mc w ->
  labels_everywhere L g mc w n "ml_l" y everyone -> labels_everywhere L g mc w n "ml_m" z everyone -> (forall c, In c dcols -> labels_everywhere L g mc w n "ml_r" (col fr c) everyone) ->
  fit C nj store ext smod w = (w', Ok tt) ->
  exists F sm, fit_done w w' F sm (length dcols) /\
    forall r t fs c, nth_error sm r = Some fs -> nth_error dcols t = Some c -> let x := covariates fr s c in let d := col fr c in exists l m q gg e,
      used_prediction L f g mc w n ext r t c "ml_l" "ml_l" x y whole_train fs l /\ used_prediction L f g mc w n ext r t c "ml_m" "ml_m" x z whole_train fs m /\
      used_prediction L f g mc w n ext r t c "ml_r" "ml_r" x d whole_train fs q /\
      match ml_g, gg with
      | Some _, Some v => exists th, used_prediction L f g mc w n ext r t c "ml_g" "ml_g" x (fun i => y i - th * d i) whole_train fs v /\
          (sumf n (fun i => (z i - m i) * (d i - q i)) <> 0 -> th = sumf n (fun i => (z i - m i) * (y i - l i)) / sumf n (fun i => (z i - m i) * (d i - q i)))
      | None, None => True
      | _, _ => False
      end /\ user y z d l m q gg fs = Ok e /\ solves F n t r e).
Proof. exact @pliv_call_end. Qed.
Print Assumptions C95_pliv.

(** IRM: the function receives the trimmed and, on request, normalised propensity. *)
Theorem C95_interactive : forall (E P : Type) (L : learner E row P) f g rd fr s user ml_g ml_m nf nr wa nm rule thr draw C w0 w nj store ext smod w',
  S_Data.reachable fr s -> unclustered s -> sound_randomness rd -> (0 < M_Data.frows fr)%nat ->
  irm_call_init L rd fr s user ml_g ml_m nf nr wa (PBool nm) rule (PFloat thr) draw = Ok (C, w0) -> later C w0 w ->
  exists dcol mc, binary_treatment fr s dcol /\ mc_order mc = rd_order rd /\ runs_on mc "ml_g" ml_g (ly_classifier ml_g) /\ runs_on mc "ml_m" ml_m true /\
  let n := M_Data.frows fr in let x := covariates fr s dcol in let y := outcome fr s in let d := col fr dcol in
  (sound_learning L f g mc w ->
  labels_everywhere L g mc w n "ml_g" y (fun j => d j = 0) -> labels_everywhere L g mc w n "ml_g" y (fun j => d j = 1) -> labels_everywhere L g mc w n "ml_m" d everyone ->
  fit C nj store ext smod w = (w', Ok tt) ->
  exists F sm, fit_done w w' F sm 1 /\ forall r fs, nth_error sm r = Some fs -> exists g0 g1 m0 m e,
      used_prediction L f g mc w n ext r 0 dcol "ml_g0" "ml_g" x y (group_rows n (fun j => d j = 0)) fs g0 /\
      used_prediction L f g mc w n ext r 0 dcol "ml_g1" "ml_g" x y (group_rows n (fun j => d j = 1)) fs g1 /\
      used_prediction L f g mc w n ext r 0 dcol "ml_m" "ml_m" x d whole_train fs m0 /\ clipped n true thr m0 m /\ user y d g0 g1 (ps_adjust n m d nm) fs = Ok e /\ solves F n 0 r e).
Proof. exact @irm_call_end. Qed.
Print Assumptions C95_interactive.

(** IIVM. *)
Theorem C95_local_effect : forall (E P : Type) (L : learner E row P) f g rd fr s user ml_g ml_m ml_r nf nr sg nm rule thr draw C w0 w nj store ext smod w',
  S_Data.reachable fr s -> unclustered s -> sound_randomness rd -> (0 < M_Data.frows fr)%nat ->
  iivm_call_init L rd fr s user ml_g ml_m ml_r nf nr sg (PBool nm) rule (PFloat thr) draw = Ok (C, w0) -> later C w0 w ->
  exists dcol zc mc at1 nt1, binary_treatment fr s dcol /\ M_Data.r_z (M_Data.dd_roles s) = Some [zc] /\ S_Data.zero_one_column fr zc /\ mc_order mc = rd_order rd /\ runs_on mc "ml_g" ml_g (ly_classifier ml_g) /\ runs_on mc "ml_m" ml_m true /\ runs_on mc "ml_r" ml_r true /\ subgroups_are sg at1 nt1 /\
  let n := M_Data.frows fr in let x := covariates fr s dcol in let y := outcome fr s in let d := col fr dcol in let z := col fr zc in
  (sound_learning L f g mc w ->
  (forall v, v = 0 \/ v = 1 -> labels_everywhere L g mc w n "ml_g" y (fun j => z j = v)) -> labels_everywhere L g mc w n "ml_m" z everyone -> (forall v, v = 0 /\ at1 = true \/ v = 1 /\ nt1 = true -> labels_everywhere L g mc w n "ml_r" d (fun j => z j = v)) ->
  fit C nj store ext smod w = (w', Ok tt) ->
  exists F sm, fit_done w w' F sm 1 /\ forall r fs, nth_error sm r = Some fs -> exists g0 g1 m0 m r0 r1 e,
      used_prediction L f g mc w n ext r 0 dcol "ml_g0" "ml_g" x y (group_rows n (fun j => z j = 0)) fs g0 /\
      used_prediction L f g mc w n ext r 0 dcol "ml_g1" "ml_g" x y (group_rows n (fun j => z j = 1)) fs g1 /\
      used_prediction L f g mc w n ext r 0 dcol "ml_m" "ml_m" x z whole_train fs m0 /\ clipped n true thr m0 m /\
      (if at1 then used_prediction L f g mc w n ext r 0 dcol "ml_r0" "ml_r" x d (group_rows n (fun j => z j = 0)) fs r0 else forall i, (i < n)%nat -> r0 i = 0) /\
      (if nt1 then used_prediction L f g mc w n ext r 0 dcol "ml_r1" "ml_r" x d (group_rows n (fun j => z j = 1)) fs r1 else forall i, (i < n)%nat -> r1 i = 1) /\
      user y z d g0 g1 (iivm_adjust n nm d m) r0 r1 fs = Ok e /\ solves F n 0 r e).
Proof. exact @iivm_call_end. Qed.
Print Assumptions C95_local_effect.

(** A function that computes the partialling-out score gives the partialling-out estimate. *)
Theorem C95_own_partialling_out : forall (E P : Type) (L : learner E row P) f g rd fr s ml_l ml_m ml_g nf nr draw C w0 w nj store ext smod w',
  S_Data.reachable fr s -> unclustered s -> sound_randomness rd -> (0 < M_Data.frows fr)%nat ->
  plr_call_init L rd fr s my_partialling_out ml_l ml_m ml_g nf nr draw = Ok (C, w0) -> later C w0 w ->
  exists mc, mc_order mc = rd_order rd /\ runs_on mc "ml_l" ml_l false /\ runs_on mc "ml_m" ml_m (ly_classifier ml_m) /\
  let n := M_Data.frows fr in let dcols := M_Data.r_d (M_Data.dd_roles s) in let y := outcome fr s in
  (sound_learning L f g mc w ->
  labels_everywhere L g mc w n "ml_l" y everyone -> (forall c, In c dcols -> labels_everywhere L g mc w n "ml_m" (col fr c) everyone) ->
  fit C nj store ext smod w = (w', Ok tt) ->
  exists F sm, fit_done w w' F sm (length dcols) /\
    forall r t fs c, nth_error sm r = Some fs -> nth_error dcols t = Some c -> let x := covariates fr s c in let d := col fr c in exists l m,
      used_prediction L f g mc w n ext r t c "ml_l" "ml_l" x y whole_train fs l /\ used_prediction L f g mc w n ext r t c "ml_m" "ml_m" x d whole_train fs m /\
      (sumf n (fun i => (d i - m i) ^ 2) <> 0 ->
       at_ (fw_all_thetas F) [t; r] = sumf n (fun i => (d i - m i) * (y i - l i)) / sumf n (fun i => (d i - m i) ^ 2))).
Proof. exact @plr_call_partialling. Qed.
Print Assumptions C95_own_partialling_out.

(** A function that always raises makes every fit raise. *)
Theorem C95_function_raises : forall (E P : Type) (L : learner E row P) rd fr s (user : plr_user) ml_l ml_m ml_g nf nr draw C w0 w nj store ext smod w',
  S_Data.reachable fr s -> sound_randomness rd -> (forall y d l m gg fs e, user y d l m gg fs <> Ok e) ->
  plr_call_init L rd fr s user ml_l ml_m ml_g nf nr draw = Ok (C, w0) -> later C w0 w -> fit C nj store ext smod w <> (w', Ok tt).
Proof. exact @plr_call_raises. Qed.
Print Assumptions C95_function_raises.

(** With several instruments the constructor accepts the function (C95_pliv_accepts), but no fit ever succeeds … *)
Theorem C95_several_instruments_refuted : forall (E P : Type) (L : learner E row P) rd fr s zcs user proj ml_l ml_m ml_r ml_g nf nr draw C w0 w nj store ext smod w',
  S_Data.reachable fr s -> sound_randomness rd -> M_Data.r_z (M_Data.dd_roles s) = Some zcs -> (2 <= length zcs)%nat ->
  pliv_call_init L rd fr s user proj ml_l ml_m ml_r ml_g nf nr draw = Ok (C, w0) -> later C w0 w -> fit C nj store ext smod w <> (w', Ok tt).
Proof. exact @pliv_call_several_never. Qed.
Print Assumptions C95_several_instruments_refuted.

(** … and neither when the instruments are partialled out … *)
Theorem C95_partialled_instruments_refuted : forall (E P : Type) (L : learner E row P) rd fr s user proj dummy ml_r nf nr draw C w0 w nj store ext smod w',
  S_Data.reachable fr s -> sound_randomness rd -> pliv_call_partial_z L rd fr s user proj dummy ml_r nf nr draw = Ok (C, w0) -> later C w0 w -> fit C nj store ext smod w <> (w', Ok tt).
Proof. exact @pliv_call_z_never. Qed.
Print Assumptions C95_partialled_instruments_refuted.

(** … or covariates and instruments are. *)
Theorem C95_partialled_both_refuted : forall (E P : Type) (L : learner E row P) rd fr s user proj ml_l ml_m ml_r nf nr draw C w0 w nj store ext smod w',
  S_Data.reachable fr s -> sound_randomness rd -> pliv_call_partial_xz L rd fr s user proj ml_l ml_m ml_r nf nr draw = Ok (C, w0) -> later C w0 w -> fit C nj store ext smod w <> (w', Ok tt).
Proof. exact @pliv_call_xz_never. Qed.
Print Assumptions C95_partialled_both_refuted.

(** Weights of an IRM object with a function as score are checked and then have no effect: the objects are equal. *)
Theorem C95_weights_used_refuted : forall (E P : Type) (L : learner E row P) rd fr s user ml_g ml_m nf nr wa wb norm rule thr draw o o',
  irm_call_init L rd fr s user ml_g ml_m nf nr wa norm rule thr draw = Ok o -> irm_call_init L rd fr s user ml_g ml_m nf nr wb norm rule thr draw = Ok o' -> o = o'.
Proof. exact @irm_call_weights. Qed.
Print Assumptions C95_weights_used_refuted.

(** Objects that fit. *)
Example C95_case_plr : plr_call_case None /\ plr_call_case (Some reg).
Proof. exact plr_call_cases. Qed.
Print Assumptions C95_case_plr.

Example C95_case_pliv : pliv_call_case rz1 None /\ pliv_call_case rz1 (Some reg).
Proof. exact pliv_call_cases. Qed.
Print Assumptions C95_case_pliv.

Example C95_case_interactive : irm_call_case.
Proof. exact irm_call_cases. Qed.
Print Assumptions C95_case_interactive.

Example C95_case_local_effect : iivm_call_case.
Proof. exact iivm_call_cases. Qed.
Print Assumptions C95_case_local_effect.

(** Accepted objects that never fit; weights without effect. *)
Example C95_case_several : exists s C w0, S_Data.constructed i_frame s /\ M_Data.r_z (M_Data.dd_roles s) = Some ["z"; "z2"] /\
  pliv_call_init q_learner i_rd i_frame s my_iv_score (fun _ _ => 0) reg reg reg None (PInt 2) (PInt 1) (PBool true) = Ok (C, w0) /\
  forall w nj store ext smod w', later C w0 w -> fit C nj store ext smod w <> (w', Ok tt).
Proof. exact several_accepted. Qed.
Print Assumptions C95_case_several.

Example C95_case_partialled : exists s, S_Data.constructed i_frame s /\
  (exists C w0, pliv_call_partial_z q_learner i_rd i_frame s my_iv_score (fun _ _ => 0) reg reg (PInt 2) (PInt 1) (PBool true) = Ok (C, w0) /\ forall w nj store ext smod w', later C w0 w -> fit C nj store ext smod w <> (w', Ok tt)) /\
  (exists C w0, pliv_call_partial_xz q_learner i_rd i_frame s my_iv_score (fun _ _ => 0) reg reg reg (PInt 2) (PInt 1) (PBool true) = Ok (C, w0) /\ forall w nj store ext smod w', later C w0 w -> fit C nj store ext smod w <> (w', Ok tt)).
Proof. exact partial_accepted. Qed.
Print Assumptions C95_case_partialled.

Example C95_case_weights : exists s o a, S_Data.constructed i_frame s /\ admissible a [8%nat] /\ at_ a [0%nat] <> at_ a [1%nat] /\
  irm_call_init q_learner i_rd i_frame s my_aipw reg cls (PInt 2) (PInt 1) WNone (PBool false) (PStr "truncate") (PFloat (1 / 100)) (PBool true) = Ok o /\
  irm_call_init q_learner i_rd i_frame s my_aipw reg cls (PInt 2) (PInt 1) (WArr a) (PBool false) (PStr "truncate") (PFloat (1 / 100)) (PBool true) = Ok o.
Proof. exact weights_ignored. Qed.
Print Assumptions C95_case_weights.


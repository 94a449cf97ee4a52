(** Properties of objects as constructed from data: C82, and C79 for the
    remaining model classes. *)
From Verif Require Import L_InitFit L_InitWitness L_FitSuccess2 L_NestedSuccess L_ClusterSuccess.
From Coq Require Import Lia Lra.
Local Open Scope R_scope.
Local Open Scope string_scope.

(** ** C82: from the data object to the estimate *)
Theorem C82_plr : forall (E P : Type) (L : learner E row P) f g rd fr s ml_l ml_m ml_g nf nr draw C w0 w nj store ext smod w',
  S_Data.reachable fr s -> unclustered s -> sound_randomness rd -> (0 < M_Data.frows fr)%nat ->
  plr_init L rd fr s ml_l ml_m ml_g nf nr (PStr "partialling out") draw = Ok (C, w0) -> later C w0 w ->
  exists mc, mc_order mc = rd_order rd /\ runs_on mc "ml_l" ml_l false /\ runs_on mc "ml_m" ml_m (ly_classifier ml_m) /\
  let n := M_Data.frows fr in let dcols := M_Data.r_d (M_Data.dd_roles s) in let y := outcome fr s in
  (sound_learning L f g mc w ->
  labels_everywhere L g mc w n "ml_l" y everyone -> (forall c, In c dcols -> labels_everywhere L g mc w n "ml_m" (col fr c) everyone) ->
  fit C nj store ext smod w = (w', Ok tt) ->
  exists F sm, current_fw w' F /\ fw_wf F /\ fw_aggregated F /\ m_smpls (w_obj w) = Some sm /\ fw_n_rep F = length sm /\ fw_n_thetas F = length dcols /\
    forall r t fs c, nth_error sm r = Some fs -> nth_error dcols t = Some c -> let x := covariates fr s c in let d := col fr c in exists l m,
      used_prediction L f g mc w n ext r t c "ml_l" "ml_l" x y whole_train fs l /\
      used_prediction L f g mc w n ext r t c "ml_m" "ml_m" x d whole_train fs m /\
      (sumf n (fun i => (d i - m i) ^ 2) <> 0 ->
       let theta := sumf n (fun i => (d i - m i) * (y i - l i)) / sumf n (fun i => (d i - m i) ^ 2) in
       at_ (fw_all_thetas F) [t; r] = theta /\
       at_ (fw_all_ses F) [t; r] = sqrt (sumf n (fun i => ((d i - m i) * (y i - l i - theta * (d i - m i))) ^ 2)) / sumf n (fun i => (d i - m i) ^ 2))).
Proof. exact @plr_end. Qed.
Print Assumptions C82_plr.

Theorem C82_plr_iv : forall (E P : Type) (L : learner E row P) f g rd fr s ml_l ml_m ml_g nf nr draw C w0 w nj store ext smod w',
  S_Data.reachable fr s -> unclustered s -> sound_randomness rd -> (0 < M_Data.frows fr)%nat ->
  plr_init L rd fr s ml_l ml_m ml_g nf nr (PStr "IV-type") draw = Ok (C, w0) -> later C w0 w ->
  exists mc, mc_order mc = rd_order rd /\ runs_on mc "ml_l" ml_l false /\ runs_on mc "ml_m" ml_m (ly_classifier ml_m) /\ mc_learner mc "ml_g" = match ml_g with Some l => ly_obj l | None => ln_clone L (ly_obj ml_l) end /\
  let n := M_Data.frows fr in let dcols := M_Data.r_d (M_Data.dd_roles s) in let y := outcome fr s in
  (sound_learning L f g mc w ->
  labels_everywhere L g mc w n "ml_l" y everyone -> (forall c, In c dcols -> labels_everywhere L g mc w n "ml_m" (col fr c) everyone) ->
  fit C nj store ext smod w = (w', Ok tt) ->
  exists F sm, fit_done w w' F sm (length dcols) /\
    forall r t fs c, nth_error sm r = Some fs -> nth_error dcols t = Some c -> let x := covariates fr s c in let d := col fr c in exists m gg,
      used_prediction L f g mc w n ext r t c "ml_m" "ml_m" x d whole_train fs m /\
      (exists v, used_prediction L f g mc w n ext r t c "ml_g" "ml_g" x v whole_train fs gg /\
         ((forall e, ~ supplied ext c "ml_g" r e) -> exists l th, used_prediction L f g mc w n ext r t c "ml_l" "ml_l" x y whole_train fs l /\ v = (fun i => y i - th * d i) /\
           (sumf n (fun i => (d i - m i) ^ 2) <> 0 -> th = sumf n (fun i => (d i - m i) * (y i - l i)) / sumf n (fun i => (d i - m i) ^ 2)))) /\
      (sumf n (fun i => (d i - m i) * d i) <> 0 ->
       let theta := sumf n (fun i => (d i - m i) * (y i - gg i)) / sumf n (fun i => (d i - m i) * d i) in
       estimate_is F n t r theta (fun i => (d i - m i) * (y i - gg i - theta * d i)) (sumf n (fun i => (d i - m i) * d i)))).
Proof. exact @plr_iv_end. Qed.
Print Assumptions C82_plr_iv.

Theorem C82_pliv : forall (E P : Type) (L : learner E row P) f g rd fr s zc proj ml_l ml_m ml_r ml_g nf nr draw C w0 w nj store ext smod w',
  S_Data.reachable fr s -> unclustered s -> sound_randomness rd -> (0 < M_Data.frows fr)%nat ->
  M_Data.r_z (M_Data.dd_roles s) = Some [zc] ->
  pliv_init L rd fr s proj ml_l ml_m ml_r ml_g nf nr (PStr "partialling out") draw = Ok (C, w0) -> later C w0 w ->
  exists mc, mc_order mc = rd_order rd /\ runs_on mc "ml_l" ml_l false /\ runs_on mc "ml_m" ml_m false /\ runs_on mc "ml_r" ml_r false /\
  let n := M_Data.frows fr in let dcols := M_Data.r_d (M_Data.dd_roles s) in let y := outcome fr s in let z := col fr zc in
  (sound_learning L f g mc w ->
  labels_everywhere L g mc w n "ml_l" y everyone -> labels_everywhere L g mc w n "ml_m" z everyone -> (forall c, In c dcols -> labels_everywhere L g mc w n "ml_r" (col fr c) everyone) ->
  fit C nj store ext smod w = (w', Ok tt) ->
  exists F sm, fit_done w w' F sm (length dcols) /\
    forall r t fs c, nth_error sm r = Some fs -> nth_error dcols t = Some c -> let x := covariates fr s c in let d := col fr c in exists l m q,
      used_prediction L f g mc w n ext r t c "ml_l" "ml_l" x y whole_train fs l /\ used_prediction L f g mc w n ext r t c "ml_m" "ml_m" x z whole_train fs m /\
      used_prediction L f g mc w n ext r t c "ml_r" "ml_r" x d whole_train fs q /\
      (sumf n (fun i => (z i - m i) * (d i - q i)) <> 0 ->
       let theta := sumf n (fun i => (z i - m i) * (y i - l i)) / sumf n (fun i => (z i - m i) * (d i - q i)) in
       estimate_is F n t r theta (fun i => (z i - m i) * (y i - l i - theta * (d i - q i))) (sumf n (fun i => (z i - m i) * (d i - q i))))).
Proof. exact @pliv_end. Qed.
Print Assumptions C82_pliv.

Theorem C82_pliv_iv : forall (E P : Type) (L : learner E row P) f g rd fr s zc proj ml_l ml_m ml_r ml_g nf nr draw C w0 w nj store ext smod w',
  S_Data.reachable fr s -> unclustered s -> sound_randomness rd -> (0 < M_Data.frows fr)%nat ->
  M_Data.r_z (M_Data.dd_roles s) = Some [zc] ->
  pliv_init L rd fr s proj ml_l ml_m ml_r ml_g nf nr (PStr "IV-type") draw = Ok (C, w0) -> later C w0 w ->
  exists mc, mc_order mc = rd_order rd /\ runs_on mc "ml_l" ml_l false /\ runs_on mc "ml_m" ml_m false /\ runs_on mc "ml_r" ml_r false /\ (exists l, ml_g = Some l /\ runs_on mc "ml_g" l false) /\
  let n := M_Data.frows fr in let dcols := M_Data.r_d (M_Data.dd_roles s) in let y := outcome fr s in let z := col fr zc in
  (sound_learning L f g mc w ->
  labels_everywhere L g mc w n "ml_l" y everyone -> labels_everywhere L g mc w n "ml_m" z everyone -> (forall c, In c dcols -> labels_everywhere L g mc w n "ml_r" (col fr c) everyone) ->
  fit C nj store ext smod w = (w', Ok tt) ->
  exists F sm, fit_done w w' F sm (length dcols) /\
    forall r t fs c, nth_error sm r = Some fs -> nth_error dcols t = Some c -> let x := covariates fr s c in let d := col fr c in exists l m q gg th,
      used_prediction L f g mc w n ext r t c "ml_l" "ml_l" x y whole_train fs l /\ used_prediction L f g mc w n ext r t c "ml_m" "ml_m" x z whole_train fs m /\
      used_prediction L f g mc w n ext r t c "ml_r" "ml_r" x d whole_train fs q /\ used_prediction L f g mc w n ext r t c "ml_g" "ml_g" x (fun i => y i - th * d i) whole_train fs gg /\
      (sumf n (fun i => (z i - m i) * (d i - q i)) <> 0 -> th = sumf n (fun i => (z i - m i) * (y i - l i)) / sumf n (fun i => (z i - m i) * (d i - q i))) /\
      (sumf n (fun i => (z i - m i) * d i) <> 0 ->
       let theta := sumf n (fun i => (z i - m i) * (y i - gg i)) / sumf n (fun i => (z i - m i) * d i) in
       estimate_is F n t r theta (fun i => (z i - m i) * (y i - gg i - theta * d i)) (sumf n (fun i => (z i - m i) * d i)))).
Proof. exact @pliv_iv_end. Qed.
Print Assumptions C82_pliv_iv.

Theorem C82_pliv_several : forall (E P : Type) (L : learner E row P) f g rd fr s zcs proj ml_l ml_m ml_r ml_g nf nr draw C w0 w nj store ext smod w',
  S_Data.reachable fr s -> unclustered s -> sound_randomness rd -> (0 < M_Data.frows fr)%nat ->
  M_Data.r_z (M_Data.dd_roles s) = Some zcs -> (2 <= length zcs)%nat ->
  pliv_init L rd fr s proj ml_l ml_m ml_r ml_g nf nr (PStr "partialling out") draw = Ok (C, w0) -> later C w0 w ->
  exists mc, mc_order mc = rd_order rd /\ runs_on mc "ml_l" ml_l false /\ runs_on mc "ml_m" ml_m false /\ runs_on mc "ml_r" ml_r false /\
  let n := M_Data.frows fr in let dcols := M_Data.r_d (M_Data.dd_roles s) in let y := outcome fr s in let zs := map (fun c => (c, col fr c)) zcs in
  (sound_learning L f g mc w ->
  labels_everywhere L g mc w n "ml_l" y everyone -> (forall name z, In (name, z) zs -> labels_everywhere L g mc w n "ml_m" z everyone) -> (forall c, In c dcols -> labels_everywhere L g mc w n "ml_r" (col fr c) everyone) ->
  fit C nj store ext smod w = (w', Ok tt) ->
  exists F sm, fit_done w w' F sm (length dcols) /\
    forall r t fs c, nth_error sm r = Some fs -> nth_error dcols t = Some c -> let x := covariates fr s c in let d := col fr c in exists l q (mf : string -> vec),
      used_prediction L f g mc w n ext r t c "ml_l" "ml_l" x y whole_train fs l /\ used_prediction L f g mc w n ext r t c "ml_r" "ml_r" x d whole_train fs q /\
      (forall name z, In (name, z) zs -> used_prediction L f g mc w n ext r t c ("ml_m_" ++ name)%string "ml_m" x z whole_train fs (mf name)) /\
      let v := fun i => map (fun p : string * vec => snd p i - mf (fst p) i) zs in
      let hat := fun i => proj (map (fun j => (v j, d j - q j)) (seq 0 n)) (v i) in
      (sumf n (fun i => hat i * (d i - q i)) <> 0 ->
       let theta := sumf n (fun i => hat i * (y i - l i)) / sumf n (fun i => hat i * (d i - q i)) in
       estimate_is F n t r theta (fun i => hat i * (y i - l i - theta * (d i - q i))) (sumf n (fun i => hat i * (d i - q i))))).
Proof. exact @pliv_several_end. Qed.
Print Assumptions C82_pliv_several.

Theorem C82_pliv_partialled_instruments : forall (E P : Type) (L : learner E row P) f g rd fr s proj dummy ml_r nf nr score draw C w0 w nj store ext smod w',
  S_Data.reachable fr s -> unclustered s -> sound_randomness rd -> (0 < M_Data.frows fr)%nat ->
  pliv_partial_z L rd fr s proj dummy ml_r nf nr score draw = Ok (C, w0) -> later C w0 w ->
  exists mc, mc_order mc = rd_order rd /\ runs_on mc "ml_r" ml_r false /\
  let n := M_Data.frows fr in let dcols := M_Data.r_d (M_Data.dd_roles s) in let y := outcome fr s in let zrow := feats fr (M_Data.optl (M_Data.r_z (M_Data.dd_roles s))) in
  (sound_learning L f g mc w -> (forall c, In c dcols -> labels_everywhere L g mc w n "ml_r" (col fr c) everyone) ->
  fit C nj store ext smod w = (w', Ok tt) ->
  exists F sm, fit_done w w' F sm (length dcols) /\
    forall r t fs c, nth_error sm r = Some fs -> nth_error dcols t = Some c -> let x := covariates fr s c in let d := col fr c in exists q,
      cross_fitted L f g (setup_of mc n r t (fun l => nth r (m_params (w_obj w) l c) None) (fun _ => None)) "ml_r" "ml_r" (fun i => x i ++ zrow i)%list d whole_train fs q /\
      (sumf n (fun i => q i * d i) <> 0 ->
       let theta := sumf n (fun i => q i * y i) / sumf n (fun i => q i * d i) in
       estimate_is F n t r theta (fun i => q i * (y i - theta * d i)) (sumf n (fun i => q i * d i)))).
Proof. exact @pliv_z_end. Qed.
Print Assumptions C82_pliv_partialled_instruments.

Theorem C82_pliv_partialled_both : forall (E P : Type) (L : learner E row P) f g rd fr s proj ml_l ml_m ml_r nf nr score draw C w0 w nj store ext smod w',
  S_Data.reachable fr s -> unclustered s -> sound_randomness rd -> (0 < M_Data.frows fr)%nat ->
  pliv_partial_xz L rd fr s proj ml_l ml_m ml_r nf nr score draw = Ok (C, w0) -> later C w0 w ->
  exists mc, mc_order mc = rd_order rd /\ runs_on mc "ml_l" ml_l false /\ runs_on mc "ml_m" ml_m false /\ runs_on mc "ml_r" ml_r false /\
  let n := M_Data.frows fr in let dcols := M_Data.r_d (M_Data.dd_roles s) in let y := outcome fr s in let zrow := feats fr (M_Data.optl (M_Data.r_z (M_Data.dd_roles s))) in
  (sound_learning L f g mc w -> labels_everywhere L g mc w n "ml_l" y everyone ->
  fit C nj store ext smod w = (w', Ok tt) ->
  exists F sm, fit_done w w' F sm (length dcols) /\
    forall r t fs c, nth_error sm r = Some fs -> nth_error dcols t = Some c -> let x := covariates fr s c in let d := col fr c in exists l m mt,
      cross_fitted L f g (setup_of mc n r t (fun l => nth r (m_params (w_obj w) l c) None) (fun _ => None)) "ml_l" "ml_l" x y whole_train fs l /\
      projected L f (setup_of mc n r t (fun l => nth r (m_params (w_obj w) l c) None) (fun _ => None)) x (fun i => x i ++ zrow i)%list d fs m mt /\
      (sumf n (fun i => (m i - mt i) * (d i - mt i)) <> 0 ->
       let theta := sumf n (fun i => (m i - mt i) * (y i - l i)) / sumf n (fun i => (m i - mt i) * (d i - mt i)) in
       estimate_is F n t r theta (fun i => (m i - mt i) * (y i - l i - theta * (d i - mt i))) (sumf n (fun i => (m i - mt i) * (d i - mt i))))).
Proof. exact @pliv_xz_end. Qed.
Print Assumptions C82_pliv_partialled_both.

Theorem C82_interactive : forall (E P : Type) (L : learner E row P) f g rd fr s ml_g ml_m nf nr wa nm rule thr draw C w0 w nj store ext smod w',
  S_Data.reachable fr s -> unclustered s -> sound_randomness rd -> (0 < M_Data.frows fr)%nat ->
  irm_init L rd fr s ml_g ml_m nf nr (PStr "ATE") wa (PBool nm) rule (PFloat thr) draw = Ok (C, w0) -> later C w0 w ->
  exists dcol mc, binary_treatment fr s dcol /\ mc_order mc = rd_order rd /\ runs_on mc "ml_g" ml_g (ly_classifier ml_g) /\ runs_on mc "ml_m" ml_m true /\
  let n := M_Data.frows fr in let x := covariates fr s dcol in let y := outcome fr s in let d := col fr dcol in
  (sound_learning L f g mc w ->
  labels_everywhere L g mc w n "ml_g" y (fun j => d j = 0) -> labels_everywhere L g mc w n "ml_g" y (fun j => d j = 1) -> labels_everywhere L g mc w n "ml_m" d everyone ->
  fit C nj store ext smod w = (w', Ok tt) ->
  exists F sm, fit_done w w' F sm 1 /\ forall r fs, nth_error sm r = Some fs -> (r < m_n_rep (w_obj w0))%nat -> exists g0 g1 m0 m,
      used_prediction L f g mc w n ext r 0 dcol "ml_g0" "ml_g" x y (group_rows n (fun j => d j = 0)) fs g0 /\
      used_prediction L f g mc w n ext r 0 dcol "ml_g1" "ml_g" x y (group_rows n (fun j => d j = 1)) fs g1 /\
      used_prediction L f g mc w n ext r 0 dcol "ml_m" "ml_m" x d whole_train fs m0 /\ clipped n true thr m0 m /\
      let W := weights_of wa r in
      let ma := ps_adjust n m d nm in
      let s := fun i => wg W i * (g1 i - g0 i) + resid_weights W i * (d i * (y i - g1 i) / ma i - (1 - d i) * (y i - g0 i) / (1 - ma i)) in
      (off_bounds n ma -> estimate_is F n 0 r (meanf n s) (fun i => s i - meanf n s * (wg W i / meanf n (wg W))) (INR n))).
Proof. exact @irm_end. Qed.
Print Assumptions C82_interactive.

Theorem C82_treated : forall (E P : Type) (L : learner E row P) f g rd fr s ml_g ml_m nf nr wa nm rule thr draw C w0 w nj store ext smod w',
  S_Data.reachable fr s -> unclustered s -> sound_randomness rd -> (0 < M_Data.frows fr)%nat ->
  irm_init L rd fr s ml_g ml_m nf nr (PStr "ATTE") wa (PBool nm) rule (PFloat thr) draw = Ok (C, w0) -> later C w0 w ->
  exists dcol mc, binary_treatment fr s dcol /\ mc_order mc = rd_order rd /\ runs_on mc "ml_g" ml_g (ly_classifier ml_g) /\ runs_on mc "ml_m" ml_m true /\
  let n := M_Data.frows fr in let x := covariates fr s dcol in let y := outcome fr s in let d := col fr dcol in
  (sound_learning L f g mc w ->
  labels_everywhere L g mc w n "ml_g" y (fun j => d j = 0) -> labels_everywhere L g mc w n "ml_g" y (fun j => d j = 1) -> labels_everywhere L g mc w n "ml_m" d everyone ->
  fit C nj store ext smod w = (w', Ok tt) ->
  exists F sm, fit_done w w' F sm 1 /\ forall r fs, nth_error sm r = Some fs -> exists g0 g1 m0 m,
      used_prediction L f g mc w n ext r 0 dcol "ml_g0" "ml_g" x y (group_rows n (fun j => d j = 0)) fs g0 /\
      used_prediction L f g mc w n ext r 0 dcol "ml_g1" "ml_g" x y (group_rows n (fun j => d j = 1)) fs g1 /\
      used_prediction L f g mc w n ext r 0 dcol "ml_m" "ml_m" x d whole_train fs m0 /\ clipped n true thr m0 m /\
      let ma := ps_adjust n m d nm in
      let W := wg (weights_of wa r) in
      let s := fun i => W i * (d i * (y i - g0 i) - (1 - d i) * (ma i / (1 - ma i)) * (y i - g0 i)) in
      (sumf n (fun i => W i * d i) <> 0 -> off_bounds n ma ->
       let theta := sumf n s / sumf n (fun i => W i * d i) in
       estimate_is F n 0 r theta (fun i => s i - theta * (W i * d i)) (sumf n (fun i => W i * d i)))).
Proof. exact @atte_end. Qed.
Print Assumptions C82_treated.

Theorem C82_potential_outcome : forall (E P : Type) (L : learner E row P) f g rd fr s ml_g ml_m level nf nr score wa nm rule thr draw C w0 w nj store ext smod w',
  S_Data.reachable fr s -> unclustered s -> sound_randomness rd -> (0 < M_Data.frows fr)%nat ->
  apo_init L rd fr s ml_g ml_m level nf nr score wa (PBool nm) rule (PFloat thr) draw = Ok (C, w0) -> later C w0 w ->
  exists dcol mc, M_Data.r_d (M_Data.dd_roles s) = [dcol] /\ mc_order mc = rd_order rd /\ runs_on mc "ml_g" ml_g (ly_classifier ml_g) /\ runs_on mc "ml_m" ml_m true /\
  let n := M_Data.frows fr in let x := covariates fr s dcol in let y := outcome fr s in let lvl := at_level level (col fr dcol) in
  (sound_learning L f g mc w ->
  labels_everywhere L g mc w n "ml_g" y (fun j => lvl j = 0) -> labels_everywhere L g mc w n "ml_g" y (fun j => lvl j = 1) -> labels_everywhere L g mc w n "ml_m" lvl everyone ->
  fit C nj store ext smod w = (w', Ok tt) ->
  exists F sm, fit_done w w' F sm 1 /\ forall r fs, nth_error sm r = Some fs -> (r < m_n_rep (w_obj w0))%nat -> exists g1 m0 m,
      used_prediction L f g mc w n ext r 0 dcol "ml_g_d_lvl1" "ml_g" x y (group_rows n (fun j => lvl j = 1)) fs g1 /\
      used_prediction L f g mc w n ext r 0 dcol "ml_m" "ml_m" x lvl whole_train fs m0 /\ clipped n true thr m0 m /\
      let W := weights_of wa r in
      let s := fun i => wg W i * g1 i + resid_weights W i * (lvl i * (y i - g1 i) / ps_adjust n m lvl nm i) in
      ((forall i, (i < n)%nat -> ps_adjust n m lvl nm i <> 0) -> estimate_is F n 0 r (meanf n s) (fun i => s i - meanf n s * (wg W i / meanf n (wg W))) (INR n))).
Proof. exact @apo_end. Qed.
Print Assumptions C82_potential_outcome.

Theorem C82_local_effect : forall (E P : Type) (L : learner E row P) f g rd fr s ml_g ml_m ml_r nf nr score sg nm rule thr draw C w0 w nj store ext smod w',
  S_Data.reachable fr s -> unclustered s -> sound_randomness rd -> (0 < M_Data.frows fr)%nat ->
  iivm_init L rd fr s ml_g ml_m ml_r nf nr score sg (PBool nm) rule (PFloat thr) draw = Ok (C, w0) -> later C w0 w ->
  exists dcol zc mc at1 nt1, binary_treatment fr s dcol /\ M_Data.r_z (M_Data.dd_roles s) = Some [zc] /\ S_Data.zero_one_column fr zc /\ mc_order mc = rd_order rd /\ runs_on mc "ml_g" ml_g (ly_classifier ml_g) /\ runs_on mc "ml_m" ml_m true /\ runs_on mc "ml_r" ml_r true /\ subgroups_are sg at1 nt1 /\
  let n := M_Data.frows fr in let x := covariates fr s dcol in let y := outcome fr s in let d := col fr dcol in let z := col fr zc in
  (sound_learning L f g mc w ->
  (forall v, v = 0 \/ v = 1 -> labels_everywhere L g mc w n "ml_g" y (fun j => z j = v)) -> labels_everywhere L g mc w n "ml_m" z everyone -> (forall v, v = 0 /\ at1 = true \/ v = 1 /\ nt1 = true -> labels_everywhere L g mc w n "ml_r" d (fun j => z j = v)) ->
  fit C nj store ext smod w = (w', Ok tt) ->
  exists F sm, fit_done w w' F sm 1 /\ forall r fs, nth_error sm r = Some fs -> exists g0 g1 m0 m r0 r1,
      used_prediction L f g mc w n ext r 0 dcol "ml_g0" "ml_g" x y (group_rows n (fun j => z j = 0)) fs g0 /\
      used_prediction L f g mc w n ext r 0 dcol "ml_g1" "ml_g" x y (group_rows n (fun j => z j = 1)) fs g1 /\
      used_prediction L f g mc w n ext r 0 dcol "ml_m" "ml_m" x z whole_train fs m0 /\ clipped n true thr m0 m /\
      (if at1 then used_prediction L f g mc w n ext r 0 dcol "ml_r0" "ml_r" x d (group_rows n (fun j => z j = 0)) fs r0 else forall i, (i < n)%nat -> r0 i = 0) /\
      (if nt1 then used_prediction L f g mc w n ext r 0 dcol "ml_r1" "ml_r" x d (group_rows n (fun j => z j = 1)) fs r1 else forall i, (i < n)%nat -> r1 i = 1) /\
      let ma := iivm_adjust n nm d m in
      let sy := dr_signal y z g0 g1 ma in
      let sd := dr_signal d z r0 r1 ma in
      (off_bounds n ma -> sumf n sd <> 0 ->
       let theta := sumf n sy / sumf n sd in estimate_is F n 0 r theta (fun i => sy i - theta * sd i) (sumf n sd))).
Proof. exact @iivm_end. Qed.
Print Assumptions C82_local_effect.

Theorem C82_differences : forall (E P : Type) (L : learner E row P) f g rd fr s ml_g ml_m nf nr nm rule thr draw C w0 w nj store ext smod w',
  S_Data.reachable fr s -> unclustered s -> sound_randomness rd -> (0 < M_Data.frows fr)%nat ->
  did_init L rd fr s ml_g ml_m nf nr (PStr "observational") (PBool nm) rule (PFloat thr) draw = Ok (C, w0) -> later C w0 w ->
  exists dcol mc, binary_treatment fr s dcol /\ mc_order mc = rd_order rd /\ runs_on mc "ml_g" ml_g (ly_classifier ml_g) /\ (exists l, ml_m = Some l /\ runs_on mc "ml_m" l true) /\
  let n := M_Data.frows fr in let x := covariates fr s dcol in let y := outcome fr s in let d := col fr dcol in
  (sound_learning L f g mc w ->
  labels_everywhere L g mc w n "ml_g" y (fun j => d j = 0) -> labels_everywhere L g mc w n "ml_g" y (fun j => d j = 1) -> labels_everywhere L g mc w n "ml_m" d everyone ->
  fit C nj store ext smod w = (w', Ok tt) ->
  exists F sm, fit_done w w' F sm 1 /\ forall r fs, nth_error sm r = Some fs -> exists g0 m0 m p,
      used_prediction L f g mc w n ext r 0 dcol "ml_g0" "ml_g" x y (group_rows n (fun j => d j = 0)) fs g0 /\
      used_prediction L f g mc w n ext r 0 dcol "ml_m" "ml_m" x d whole_train fs m0 /\ clipped n true thr m0 m /\ share_of fs d p /\
      let odds := fun i => (1 - d i) * (m i / (1 - m i)) in
      let a := share_weight n nm d p in
      let s := fun i => (a i - share_weight n nm odds p i) * (y i - g0 i) in
      (share_ok n nm d p -> share_ok n nm odds p -> sumf n a <> 0 ->
       let theta := sumf n s / sumf n a in estimate_is F n 0 r theta (fun i => s i - theta * a i) (sumf n a))).
Proof. exact @did_obs_end. Qed.
Print Assumptions C82_differences.

Theorem C82_differences_experimental : forall (E P : Type) (L : learner E row P) f g rd fr s ml_g ml_m nf nr nm rule thr draw C w0 w nj store ext smod w',
  S_Data.reachable fr s -> unclustered s -> sound_randomness rd -> (0 < M_Data.frows fr)%nat ->
  did_init L rd fr s ml_g ml_m nf nr (PStr "experimental") (PBool nm) rule (PFloat thr) draw = Ok (C, w0) -> later C w0 w ->
  exists dcol mc, binary_treatment fr s dcol /\ mc_order mc = rd_order rd /\ runs_on mc "ml_g" ml_g (ly_classifier ml_g) /\
  let n := M_Data.frows fr in let x := covariates fr s dcol in let y := outcome fr s in let d := col fr dcol in
  (sound_learning L f g mc w ->
  labels_everywhere L g mc w n "ml_g" y (fun j => d j = 0) -> labels_everywhere L g mc w n "ml_g" y (fun j => d j = 1) ->
  fit C nj store ext smod w = (w', Ok tt) ->
  exists F sm, fit_done w w' F sm 1 /\ forall r fs, nth_error sm r = Some fs -> exists g0 g1 p,
      used_prediction L f g mc w n ext r 0 dcol "ml_g0" "ml_g" x y (group_rows n (fun j => d j = 0)) fs g0 /\
      used_prediction L f g mc w n ext r 0 dcol "ml_g1" "ml_g" x y (group_rows n (fun j => d j = 1)) fs g1 /\ share_of fs d p /\
      let a := share_weight n nm d p in
      let s := fun i => g1 i - g0 i + a i * (y i - g1 i) - share_weight n nm (compl d) (compl p) i * (y i - g0 i) in
      (share_ok n nm d p -> share_ok n nm (compl d) (compl p) -> estimate_is F n 0 r (meanf n s) (fun i => s i - meanf n s) (INR n))).
Proof. exact @did_exp_end. Qed.
Print Assumptions C82_differences_experimental.

Theorem C82_cross_sections : forall (E P : Type) (L : learner E row P) f g rd fr s ml_g ml_m nf nr nm rule thr draw C w0 w nj store ext smod w',
  S_Data.reachable fr s -> unclustered s -> sound_randomness rd -> (0 < M_Data.frows fr)%nat ->
  cs_init L rd fr s ml_g ml_m nf nr (PStr "observational") (PBool nm) rule (PFloat thr) draw = Ok (C, w0) -> later C w0 w ->
  exists dcol tcol mc, binary_treatment fr s dcol /\ M_Data.r_t (M_Data.dd_roles s) = Some tcol /\ S_Data.zero_one_column fr tcol /\ mc_order mc = rd_order rd /\ runs_on mc "ml_g" ml_g (ly_classifier ml_g) /\ (exists l, ml_m = Some l /\ runs_on mc "ml_m" l true) /\
  let n := M_Data.frows fr in let x := covariates fr s dcol in let y := outcome fr s in let d := col fr dcol in let t := col fr tcol in
  (sound_learning L f g mc w ->
  (forall a b, (a = 0 \/ a = 1) -> (b = 0 \/ b = 1) -> labels_everywhere L g mc w n "ml_g" y (fun j => d j = a /\ t j = b)) -> labels_everywhere L g mc w n "ml_m" d everyone ->
  fit C nj store ext smod w = (w', Ok tt) ->
  exists F sm, fit_done w w' F sm 1 /\ forall r fs, nth_error sm r = Some fs -> exists g00 g01 g10 g11 m0 m p lam,
      used_prediction L f g mc w n ext r 0 dcol "ml_g_d0_t0" "ml_g" x y (group_rows n (fun j => d j = 0 /\ t j = 0)) fs g00 /\
      used_prediction L f g mc w n ext r 0 dcol "ml_g_d0_t1" "ml_g" x y (group_rows n (fun j => d j = 0 /\ t j = 1)) fs g01 /\
      used_prediction L f g mc w n ext r 0 dcol "ml_g_d1_t0" "ml_g" x y (group_rows n (fun j => d j = 1 /\ t j = 0)) fs g10 /\
      used_prediction L f g mc w n ext r 0 dcol "ml_g_d1_t1" "ml_g" x y (group_rows n (fun j => d j = 1 /\ t j = 1)) fs g11 /\
      used_prediction L f g mc w n ext r 0 dcol "ml_m" "ml_m" x d whole_train fs m0 /\ clipped n true thr m0 m /\ share_of fs d p /\ share_of fs t lam /\
      let odds := fun i => m i / (1 - m i) in
      let d0t1 := fun i => (1 - d i) * t i * odds i in
      let d0t0 := fun i => (1 - d i) * (1 - t i) * odds i in
      let q1 := fun i => p i * lam i in let q0 := fun i => p i * (1 - lam i) in
      let a := share_weight n nm d p in
      let s := fun i => a i * (g11 i - g10 i - (g01 i - g00 i)) +
        share_weight n nm (both d t) q1 i * (y i - g11 i) - share_weight n nm (both d (compl t)) q0 i * (y i - g10 i) -
        (share_weight n nm d0t1 q1 i * (y i - g01 i) - share_weight n nm d0t0 q0 i * (y i - g00 i)) in
      (share_ok n nm d p -> share_ok n nm (both d t) q1 -> share_ok n nm (both d (compl t)) q0 -> share_ok n nm d0t1 q1 -> share_ok n nm d0t0 q0 -> sumf n a <> 0 ->
       let theta := sumf n s / sumf n a in estimate_is F n 0 r theta (fun i => s i - theta * a i) (sumf n a))).
Proof. exact @cs_obs_end. Qed.
Print Assumptions C82_cross_sections.

Theorem C82_cross_sections_experimental : forall (E P : Type) (L : learner E row P) f g rd fr s ml_g ml_m nf nr nm rule thr draw C w0 w nj store ext smod w',
  S_Data.reachable fr s -> unclustered s -> sound_randomness rd -> (0 < M_Data.frows fr)%nat ->
  cs_init L rd fr s ml_g ml_m nf nr (PStr "experimental") (PBool nm) rule (PFloat thr) draw = Ok (C, w0) -> later C w0 w ->
  exists dcol tcol mc, binary_treatment fr s dcol /\ M_Data.r_t (M_Data.dd_roles s) = Some tcol /\ S_Data.zero_one_column fr tcol /\ mc_order mc = rd_order rd /\ runs_on mc "ml_g" ml_g (ly_classifier ml_g) /\
  let n := M_Data.frows fr in let x := covariates fr s dcol in let y := outcome fr s in let d := col fr dcol in let t := col fr tcol in
  (sound_learning L f g mc w ->
  (forall a b, (a = 0 \/ a = 1) -> (b = 0 \/ b = 1) -> labels_everywhere L g mc w n "ml_g" y (fun j => d j = a /\ t j = b)) ->
  fit C nj store ext smod w = (w', Ok tt) ->
  exists F sm, fit_done w w' F sm 1 /\ forall r fs, nth_error sm r = Some fs -> exists g00 g01 g10 g11 p lam,
      used_prediction L f g mc w n ext r 0 dcol "ml_g_d0_t0" "ml_g" x y (group_rows n (fun j => d j = 0 /\ t j = 0)) fs g00 /\
      used_prediction L f g mc w n ext r 0 dcol "ml_g_d0_t1" "ml_g" x y (group_rows n (fun j => d j = 0 /\ t j = 1)) fs g01 /\
      used_prediction L f g mc w n ext r 0 dcol "ml_g_d1_t0" "ml_g" x y (group_rows n (fun j => d j = 1 /\ t j = 0)) fs g10 /\
      used_prediction L f g mc w n ext r 0 dcol "ml_g_d1_t1" "ml_g" x y (group_rows n (fun j => d j = 1 /\ t j = 1)) fs g11 /\
      share_of fs d p /\ share_of fs t lam /\
      let q11 := fun i => p i * lam i in let q10 := fun i => p i * (1 - lam i) in
      let q01 := fun i => (1 - p i) * lam i in let q00 := fun i => (1 - p i) * (1 - lam i) in
      let s := fun i => g11 i - g10 i - (g01 i - g00 i) +
        share_weight n nm (both d t) q11 i * (y i - g11 i) - share_weight n nm (both d (compl t)) q10 i * (y i - g10 i) -
        (share_weight n nm (both (compl d) t) q01 i * (y i - g01 i) - share_weight n nm (both (compl d) (compl t)) q00 i * (y i - g00 i)) in
      (share_ok n nm (both d t) q11 -> share_ok n nm (both d (compl t)) q10 -> share_ok n nm (both (compl d) t) q01 -> share_ok n nm (both (compl d) (compl t)) q00 ->
       estimate_is F n 0 r (meanf n s) (fun i => s i - meanf n s) (INR n))).
Proof. exact @cs_exp_end. Qed.
Print Assumptions C82_cross_sections_experimental.

Theorem C82_selection : forall (E P : Type) (L : learner E row P) f g rd fr s tts ml_g ml_pi ml_m nf nr nm rule thr draw C w0 w nj store ext smod w',
  S_Data.reachable fr s -> unclustered s -> sound_randomness rd -> (0 < M_Data.frows fr)%nat ->
  ssm_init L rd fr s tts ml_g ml_pi ml_m nf nr (PStr "missing-at-random") (PBool nm) rule (PFloat thr) draw = Ok (C, w0) -> later C w0 w ->
  exists scol mc, M_Data.r_s (M_Data.dd_roles s) = Some scol /\ mc_order mc = rd_order rd /\ clone_of L mc "ml_g" ml_g (ly_classifier ml_g) /\ clone_of L mc "ml_pi" ml_pi true /\ clone_of L mc "ml_m" ml_m true /\
  let n := M_Data.frows fr in let dcols := M_Data.r_d (M_Data.dd_roles s) in let y := outcome fr s in let sel := col fr scol in
  (sound_learning L f g mc w ->
  labels_everywhere L g mc w n "ml_pi" sel everyone -> (forall c, In c dcols -> labels_everywhere L g mc w n "ml_m" (col fr c) everyone) -> (forall c v, In c dcols -> v = 0 \/ v = 1 -> labels_everywhere L g mc w n "ml_g" y (fun j => col fr c j = v /\ sel j = 1)) ->
  fit C nj store ext smod w = (w', Ok tt) ->
  exists F sm, fit_done w w' F sm (length dcols) /\ forall r t fs c, nth_error sm r = Some fs -> nth_error dcols t = Some c -> let x := covariates fr s c in let d := col fr c in exists pi m0 m g1 g0,
      cross_fitted L f g (setup_of mc n r t (fun l => nth r (m_params (w_obj w) l c) None) (fun _ => None)) "ml_pi" "ml_pi" (fun i => x i ++ [d i])%list sel whole_train fs pi /\
      cross_fitted L f g (setup_of mc n r t (fun l => nth r (m_params (w_obj w) l c) None) (fun _ => None)) "ml_m" "ml_m" x d whole_train fs m0 /\ clipped n true thr m0 m /\
      cross_fitted L f g (setup_of mc n r t (fun l => nth r (m_params (w_obj w) l c) None) (fun _ => None)) "ml_g_d1" "ml_g" x y (group_rows n (fun j => d j = 1 /\ sel j = 1)) fs g1 /\
      cross_fitted L f g (setup_of mc n r t (fun l => nth r (m_params (w_obj w) l c) None) (fun _ => None)) "ml_g_d0" "ml_g" x y (group_rows n (fun j => d j = 0 /\ sel j = 1)) fs g0 /\
      (binary n d -> off_bounds n m -> (forall i, (i < n)%nat -> pi i <> 0) ->
       let w1 := if nm then sumf n d / sumf n (fun i => d i * sel i / (pi i * m i)) else 1 in
       let w0 := if nm then sumf n (compl d) / sumf n (fun i => (1 - d i) * sel i / (pi i * (1 - m i))) else 1 in
       let v := fun i => g1 i + w1 * (d i * sel i * (y i - g1 i) / (m i * pi i)) - (g0 i + w0 * ((1 - d i) * sel i * (y i - g0 i) / ((1 - m i) * pi i))) in
       (nm = true -> sumf n (fun i => d i * sel i / (pi i * m i)) <> 0 /\ sumf n (fun i => (1 - d i) * sel i / (pi i * (1 - m i))) <> 0) ->
       estimate_is F n t r (meanf n v) (fun i => v i - meanf n v) (INR n))).
Proof. exact @ssm_end. Qed.
Print Assumptions C82_selection.

Theorem C82_selection_nonignorable : forall (E P : Type) (L : learner E row P) f g rd fr s tts ml_g ml_pi ml_m nf nr nm rule thr draw C w0 w nj store ext smod w',
  S_Data.reachable fr s -> unclustered s -> sound_randomness rd -> (0 < M_Data.frows fr)%nat ->
  ssm_init L rd fr s tts ml_g ml_pi ml_m nf nr (PStr "nonignorable") (PBool nm) rule (PFloat thr) draw = Ok (C, w0) -> later C w0 w ->
  exists scol mc, M_Data.r_s (M_Data.dd_roles s) = Some scol /\ mc_order mc = rd_order rd /\ clone_of L mc "ml_g" ml_g (ly_classifier ml_g) /\ clone_of L mc "ml_pi" ml_pi true /\ clone_of L mc "ml_m" ml_m true /\
  let n := M_Data.frows fr in let dcols := M_Data.r_d (M_Data.dd_roles s) in let y := outcome fr s in let zrow := feats fr (M_Data.optl (M_Data.r_z (M_Data.dd_roles s))) in let sel := col fr scol in
  (sound_learning L f g mc w -> classifier_ok L g ->
  fit C nj store ext smod w = (w', Ok tt) ->
  exists F sm, fit_done w w' F sm (length dcols) /\ forall r t fs c, nth_error sm r = Some fs -> nth_error dcols t = Some c -> let x := covariates fr s c in let d := col fr c in exists pi m0 m g1 g0,
      nested_selection L f g (setup_of mc n r t (fun l => nth r (m_params (w_obj w) l c) None) (fun _ => None)) (tts r t) x zrow y d sel fs pi m0 g1 g0 /\ clipped n true thr m0 m /\
      (binary n d -> off_bounds n m -> (forall i, (i < n)%nat -> pi i <> 0) ->
       let w1 := if nm then sumf n d / sumf n (fun i => d i * sel i / (pi i * m i)) else 1 in
       let w0 := if nm then sumf n (compl d) / sumf n (fun i => (1 - d i) * sel i / (pi i * (1 - m i))) else 1 in
       let v := fun i => g1 i + w1 * (d i * sel i * (y i - g1 i) / (m i * pi i)) - (g0 i + w0 * ((1 - d i) * sel i * (y i - g0 i) / ((1 - m i) * pi i))) in
       (nm = true -> sumf n (fun i => d i * sel i / (pi i * m i)) <> 0 /\ sumf n (fun i => (1 - d i) * sel i / (pi i * (1 - m i))) <> 0) ->
       estimate_is F n t r (meanf n v) (fun i => v i - meanf n v) (INR n))).
Proof. exact @ssm_non_end. Qed.
Print Assumptions C82_selection_nonignorable.

Theorem C82_plr_clustered : forall (E P : Type) (L : learner E row P) f g rd fr s cl ml_l ml_m ml_g nf nr draw C w0 w nj store ext smod w',
  S_Data.reachable fr s -> M_Data.r_cl (M_Data.dd_roles s) = Some cl -> cl <> [] -> sound_randomness rd -> (0 < M_Data.frows fr)%nat ->
  plr_init L rd fr s ml_l ml_m ml_g nf nr (PStr "partialling out") draw = Ok (C, w0) -> later C w0 w ->
  exists mc, mc_order mc = rd_order rd /\ runs_on mc "ml_l" ml_l false /\ runs_on mc "ml_m" ml_m (ly_classifier ml_m) /\
  let n := M_Data.frows fr in let dcols := M_Data.r_d (M_Data.dd_roles s) in let y := outcome fr s in let cv := map (fun c => value_codes (col fr c)) cl in
  (sound_learning L f g mc w ->
  labels_everywhere L g mc w n "ml_l" y everyone -> (forall c, In c dcols -> labels_everywhere L g mc w n "ml_m" (col fr c) everyone) ->
  fit C nj store ext smod w = (w', Ok tt) ->
  exists F sm, fit_done w w' F sm (length dcols) /\
    forall r t fs c, nth_error sm r = Some fs -> nth_error dcols t = Some c -> let x := covariates fr s c in let d := col fr c in exists l m ca,
      used_prediction L f g mc w n ext r t c "ml_l" "ml_l" x y whole_train fs l /\
      used_prediction L f g mc w n ext r t c "ml_m" "ml_m" x d whole_train fs m /\ clusters_of w cv r fs ca /\
      (moment n (Some ca) (fun i => (d i - m i) ^ 2) <> 0 ->
       clustered_estimate_is F n t r ca (fun i => (d i - m i) ^ 2) (fun i => (d i - m i) * (y i - l i)))).
Proof. exact @plr_cl_end. Qed.
Print Assumptions C82_plr_clustered.

Theorem C82_pliv_clustered : forall (E P : Type) (L : learner E row P) f g rd fr s cl zc proj ml_l ml_m ml_r ml_g nf nr draw C w0 w nj store ext smod w',
  S_Data.reachable fr s -> M_Data.r_cl (M_Data.dd_roles s) = Some cl -> cl <> [] -> sound_randomness rd -> (0 < M_Data.frows fr)%nat ->
  M_Data.r_z (M_Data.dd_roles s) = Some [zc] ->
  pliv_init L rd fr s proj ml_l ml_m ml_r ml_g nf nr (PStr "partialling out") draw = Ok (C, w0) -> later C w0 w ->
  exists mc, mc_order mc = rd_order rd /\ runs_on mc "ml_l" ml_l false /\ runs_on mc "ml_m" ml_m false /\ runs_on mc "ml_r" ml_r false /\
  let n := M_Data.frows fr in let dcols := M_Data.r_d (M_Data.dd_roles s) in let y := outcome fr s in let z := col fr zc in let cv := map (fun c => value_codes (col fr c)) cl in
  (sound_learning L f g mc w ->
  labels_everywhere L g mc w n "ml_l" y everyone -> labels_everywhere L g mc w n "ml_m" z everyone -> (forall c, In c dcols -> labels_everywhere L g mc w n "ml_r" (col fr c) everyone) ->
  fit C nj store ext smod w = (w', Ok tt) ->
  exists F sm, fit_done w w' F sm (length dcols) /\
    forall r t fs c, nth_error sm r = Some fs -> nth_error dcols t = Some c -> let x := covariates fr s c in let d := col fr c in exists l m q ca,
      used_prediction L f g mc w n ext r t c "ml_l" "ml_l" x y whole_train fs l /\ used_prediction L f g mc w n ext r t c "ml_m" "ml_m" x z whole_train fs m /\
      used_prediction L f g mc w n ext r t c "ml_r" "ml_r" x d whole_train fs q /\ clusters_of w cv r fs ca /\
      (moment n (Some ca) (fun i => (z i - m i) * (d i - q i)) <> 0 ->
       clustered_estimate_is F n t r ca (fun i => (z i - m i) * (d i - q i)) (fun i => (z i - m i) * (y i - l i)))).
Proof. exact @pliv_cl_end. Qed.
Print Assumptions C82_pliv_clustered.

(** Every one of these classes on the 8 rows of [i_frame]: constructed, given a split, fitted. *)
Example C82_case_linear : plr_case rd1 "partialling out" /\ plr_case rd2 "IV-type" /\ pliv_case rz1 "IV-type" /\ pliv_case rz2 "partialling out" /\ pliv_z_case /\ pliv_xz_case.
Proof. exact (conj (proj1 (plr_cases _ (or_introl eq_refl))) (conj (proj2 (plr_cases _ (or_intror eq_refl))) (conj (pliv_cases _ (or_intror eq_refl)) (conj pliv_several_cases (conj pliv_z_cases pliv_xz_cases))))). Qed.
Example C82_case_effects : irm_case "ATE" /\ irm_case "ATTE" /\ apo_case /\ iivm_case /\ did_case "observational" /\ did_case "experimental" /\ cs_case "observational" /\ cs_case "experimental" /\ ssm_case /\ ssm_non_case.
Proof. exact (conj (irm_cases _ (or_introl eq_refl)) (conj (irm_cases _ (or_intror eq_refl)) (conj apo_cases (conj iivm_cases (conj (did_cases _ (or_introl eq_refl)) (conj (did_cases _ (or_intror eq_refl)) (conj (cs_cases _ (or_introl eq_refl)) (conj (cs_cases _ (or_intror eq_refl)) (conj ssm_cases ssm_non_cases))))))))). Qed.
Example C82_case_clusters : plr_cl_case /\ pliv_cl_case.
Proof. exact (conj plr_cl_cases pliv_cl_cases). Qed.
(** The classifiers see every value in every train part of that split. *)
Example C82_case_labels : forall mc w lrn y, split_known w -> both_labels 8 y w_smpls -> labels_everywhere q_learner q_proba mc w 8 lrn y everyone.
Proof. exact i_labels. Qed.

(** ** C79: complete fits return, for the remaining classes *)
Theorem C79_fit_potential_outcome : forall (E P : Type) (L : learner E row P) f g (mc : machinery E P) n dcol norm bin tr thr wt x y d lvl strata w nj b b',
  let C := apo_ctx L mc n dcol norm bin tr thr wt x y d lvl strata in
  (0 < n)%nat -> soundly_reached C w -> sound_learning L f g mc w -> no_jobs_or_int nj -> (exists sm, m_smpls (w_obj w) = Some sm) ->
  ready L g mc w n 0 dcol "ml_g_d_lvl0" "ml_g" y (fun i => lvl i = 0) -> ready L g mc w n 0 dcol "ml_g_d_lvl1" "ml_g" y (fun i => lvl i = 1) -> ready L g mc w n 0 dcol "ml_m" "ml_m" lvl everyone ->
  (bin = true -> soft f g mc "ml_g") ->
  exists w', fit C nj (PBool b) ExtNone (PBool b') w = (w', Ok tt).
Proof. exact @apo_fit_success. Qed.
Print Assumptions C79_fit_potential_outcome.

Theorem C79_fit_local_effect : forall (E P : Type) (L : learner E row P) f g (mc : machinery E P) n dcol norm bin at_ nt tr thr x y z d strata w nj b b',
  let C := iivm_ctx L mc n dcol norm bin at_ nt tr thr x y z d strata in
  (0 < n)%nat -> soundly_reached C w -> sound_learning L f g mc w -> no_jobs_or_int nj -> (exists sm, m_smpls (w_obj w) = Some sm) ->
  ready L g mc w n 0 dcol "ml_g0" "ml_g" y (fun i => z i = 0) -> ready L g mc w n 0 dcol "ml_g1" "ml_g" y (fun i => z i = 1) -> ready L g mc w n 0 dcol "ml_m" "ml_m" z everyone ->
  (at_ = true -> ready L g mc w n 0 dcol "ml_r0" "ml_r" d (fun i => z i = 0)) -> (nt = true -> ready L g mc w n 0 dcol "ml_r1" "ml_r" d (fun i => z i = 1)) ->
  (bin = true -> soft f g mc "ml_g") ->
  exists w', fit C nj (PBool b) ExtNone (PBool b') w = (w', Ok tt).
Proof. exact @iivm_fit_success. Qed.
Print Assumptions C79_fit_local_effect.

Theorem C79_fit_differences : forall (E P : Type) (L : learner E row P) f g (mc : machinery E P) n dcol (obs : bool) norm tr thr x y d strata w nj b b',
  let C := did_ctx L mc n dcol obs norm tr thr x y d strata in
  (0 < n)%nat -> soundly_reached C w -> sound_learning L f g mc w -> no_jobs_or_int nj -> (exists sm, m_smpls (w_obj w) = Some sm) ->
  ready L g mc w n 0 dcol "ml_g0" "ml_g" y (fun i => d i = 0) -> ready L g mc w n 0 dcol "ml_g1" "ml_g" y (fun i => d i = 1) -> (obs = true -> ready L g mc w n 0 dcol "ml_m" "ml_m" d everyone) ->
  exists w', fit C nj (PBool b) ExtNone (PBool b') w = (w', Ok tt).
Proof. exact @did_fit_success. Qed.
Print Assumptions C79_fit_differences.

Theorem C79_fit_cross_sections : forall (E P : Type) (L : learner E row P) f g (mc : machinery E P) n dcol (obs : bool) norm tr thr x y d t strata w nj b b',
  let C := cs_ctx L mc n dcol obs norm tr thr x y d t strata in
  (0 < n)%nat -> soundly_reached C w -> sound_learning L f g mc w -> no_jobs_or_int nj -> (exists sm, m_smpls (w_obj w) = Some sm) ->
  (forall a c name, In (name, (a, c)) [("ml_g_d0_t0", (0, 0)); ("ml_g_d0_t1", (0, 1)); ("ml_g_d1_t0", (1, 0)); ("ml_g_d1_t1", (1, 1))] -> ready L g mc w n 0 dcol name "ml_g" y (fun i => d i = a /\ t i = c)) ->
  (obs = true -> ready L g mc w n 0 dcol "ml_m" "ml_m" d everyone) ->
  exists w', fit C nj (PBool b) ExtNone (PBool b') w = (w', Ok tt).
Proof. exact @cs_fit_success. Qed.
Print Assumptions C79_fit_cross_sections.

Theorem C79_fit_pliv : forall (E P : Type) (L : learner E row P) f g (mc : machinery E P) n dcols (iv : bool) x y d z w nj b b',
  let C := pliv_ctx L mc n dcols iv x y d z in
  (0 < n)%nat -> dcols <> [] -> soundly_reached C w -> sound_learning L f g mc w -> no_jobs_or_int nj -> (exists sm, m_smpls (w_obj w) = Some sm) ->
  (forall t col, nth_error dcols t = Some col -> ready L g mc w n t col "ml_l" "ml_l" y everyone /\ ready L g mc w n t col "ml_m" "ml_m" z everyone /\ ready L g mc w n t col "ml_r" "ml_r" (d t) everyone /\
     (iv = true -> forall v, ready L g mc w n t col "ml_g" "ml_g" v everyone)) ->
  exists w', fit C nj (PBool b) ExtNone (PBool b') w = (w', Ok tt).
Proof. exact @pliv_fit_success. Qed.
Print Assumptions C79_fit_pliv.

(** No instrument is called like a learner, see [C83_instrument_name_refuted]. *)
Theorem C79_fit_pliv_several : forall (E P : Type) (L : learner E row P) f g (mc : machinery E P) n proj dcols x y d zs w nj b b',
  let C := pliv_several_ctx L mc n proj dcols x y d zs in
  (0 < n)%nat -> dcols <> [] -> soundly_reached C w -> sound_learning L f g mc w -> no_jobs_or_int nj -> (exists sm, m_smpls (w_obj w) = Some sm) ->
  (forall t col, nth_error dcols t = Some col -> ready L g mc w n t col "ml_l" "ml_l" y everyone /\ (forall name z, In (name, z) zs -> ready L g mc w n t col ("ml_m_" ++ name)%string "ml_m" z everyone) /\ ready L g mc w n t col "ml_r" "ml_r" (d t) everyone) ->
  exists w', fit C nj (PBool b) ExtNone (PBool b') w = (w', Ok tt).
Proof. exact @pliv_several_fit_success. Qed.
Print Assumptions C79_fit_pliv_several.

Theorem C79_fit_pliv_partialled_instruments : forall (E P : Type) (L : learner E row P) f g (mc : machinery E P) n dcols x zrow y d w nj b b',
  let C := pliv_z_ctx L mc n dcols x zrow y d in
  (0 < n)%nat -> dcols <> [] -> soundly_reached C w -> sound_learning L f g mc w -> no_jobs_or_int nj -> (exists sm, m_smpls (w_obj w) = Some sm) ->
  (forall t col, nth_error dcols t = Some col -> ready L g mc w n t col "ml_r" "ml_r" (d t) everyone) ->
  exists w', fit C nj (PBool b) ExtNone (PBool b') w = (w', Ok tt).
Proof. exact @pliv_z_fit_success. Qed.
Print Assumptions C79_fit_pliv_partialled_instruments.

Theorem C79_fit_pliv_partialled_both : forall (E P : Type) (L : learner E row P) f g (mc : machinery E P) n dcols x zrow y d w nj b b',
  let C := pliv_xz_ctx L mc n dcols x zrow y d in
  (0 < n)%nat -> dcols <> [] -> soundly_reached C w -> sound_learning L f g mc w -> no_jobs_or_int nj -> (exists sm, m_smpls (w_obj w) = Some sm) ->
  (forall sm fs h, m_smpls (w_obj w) = Some sm -> In fs sm -> In h fs -> fst h <> []) ->
  (forall t col, nth_error dcols t = Some col -> ready L g mc w n t col "ml_l" "ml_l" y everyone /\
     forall lrn sm r fs, lrn = "ml_m" \/ lrn = "ml_r" -> m_smpls (w_obj w) = Some sm -> nth_error sm r = Some fs -> learns_anything L (setup_of mc n r t (fun l => nth r (m_params (w_obj w) l col) None) (fun _ => None)) lrn lrn fs) ->
  exists w', fit C nj (PBool b) ExtNone (PBool b') w = (w', Ok tt).
Proof. exact @pliv_xz_fit_success. Qed.
Print Assumptions C79_fit_pliv_partialled_both.

Theorem C79_fit_selection : forall (E P : Type) (L : learner E row P) f g (mc : machinery E P) n dcols norm tr thr x y d s strata w nj b b',
  let C := ssm_ctx L mc n dcols norm tr thr x y d s strata in
  (0 < n)%nat -> dcols <> [] -> soundly_reached C w -> sound_learning L f g mc w -> no_jobs_or_int nj -> (exists sm, m_smpls (w_obj w) = Some sm) ->
  (forall t col, nth_error dcols t = Some col -> ready L g mc w n t col "ml_pi" "ml_pi" s everyone /\ ready L g mc w n t col "ml_m" "ml_m" (d t) everyone /\
     ready L g mc w n t col "ml_g_d1" "ml_g" y (fun i => d t i = 1 /\ s i = 1) /\ ready L g mc w n t col "ml_g_d0" "ml_g" y (fun i => d t i = 0 /\ s i = 1)) ->
  exists w', fit C nj (PBool b) ExtNone (PBool b') w = (w', Ok tt).
Proof. exact @ssm_fit_success. Qed.
Print Assumptions C79_fit_selection.

Theorem C79_fit_selection_nonignorable : forall (E P : Type) (L : learner E row P) (mc : machinery E P) n tts dcols norm tr thr x zrow y d s strata w nj b b',
  let C := ssm_non_ctx L mc n tts dcols norm tr thr x zrow y d s strata in
  dcols <> [] -> soundly_reached C w -> no_jobs_or_int nj -> (exists sm, m_smpls (w_obj w) = Some sm) ->
  (forall t col sm r fs, nth_error dcols t = Some col -> m_smpls (w_obj w) = Some sm -> nth_error sm r = Some fs -> halves_usable n (tts r t) (d t) s fs /\
     forall name lrn, In (name, lrn) [("ml_pi", "ml_pi"); ("ml_m", "ml_m"); ("ml_g_d1", "ml_g"); ("ml_g_d0", "ml_g")] -> learns_anything L (setup_of mc n r t (fun l => nth r (m_params (w_obj w) l col) None) (fun _ => None)) name lrn fs) ->
  exists w', fit C nj (PBool b) ExtNone (PBool b') w = (w', Ok tt).
Proof. exact @ssm_non_fit_success. Qed.
Print Assumptions C79_fit_selection_nonignorable.

Theorem C79_fit_plr_clustered : forall (E P : Type) (L : learner E row P) f g (mc : machinery E P) n cv dcols iv bin x y d w nj b b',
  let C := clustered cv (plr_ctx L mc n dcols iv bin x y d) in
  (0 < n)%nat -> dcols <> [] -> cv <> [] -> soundly_reached C w -> sound_learning L f g mc w -> no_jobs_or_int nj -> (exists sm, m_smpls (w_obj w) = Some sm) ->
  (forall t col, nth_error dcols t = Some col -> ready L g mc w n t col "ml_l" "ml_l" y everyone /\ ready L g mc w n t col "ml_m" "ml_m" (d t) everyone /\
     (iv = true -> forall v, ready L g mc w n t col "ml_g" "ml_g" v everyone) /\ (bin t = true -> soft f g mc "ml_m")) ->
  exists w', fit C nj (PBool b) ExtNone (PBool b') w = (w', Ok tt).
Proof. exact @plr_cl_fit_success. Qed.
Print Assumptions C79_fit_plr_clustered.

Theorem C79_fit_pliv_clustered : forall (E P : Type) (L : learner E row P) f g (mc : machinery E P) n cv dcols iv x y d z w nj b b',
  let C := clustered cv (pliv_ctx L mc n dcols iv x y d z) in
  (0 < n)%nat -> dcols <> [] -> cv <> [] -> soundly_reached C w -> sound_learning L f g mc w -> no_jobs_or_int nj -> (exists sm, m_smpls (w_obj w) = Some sm) ->
  (forall t col, nth_error dcols t = Some col -> ready L g mc w n t col "ml_l" "ml_l" y everyone /\ ready L g mc w n t col "ml_m" "ml_m" z everyone /\ ready L g mc w n t col "ml_r" "ml_r" (d t) everyone /\
     (iv = true -> forall v, ready L g mc w n t col "ml_g" "ml_g" v everyone)) ->
  exists w', fit C nj (PBool b) ExtNone (PBool b') w = (w', Ok tt).
Proof. exact @pliv_cl_fit_success. Qed.
Print Assumptions C79_fit_pliv_clustered.

(** The fits of [C82_case_linear], [C82_case_effects] and [C82_case_clusters] return by these theorems. *)
Example C79_case_fits : apo_case /\ iivm_case /\ did_case "observational" /\ cs_case "observational" /\ pliv_case rz1 "IV-type" /\ ssm_case /\ plr_cl_case.
Proof. exact (conj apo_cases (conj iivm_cases (conj (did_cases _ (or_introl eq_refl)) (conj (cs_cases _ (or_introl eq_refl)) (conj (pliv_cases _ (or_intror eq_refl)) (conj ssm_cases plr_cl_cases)))))). Qed.

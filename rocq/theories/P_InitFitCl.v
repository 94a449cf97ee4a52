(** Properties of clustered fits of all model classes: C82 and C79. *)
From Verif Require Import L_InitFitCl L_InitFitClWitness L_ClusterSuccessAll.
From Coq Require Import Lia Lra.
Local Open Scope R_scope.
Local Open Scope string_scope.

(** ** C82: from the data object to the clustered estimate *)
Theorem C82_plr_iv_clustered : forall (E P : Type) (L : learner E row P) f g rd fr s cl ml_l ml_m ml_g nf nr draw C w0 w nj store ext smod w',
  S_Data.reachable fr s -> M_Data.r_cl (M_Data.dd_roles s) = Some cl -> cl <> [] -> sound_randomness rd -> (0 < M_Data.frows fr)%nat ->
  plr_init L rd fr s ml_l ml_m ml_g nf nr (PStr "IV-type") draw = Ok (C, w0) -> later C w0 w ->
  exists mc, mc_order mc = rd_order rd /\ runs_on mc "ml_l" ml_l false /\ runs_on mc "ml_m" ml_m (ly_classifier ml_m) /\ mc_learner mc "ml_g" = match ml_g with Some l => ly_obj l | None => ln_clone L (ly_obj ml_l) end /\
  let n := M_Data.frows fr in let dcols := M_Data.r_d (M_Data.dd_roles s) in let y := outcome fr s in let cv := map (fun c => value_codes (col fr c)) cl in
  (sound_learning L f g mc w ->
  labels_everywhere L g mc w n "ml_l" y everyone -> (forall c, In c dcols -> labels_everywhere L g mc w n "ml_m" (col fr c) everyone) ->
  fit C nj store ext smod w = (w', Ok tt) ->
  exists F sm, fit_done w w' F sm (length dcols) /\
    forall r t fs c, nth_error sm r = Some fs -> nth_error dcols t = Some c -> let x := covariates fr s c in let d := col fr c in exists m gg,
      used_prediction L f g mc w n ext r t c "ml_m" "ml_m" x d whole_train fs m /\
      (exists v, used_prediction L f g mc w n ext r t c "ml_g" "ml_g" x v whole_train fs gg /\
         ((forall e, ~ supplied ext c "ml_g" r e) -> exists l th, used_prediction L f g mc w n ext r t c "ml_l" "ml_l" x y whole_train fs l /\ v = (fun i => y i - th * d i) /\
           (sumf n (fun i => (d i - m i) ^ 2) <> 0 -> th = sumf n (fun i => (d i - m i) * (y i - l i)) / sumf n (fun i => (d i - m i) ^ 2)))) /\
      exists ca, clusters_of w cv r fs ca /\ (moment n (Some ca) (fun i => (d i - m i) * d i) <> 0 -> clustered_estimate_is F n t r ca (fun i => (d i - m i) * d i) (fun i => (d i - m i) * (y i - gg i)))).
Proof. exact plr_iv_cl_end. Qed.
Print Assumptions C82_plr_iv_clustered.

Theorem C82_pliv_iv_clustered : forall (E P : Type) (L : learner E row P) f g rd fr s cl zc proj ml_l ml_m ml_r ml_g nf nr draw C w0 w nj store ext smod w',
  S_Data.reachable fr s -> M_Data.r_cl (M_Data.dd_roles s) = Some cl -> cl <> [] -> sound_randomness rd -> (0 < M_Data.frows fr)%nat ->
  M_Data.r_z (M_Data.dd_roles s) = Some [zc] ->
  pliv_init L rd fr s proj ml_l ml_m ml_r ml_g nf nr (PStr "IV-type") draw = Ok (C, w0) -> later C w0 w ->
  exists mc, mc_order mc = rd_order rd /\ runs_on mc "ml_l" ml_l false /\ runs_on mc "ml_m" ml_m false /\ runs_on mc "ml_r" ml_r false /\ (exists l, ml_g = Some l /\ runs_on mc "ml_g" l false) /\
  let n := M_Data.frows fr in let dcols := M_Data.r_d (M_Data.dd_roles s) in let y := outcome fr s in let z := col fr zc in let cv := map (fun c => value_codes (col fr c)) cl in
  (sound_learning L f g mc w ->
  labels_everywhere L g mc w n "ml_l" y everyone -> labels_everywhere L g mc w n "ml_m" z everyone -> (forall c, In c dcols -> labels_everywhere L g mc w n "ml_r" (col fr c) everyone) ->
  fit C nj store ext smod w = (w', Ok tt) ->
  exists F sm, fit_done w w' F sm (length dcols) /\
    forall r t fs c, nth_error sm r = Some fs -> nth_error dcols t = Some c -> let x := covariates fr s c in let d := col fr c in exists l m q gg th,
      used_prediction L f g mc w n ext r t c "ml_l" "ml_l" x y whole_train fs l /\ used_prediction L f g mc w n ext r t c "ml_m" "ml_m" x z whole_train fs m /\
      used_prediction L f g mc w n ext r t c "ml_r" "ml_r" x d whole_train fs q /\ used_prediction L f g mc w n ext r t c "ml_g" "ml_g" x (fun i => y i - th * d i) whole_train fs gg /\
      (sumf n (fun i => (z i - m i) * (d i - q i)) <> 0 -> th = sumf n (fun i => (z i - m i) * (y i - l i)) / sumf n (fun i => (z i - m i) * (d i - q i))) /\
      exists ca, clusters_of w cv r fs ca /\ (moment n (Some ca) (fun i => (z i - m i) * d i) <> 0 -> clustered_estimate_is F n t r ca (fun i => (z i - m i) * d i) (fun i => (z i - m i) * (y i - gg i)))).
Proof. exact pliv_iv_cl_end. Qed.
Print Assumptions C82_pliv_iv_clustered.

Theorem C82_pliv_several_clustered : forall (E P : Type) (L : learner E row P) f g rd fr s cl zcs proj ml_l ml_m ml_r ml_g nf nr draw C w0 w nj store ext smod w',
  S_Data.reachable fr s -> M_Data.r_cl (M_Data.dd_roles s) = Some cl -> cl <> [] -> sound_randomness rd -> (0 < M_Data.frows fr)%nat ->
  M_Data.r_z (M_Data.dd_roles s) = Some zcs -> (2 <= length zcs)%nat ->
  pliv_init L rd fr s proj ml_l ml_m ml_r ml_g nf nr (PStr "partialling out") draw = Ok (C, w0) -> later C w0 w ->
  exists mc, mc_order mc = rd_order rd /\ runs_on mc "ml_l" ml_l false /\ runs_on mc "ml_m" ml_m false /\ runs_on mc "ml_r" ml_r false /\
  let n := M_Data.frows fr in let dcols := M_Data.r_d (M_Data.dd_roles s) in let y := outcome fr s in let zs := map (fun c => (c, col fr c)) zcs in let cv := map (fun c => value_codes (col fr c)) cl in
  (sound_learning L f g mc w ->
  labels_everywhere L g mc w n "ml_l" y everyone -> (forall name z, In (name, z) zs -> labels_everywhere L g mc w n "ml_m" z everyone) -> (forall c, In c dcols -> labels_everywhere L g mc w n "ml_r" (col fr c) everyone) ->
  fit C nj store ext smod w = (w', Ok tt) ->
  exists F sm, fit_done w w' F sm (length dcols) /\
    forall r t fs c, nth_error sm r = Some fs -> nth_error dcols t = Some c -> let x := covariates fr s c in let d := col fr c in exists l q (mf : string -> vec),
      used_prediction L f g mc w n ext r t c "ml_l" "ml_l" x y whole_train fs l /\ used_prediction L f g mc w n ext r t c "ml_r" "ml_r" x d whole_train fs q /\
      (forall name z, In (name, z) zs -> used_prediction L f g mc w n ext r t c ("ml_m_" ++ name)%string "ml_m" x z whole_train fs (mf name)) /\
      let v := fun i => map (fun p : string * vec => snd p i - mf (fst p) i) zs in
      let hat := fun i => proj (map (fun j => (v j, d j - q j)) (seq 0 n)) (v i) in
      exists ca, clusters_of w cv r fs ca /\ (moment n (Some ca) (fun i => hat i * (d i - q i)) <> 0 -> clustered_estimate_is F n t r ca (fun i => hat i * (d i - q i)) (fun i => hat i * (y i - l i)))).
Proof. exact pliv_several_cl_end. Qed.
Print Assumptions C82_pliv_several_clustered.

Theorem C82_pliv_partialled_instruments_clustered : forall (E P : Type) (L : learner E row P) f g rd fr s cl proj dummy ml_r nf nr score draw C w0 w nj store ext smod w',
  S_Data.reachable fr s -> M_Data.r_cl (M_Data.dd_roles s) = Some cl -> cl <> [] -> sound_randomness rd -> (0 < M_Data.frows fr)%nat ->
  pliv_partial_z L rd fr s proj dummy ml_r nf nr score draw = Ok (C, w0) -> later C w0 w ->
  exists mc, mc_order mc = rd_order rd /\ runs_on mc "ml_r" ml_r false /\
  let n := M_Data.frows fr in let dcols := M_Data.r_d (M_Data.dd_roles s) in let y := outcome fr s in let zrow := feats fr (M_Data.optl (M_Data.r_z (M_Data.dd_roles s))) in let cv := map (fun c => value_codes (col fr c)) cl in
  (sound_learning L f g mc w -> (forall c, In c dcols -> labels_everywhere L g mc w n "ml_r" (col fr c) everyone) ->
  fit C nj store ext smod w = (w', Ok tt) ->
  exists F sm, fit_done w w' F sm (length dcols) /\
    forall r t fs c, nth_error sm r = Some fs -> nth_error dcols t = Some c -> let x := covariates fr s c in let d := col fr c in exists q,
      cross_fitted L f g (setup_of mc n r t (fun l => nth r (m_params (w_obj w) l c) None) (fun _ => None)) "ml_r" "ml_r" (fun i => x i ++ zrow i)%list d whole_train fs q /\
      exists ca, clusters_of w cv r fs ca /\ (moment n (Some ca) (fun i => q i * d i) <> 0 -> clustered_estimate_is F n t r ca (fun i => q i * d i) (fun i => q i * y i))).
Proof. exact pliv_z_cl_end. Qed.
Print Assumptions C82_pliv_partialled_instruments_clustered.

Theorem C82_pliv_partialled_both_clustered : forall (E P : Type) (L : learner E row P) f g rd fr s cl proj ml_l ml_m ml_r nf nr score draw C w0 w nj store ext smod w',
  S_Data.reachable fr s -> M_Data.r_cl (M_Data.dd_roles s) = Some cl -> cl <> [] -> sound_randomness rd -> (0 < M_Data.frows fr)%nat ->
  pliv_partial_xz L rd fr s proj ml_l ml_m ml_r nf nr score draw = Ok (C, w0) -> later C w0 w ->
  exists mc, mc_order mc = rd_order rd /\ runs_on mc "ml_l" ml_l false /\ runs_on mc "ml_m" ml_m false /\ runs_on mc "ml_r" ml_r false /\
  let n := M_Data.frows fr in let dcols := M_Data.r_d (M_Data.dd_roles s) in let y := outcome fr s in let zrow := feats fr (M_Data.optl (M_Data.r_z (M_Data.dd_roles s))) in let cv := map (fun c => value_codes (col fr c)) cl in
  (sound_learning L f g mc w -> labels_everywhere L g mc w n "ml_l" y everyone ->
  fit C nj store ext smod w = (w', Ok tt) ->
  exists F sm, fit_done w w' F sm (length dcols) /\
    forall r t fs c, nth_error sm r = Some fs -> nth_error dcols t = Some c -> let x := covariates fr s c in let d := col fr c in exists l m mt,
      cross_fitted L f g (setup_of mc n r t (fun l => nth r (m_params (w_obj w) l c) None) (fun _ => None)) "ml_l" "ml_l" x y whole_train fs l /\
      projected L f (setup_of mc n r t (fun l => nth r (m_params (w_obj w) l c) None) (fun _ => None)) x (fun i => x i ++ zrow i)%list d fs m mt /\
      exists ca, clusters_of w cv r fs ca /\ (moment n (Some ca) (fun i => (m i - mt i) * (d i - mt i)) <> 0 -> clustered_estimate_is F n t r ca (fun i => (m i - mt i) * (d i - mt i)) (fun i => (m i - mt i) * (y i - l i)))).
Proof. exact pliv_xz_cl_end. Qed.
Print Assumptions C82_pliv_partialled_both_clustered.

Theorem C82_interactive_clustered : forall (E P : Type) (L : learner E row P) f g rd fr s cl ml_g ml_m nf nr wa nm rule thr draw C w0 w nj store ext smod w',
  S_Data.reachable fr s -> M_Data.r_cl (M_Data.dd_roles s) = Some cl -> cl <> [] -> sound_randomness rd -> (0 < M_Data.frows fr)%nat ->
  irm_init L rd fr s ml_g ml_m nf nr (PStr "ATE") wa (PBool nm) rule (PFloat thr) draw = Ok (C, w0) -> later C w0 w ->
  exists dcol mc, binary_treatment fr s dcol /\ mc_order mc = rd_order rd /\ runs_on mc "ml_g" ml_g (ly_classifier ml_g) /\ runs_on mc "ml_m" ml_m true /\
  let n := M_Data.frows fr in let x := covariates fr s dcol in let y := outcome fr s in let d := col fr dcol in let cv := map (fun c => value_codes (col fr c)) cl in
  (sound_learning L f g mc w ->
  labels_everywhere L g mc w n "ml_g" y (fun j => d j = 0) -> labels_everywhere L g mc w n "ml_g" y (fun j => d j = 1) -> labels_everywhere L g mc w n "ml_m" d everyone ->
  fit C nj store ext smod w = (w', Ok tt) ->
  exists F sm, fit_done w w' F sm 1 /\ forall r fs, nth_error sm r = Some fs -> (r < m_n_rep (w_obj w0))%nat -> exists g0 g1 m0 m,
      used_prediction L f g mc w n ext r 0 dcol "ml_g0" "ml_g" x y (group_rows n (fun j => d j = 0)) fs g0 /\
      used_prediction L f g mc w n ext r 0 dcol "ml_g1" "ml_g" x y (group_rows n (fun j => d j = 1)) fs g1 /\
      used_prediction L f g mc w n ext r 0 dcol "ml_m" "ml_m" x d whole_train fs m0 /\ clipped n true thr m0 m /\
      let W := weights_of wa r in
      let ma := ps_adjust n m d nm in
      let s := fun i => wg W i * (g1 i - g0 i) + resid_weights W i * (d i * (y i - g1 i) / ma i - (1 - d i) * (y i - g0 i) / (1 - ma i)) in
      (off_bounds n ma -> exists ca, clusters_of w cv r fs ca /\ (moment n (Some ca) (fun i => wg W i / meanf n (wg W)) <> 0 -> clustered_estimate_is F n 0 r ca (fun i => wg W i / meanf n (wg W)) (s)))).
Proof. exact irm_cl_end. Qed.
Print Assumptions C82_interactive_clustered.

Theorem C82_treated_clustered : forall (E P : Type) (L : learner E row P) f g rd fr s cl ml_g ml_m nf nr wa nm rule thr draw C w0 w nj store ext smod w',
  S_Data.reachable fr s -> M_Data.r_cl (M_Data.dd_roles s) = Some cl -> cl <> [] -> sound_randomness rd -> (0 < M_Data.frows fr)%nat ->
  irm_init L rd fr s ml_g ml_m nf nr (PStr "ATTE") wa (PBool nm) rule (PFloat thr) draw = Ok (C, w0) -> later C w0 w ->
  exists dcol mc, binary_treatment fr s dcol /\ mc_order mc = rd_order rd /\ runs_on mc "ml_g" ml_g (ly_classifier ml_g) /\ runs_on mc "ml_m" ml_m true /\
  let n := M_Data.frows fr in let x := covariates fr s dcol in let y := outcome fr s in let d := col fr dcol in let cv := map (fun c => value_codes (col fr c)) cl in
  (sound_learning L f g mc w ->
  labels_everywhere L g mc w n "ml_g" y (fun j => d j = 0) -> labels_everywhere L g mc w n "ml_g" y (fun j => d j = 1) -> labels_everywhere L g mc w n "ml_m" d everyone ->
  fit C nj store ext smod w = (w', Ok tt) ->
  exists F sm, fit_done w w' F sm 1 /\ forall r fs, nth_error sm r = Some fs -> exists g0 g1 m0 m,
      used_prediction L f g mc w n ext r 0 dcol "ml_g0" "ml_g" x y (group_rows n (fun j => d j = 0)) fs g0 /\
      used_prediction L f g mc w n ext r 0 dcol "ml_g1" "ml_g" x y (group_rows n (fun j => d j = 1)) fs g1 /\
      used_prediction L f g mc w n ext r 0 dcol "ml_m" "ml_m" x d whole_train fs m0 /\ clipped n true thr m0 m /\
      let ma := ps_adjust n m d nm in
      let W := wg (weights_of wa r) in
      let s := fun i => W i * (d i * (y i - g0 i) - (1 - d i) * (ma i / (1 - ma i)) * (y i - g0 i)) in
      let p := meanf n (fun i => W i * d i) in
      (p <> 0 -> off_bounds n ma -> exists ca, clusters_of w cv r fs ca /\ (moment n (Some ca) (fun i => W i * d i / p) <> 0 -> clustered_estimate_is F n 0 r ca (fun i => W i * d i / p) (fun i => s i / p)))).
Proof. exact atte_cl_end. Qed.
Print Assumptions C82_treated_clustered.

Theorem C82_potential_outcome_clustered : forall (E P : Type) (L : learner E row P) f g rd fr s cl ml_g ml_m level nf nr score wa nm rule thr draw C w0 w nj store ext smod w',
  S_Data.reachable fr s -> M_Data.r_cl (M_Data.dd_roles s) = Some cl -> cl <> [] -> sound_randomness rd -> (0 < M_Data.frows fr)%nat ->
  apo_init L rd fr s ml_g ml_m level nf nr score wa (PBool nm) rule (PFloat thr) draw = Ok (C, w0) -> later C w0 w ->
  exists dcol mc, M_Data.r_d (M_Data.dd_roles s) = [dcol] /\ mc_order mc = rd_order rd /\ runs_on mc "ml_g" ml_g (ly_classifier ml_g) /\ runs_on mc "ml_m" ml_m true /\
  let n := M_Data.frows fr in let x := covariates fr s dcol in let y := outcome fr s in let lvl := at_level level (col fr dcol) in let cv := map (fun c => value_codes (col fr c)) cl in
  (sound_learning L f g mc w ->
  labels_everywhere L g mc w n "ml_g" y (fun j => lvl j = 0) -> labels_everywhere L g mc w n "ml_g" y (fun j => lvl j = 1) -> labels_everywhere L g mc w n "ml_m" lvl everyone ->
  fit C nj store ext smod w = (w', Ok tt) ->
  exists F sm, fit_done w w' F sm 1 /\ forall r fs, nth_error sm r = Some fs -> (r < m_n_rep (w_obj w0))%nat -> exists g1 m0 m,
      used_prediction L f g mc w n ext r 0 dcol "ml_g_d_lvl1" "ml_g" x y (group_rows n (fun j => lvl j = 1)) fs g1 /\
      used_prediction L f g mc w n ext r 0 dcol "ml_m" "ml_m" x lvl whole_train fs m0 /\ clipped n true thr m0 m /\
      let W := weights_of wa r in
      let s := fun i => wg W i * g1 i + resid_weights W i * (lvl i * (y i - g1 i) / ps_adjust n m lvl nm i) in
      ((forall i, (i < n)%nat -> ps_adjust n m lvl nm i <> 0) -> exists ca, clusters_of w cv r fs ca /\ (moment n (Some ca) (fun i => wg W i / meanf n (wg W)) <> 0 -> clustered_estimate_is F n 0 r ca (fun i => wg W i / meanf n (wg W)) (s)))).
Proof. exact apo_cl_end. Qed.
Print Assumptions C82_potential_outcome_clustered.

Theorem C82_local_effect_clustered : forall (E P : Type) (L : learner E row P) f g rd fr s cl ml_g ml_m ml_r nf nr score sg nm rule thr draw C w0 w nj store ext smod w',
  S_Data.reachable fr s -> M_Data.r_cl (M_Data.dd_roles s) = Some cl -> cl <> [] -> sound_randomness rd -> (0 < M_Data.frows fr)%nat ->
  iivm_init L rd fr s ml_g ml_m ml_r nf nr score sg (PBool nm) rule (PFloat thr) draw = Ok (C, w0) -> later C w0 w ->
  exists dcol zc mc at1 nt1, binary_treatment fr s dcol /\ M_Data.r_z (M_Data.dd_roles s) = Some [zc] /\ S_Data.zero_one_column fr zc /\ mc_order mc = rd_order rd /\ runs_on mc "ml_g" ml_g (ly_classifier ml_g) /\ runs_on mc "ml_m" ml_m true /\ runs_on mc "ml_r" ml_r true /\ subgroups_are sg at1 nt1 /\
  let n := M_Data.frows fr in let x := covariates fr s dcol in let y := outcome fr s in let d := col fr dcol in let z := col fr zc in let cv := map (fun c => value_codes (col fr c)) cl in
  (sound_learning L f g mc w ->
  (forall v, v = 0 \/ v = 1 -> labels_everywhere L g mc w n "ml_g" y (fun j => z j = v)) -> labels_everywhere L g mc w n "ml_m" z everyone -> (forall v, v = 0 /\ at1 = true \/ v = 1 /\ nt1 = true -> labels_everywhere L g mc w n "ml_r" d (fun j => z j = v)) ->
  fit C nj store ext smod w = (w', Ok tt) ->
  exists F sm, fit_done w w' F sm 1 /\ forall r fs, nth_error sm r = Some fs -> exists g0 g1 m0 m r0 r1,
      used_prediction L f g mc w n ext r 0 dcol "ml_g0" "ml_g" x y (group_rows n (fun j => z j = 0)) fs g0 /\
      used_prediction L f g mc w n ext r 0 dcol "ml_g1" "ml_g" x y (group_rows n (fun j => z j = 1)) fs g1 /\
      used_prediction L f g mc w n ext r 0 dcol "ml_m" "ml_m" x z whole_train fs m0 /\ clipped n true thr m0 m /\
      (if at1 then used_prediction L f g mc w n ext r 0 dcol "ml_r0" "ml_r" x d (group_rows n (fun j => z j = 0)) fs r0 else forall i, (i < n)%nat -> r0 i = 0) /\
      (if nt1 then used_prediction L f g mc w n ext r 0 dcol "ml_r1" "ml_r" x d (group_rows n (fun j => z j = 1)) fs r1 else forall i, (i < n)%nat -> r1 i = 1) /\
      let ma := iivm_adjust n nm d m in
      let sy := dr_signal y z g0 g1 ma in
      let sd := dr_signal d z r0 r1 ma in
      (off_bounds n ma -> exists ca, clusters_of w cv r fs ca /\ (moment n (Some ca) (sd) <> 0 -> clustered_estimate_is F n 0 r ca (sd) (sy)))).
Proof. exact iivm_cl_end. Qed.
Print Assumptions C82_local_effect_clustered.

Theorem C82_differences_clustered : forall (E P : Type) (L : learner E row P) f g rd fr s cl ml_g ml_m nf nr nm rule thr draw C w0 w nj store ext smod w',
  S_Data.reachable fr s -> M_Data.r_cl (M_Data.dd_roles s) = Some cl -> cl <> [] -> sound_randomness rd -> (0 < M_Data.frows fr)%nat ->
  did_init L rd fr s ml_g ml_m nf nr (PStr "observational") (PBool nm) rule (PFloat thr) draw = Ok (C, w0) -> later C w0 w ->
  exists dcol mc, binary_treatment fr s dcol /\ mc_order mc = rd_order rd /\ runs_on mc "ml_g" ml_g (ly_classifier ml_g) /\ (exists l, ml_m = Some l /\ runs_on mc "ml_m" l true) /\
  let n := M_Data.frows fr in let x := covariates fr s dcol in let y := outcome fr s in let d := col fr dcol in let cv := map (fun c => value_codes (col fr c)) cl in
  (sound_learning L f g mc w ->
  labels_everywhere L g mc w n "ml_g" y (fun j => d j = 0) -> labels_everywhere L g mc w n "ml_g" y (fun j => d j = 1) -> labels_everywhere L g mc w n "ml_m" d everyone ->
  fit C nj store ext smod w = (w', Ok tt) ->
  exists F sm, fit_done w w' F sm 1 /\ forall r fs, nth_error sm r = Some fs -> exists g0 m0 m p,
      used_prediction L f g mc w n ext r 0 dcol "ml_g0" "ml_g" x y (group_rows n (fun j => d j = 0)) fs g0 /\
      used_prediction L f g mc w n ext r 0 dcol "ml_m" "ml_m" x d whole_train fs m0 /\ clipped n true thr m0 m /\ share_of fs d p /\
      let odds := fun i => (1 - d i) * (m i / (1 - m i)) in
      let a := share_weight n nm d p in
      let s := fun i => (a i - share_weight n nm odds p i) * (y i - g0 i) in
      (share_ok n nm d p -> share_ok n nm odds p -> exists ca, clusters_of w cv r fs ca /\ (moment n (Some ca) (a) <> 0 -> clustered_estimate_is F n 0 r ca (a) (s)))).
Proof. exact did_obs_cl_end. Qed.
Print Assumptions C82_differences_clustered.

Theorem C82_differences_experimental_clustered : forall (E P : Type) (L : learner E row P) f g rd fr s cl ml_g ml_m nf nr nm rule thr draw C w0 w nj store ext smod w',
  S_Data.reachable fr s -> M_Data.r_cl (M_Data.dd_roles s) = Some cl -> cl <> [] -> sound_randomness rd -> (0 < M_Data.frows fr)%nat ->
  did_init L rd fr s ml_g ml_m nf nr (PStr "experimental") (PBool nm) rule (PFloat thr) draw = Ok (C, w0) -> later C w0 w ->
  exists dcol mc, binary_treatment fr s dcol /\ mc_order mc = rd_order rd /\ runs_on mc "ml_g" ml_g (ly_classifier ml_g) /\
  let n := M_Data.frows fr in let x := covariates fr s dcol in let y := outcome fr s in let d := col fr dcol in let cv := map (fun c => value_codes (col fr c)) cl in
  (sound_learning L f g mc w ->
  labels_everywhere L g mc w n "ml_g" y (fun j => d j = 0) -> labels_everywhere L g mc w n "ml_g" y (fun j => d j = 1) ->
  fit C nj store ext smod w = (w', Ok tt) ->
  exists F sm, fit_done w w' F sm 1 /\ forall r fs, nth_error sm r = Some fs -> exists g0 g1 p,
      used_prediction L f g mc w n ext r 0 dcol "ml_g0" "ml_g" x y (group_rows n (fun j => d j = 0)) fs g0 /\
      used_prediction L f g mc w n ext r 0 dcol "ml_g1" "ml_g" x y (group_rows n (fun j => d j = 1)) fs g1 /\ share_of fs d p /\
      let a := share_weight n nm d p in
      let s := fun i => g1 i - g0 i + a i * (y i - g1 i) - share_weight n nm (compl d) (compl p) i * (y i - g0 i) in
      (share_ok n nm d p -> share_ok n nm (compl d) (compl p) -> exists ca, clusters_of w cv r fs ca /\ (moment n (Some ca) (fun _ : nat => 1) <> 0 -> clustered_estimate_is F n 0 r ca (fun _ : nat => 1) (s)))).
Proof. exact did_exp_cl_end. Qed.
Print Assumptions C82_differences_experimental_clustered.

Theorem C82_cross_sections_clustered : forall (E P : Type) (L : learner E row P) f g rd fr s cl ml_g ml_m nf nr nm rule thr draw C w0 w nj store ext smod w',
  S_Data.reachable fr s -> M_Data.r_cl (M_Data.dd_roles s) = Some cl -> cl <> [] -> sound_randomness rd -> (0 < M_Data.frows fr)%nat ->
  cs_init L rd fr s ml_g ml_m nf nr (PStr "observational") (PBool nm) rule (PFloat thr) draw = Ok (C, w0) -> later C w0 w ->
  exists dcol tcol mc, binary_treatment fr s dcol /\ M_Data.r_t (M_Data.dd_roles s) = Some tcol /\ S_Data.zero_one_column fr tcol /\ mc_order mc = rd_order rd /\ runs_on mc "ml_g" ml_g (ly_classifier ml_g) /\ (exists l, ml_m = Some l /\ runs_on mc "ml_m" l true) /\
  let n := M_Data.frows fr in let x := covariates fr s dcol in let y := outcome fr s in let d := col fr dcol in let t := col fr tcol in let cv := map (fun c => value_codes (col fr c)) cl in
  (sound_learning L f g mc w ->
  (forall a b, (a = 0 \/ a = 1) -> (b = 0 \/ b = 1) -> labels_everywhere L g mc w n "ml_g" y (fun j => d j = a /\ t j = b)) -> labels_everywhere L g mc w n "ml_m" d everyone ->
  fit C nj store ext smod w = (w', Ok tt) ->
  exists F sm, fit_done w w' F sm 1 /\ forall r fs, nth_error sm r = Some fs -> exists g00 g01 g10 g11 m0 m p lam,
      used_prediction L f g mc w n ext r 0 dcol "ml_g_d0_t0" "ml_g" x y (group_rows n (fun j => d j = 0 /\ t j = 0)) fs g00 /\
      used_prediction L f g mc w n ext r 0 dcol "ml_g_d0_t1" "ml_g" x y (group_rows n (fun j => d j = 0 /\ t j = 1)) fs g01 /\
      used_prediction L f g mc w n ext r 0 dcol "ml_g_d1_t0" "ml_g" x y (group_rows n (fun j => d j = 1 /\ t j = 0)) fs g10 /\
      used_prediction L f g mc w n ext r 0 dcol "ml_g_d1_t1" "ml_g" x y (group_rows n (fun j => d j = 1 /\ t j = 1)) fs g11 /\
      used_prediction L f g mc w n ext r 0 dcol "ml_m" "ml_m" x d whole_train fs m0 /\ clipped n true thr m0 m /\ share_of fs d p /\ share_of fs t lam /\
      let odds := fun i => m i / (1 - m i) in
      let d0t1 := fun i => (1 - d i) * t i * odds i in
      let d0t0 := fun i => (1 - d i) * (1 - t i) * odds i in
      let q1 := fun i => p i * lam i in let q0 := fun i => p i * (1 - lam i) in
      let a := share_weight n nm d p in
      let s := fun i => a i * (g11 i - g10 i - (g01 i - g00 i)) +
        share_weight n nm (both d t) q1 i * (y i - g11 i) - share_weight n nm (both d (compl t)) q0 i * (y i - g10 i) -
        (share_weight n nm d0t1 q1 i * (y i - g01 i) - share_weight n nm d0t0 q0 i * (y i - g00 i)) in
      (share_ok n nm d p -> share_ok n nm (both d t) q1 -> share_ok n nm (both d (compl t)) q0 -> share_ok n nm d0t1 q1 -> share_ok n nm d0t0 q0 -> exists ca, clusters_of w cv r fs ca /\ (moment n (Some ca) (a) <> 0 -> clustered_estimate_is F n 0 r ca (a) (s)))).
Proof. exact cs_obs_cl_end. Qed.
Print Assumptions C82_cross_sections_clustered.

Theorem C82_cross_sections_experimental_clustered : forall (E P : Type) (L : learner E row P) f g rd fr s cl ml_g ml_m nf nr nm rule thr draw C w0 w nj store ext smod w',
  S_Data.reachable fr s -> M_Data.r_cl (M_Data.dd_roles s) = Some cl -> cl <> [] -> sound_randomness rd -> (0 < M_Data.frows fr)%nat ->
  cs_init L rd fr s ml_g ml_m nf nr (PStr "experimental") (PBool nm) rule (PFloat thr) draw = Ok (C, w0) -> later C w0 w ->
  exists dcol tcol mc, binary_treatment fr s dcol /\ M_Data.r_t (M_Data.dd_roles s) = Some tcol /\ S_Data.zero_one_column fr tcol /\ mc_order mc = rd_order rd /\ runs_on mc "ml_g" ml_g (ly_classifier ml_g) /\
  let n := M_Data.frows fr in let x := covariates fr s dcol in let y := outcome fr s in let d := col fr dcol in let t := col fr tcol in let cv := map (fun c => value_codes (col fr c)) cl in
  (sound_learning L f g mc w ->
  (forall a b, (a = 0 \/ a = 1) -> (b = 0 \/ b = 1) -> labels_everywhere L g mc w n "ml_g" y (fun j => d j = a /\ t j = b)) ->
  fit C nj store ext smod w = (w', Ok tt) ->
  exists F sm, fit_done w w' F sm 1 /\ forall r fs, nth_error sm r = Some fs -> exists g00 g01 g10 g11 p lam,
      used_prediction L f g mc w n ext r 0 dcol "ml_g_d0_t0" "ml_g" x y (group_rows n (fun j => d j = 0 /\ t j = 0)) fs g00 /\
      used_prediction L f g mc w n ext r 0 dcol "ml_g_d0_t1" "ml_g" x y (group_rows n (fun j => d j = 0 /\ t j = 1)) fs g01 /\
      used_prediction L f g mc w n ext r 0 dcol "ml_g_d1_t0" "ml_g" x y (group_rows n (fun j => d j = 1 /\ t j = 0)) fs g10 /\
      used_prediction L f g mc w n ext r 0 dcol "ml_g_d1_t1" "ml_g" x y (group_rows n (fun j => d j = 1 /\ t j = 1)) fs g11 /\
      share_of fs d p /\ share_of fs t lam /\
      let q11 := fun i => p i * lam i in let q10 := fun i => p i * (1 - lam i) in
      let q01 := fun i => (1 - p i) * lam i in let q00 := fun i => (1 - p i) * (1 - lam i) in
      let s := fun i => g11 i - g10 i - (g01 i - g00 i) +
        share_weight n nm (both d t) q11 i * (y i - g11 i) - share_weight n nm (both d (compl t)) q10 i * (y i - g10 i) -
        (share_weight n nm (both (compl d) t) q01 i * (y i - g01 i) - share_weight n nm (both (compl d) (compl t)) q00 i * (y i - g00 i)) in
      (share_ok n nm (both d t) q11 -> share_ok n nm (both d (compl t)) q10 -> share_ok n nm (both (compl d) t) q01 -> share_ok n nm (both (compl d) (compl t)) q00 ->
       exists ca, clusters_of w cv r fs ca /\ (moment n (Some ca) (fun _ : nat => 1) <> 0 -> clustered_estimate_is F n 0 r ca (fun _ : nat => 1) (s)))).
Proof. exact cs_exp_cl_end. Qed.
Print Assumptions C82_cross_sections_experimental_clustered.

Theorem C82_selection_clustered : forall (E P : Type) (L : learner E row P) f g rd fr s cl tts ml_g ml_pi ml_m nf nr nm rule thr draw C w0 w nj store ext smod w',
  S_Data.reachable fr s -> M_Data.r_cl (M_Data.dd_roles s) = Some cl -> cl <> [] -> sound_randomness rd -> (0 < M_Data.frows fr)%nat ->
  ssm_init L rd fr s tts ml_g ml_pi ml_m nf nr (PStr "missing-at-random") (PBool nm) rule (PFloat thr) draw = Ok (C, w0) -> later C w0 w ->
  exists scol mc, M_Data.r_s (M_Data.dd_roles s) = Some scol /\ mc_order mc = rd_order rd /\ clone_of L mc "ml_g" ml_g (ly_classifier ml_g) /\ clone_of L mc "ml_pi" ml_pi true /\ clone_of L mc "ml_m" ml_m true /\
  let n := M_Data.frows fr in let dcols := M_Data.r_d (M_Data.dd_roles s) in let y := outcome fr s in let sel := col fr scol in let cv := map (fun c => value_codes (col fr c)) cl in
  (sound_learning L f g mc w ->
  labels_everywhere L g mc w n "ml_pi" sel everyone -> (forall c, In c dcols -> labels_everywhere L g mc w n "ml_m" (col fr c) everyone) -> (forall c v, In c dcols -> v = 0 \/ v = 1 -> labels_everywhere L g mc w n "ml_g" y (fun j => col fr c j = v /\ sel j = 1)) ->
  fit C nj store ext smod w = (w', Ok tt) ->
  exists F sm, fit_done w w' F sm (length dcols) /\ forall r t fs c, nth_error sm r = Some fs -> nth_error dcols t = Some c -> let x := covariates fr s c in let d := col fr c in exists pi m0 m g1 g0,
      cross_fitted L f g (setup_of mc n r t (fun l => nth r (m_params (w_obj w) l c) None) (fun _ => None)) "ml_pi" "ml_pi" (fun i => x i ++ [d i])%list sel whole_train fs pi /\
      cross_fitted L f g (setup_of mc n r t (fun l => nth r (m_params (w_obj w) l c) None) (fun _ => None)) "ml_m" "ml_m" x d whole_train fs m0 /\ clipped n true thr m0 m /\
      cross_fitted L f g (setup_of mc n r t (fun l => nth r (m_params (w_obj w) l c) None) (fun _ => None)) "ml_g_d1" "ml_g" x y (group_rows n (fun j => d j = 1 /\ sel j = 1)) fs g1 /\
      cross_fitted L f g (setup_of mc n r t (fun l => nth r (m_params (w_obj w) l c) None) (fun _ => None)) "ml_g_d0" "ml_g" x y (group_rows n (fun j => d j = 0 /\ sel j = 1)) fs g0 /\
      (binary n d -> off_bounds n m -> (forall i, (i < n)%nat -> pi i <> 0) ->
       let w1 := if nm then sumf n d / sumf n (fun i => d i * sel i / (pi i * m i)) else 1 in
       let w0 := if nm then sumf n (compl d) / sumf n (fun i => (1 - d i) * sel i / (pi i * (1 - m i))) else 1 in
       let v := fun i => g1 i + w1 * (d i * sel i * (y i - g1 i) / (m i * pi i)) - (g0 i + w0 * ((1 - d i) * sel i * (y i - g0 i) / ((1 - m i) * pi i))) in
       (nm = true -> sumf n (fun i => d i * sel i / (pi i * m i)) <> 0 /\ sumf n (fun i => (1 - d i) * sel i / (pi i * (1 - m i))) <> 0) ->
       exists ca, clusters_of w cv r fs ca /\ (moment n (Some ca) (fun _ : nat => 1) <> 0 -> clustered_estimate_is F n t r ca (fun _ : nat => 1) (v)))).
Proof. exact ssm_cl_end. Qed.
Print Assumptions C82_selection_clustered.

Theorem C82_selection_nonignorable_clustered : forall (E P : Type) (L : learner E row P) f g rd fr s cl tts ml_g ml_pi ml_m nf nr nm rule thr draw C w0 w nj store ext smod w',
  S_Data.reachable fr s -> M_Data.r_cl (M_Data.dd_roles s) = Some cl -> cl <> [] -> sound_randomness rd -> (0 < M_Data.frows fr)%nat ->
  ssm_init L rd fr s tts ml_g ml_pi ml_m nf nr (PStr "nonignorable") (PBool nm) rule (PFloat thr) draw = Ok (C, w0) -> later C w0 w ->
  exists scol mc, M_Data.r_s (M_Data.dd_roles s) = Some scol /\ mc_order mc = rd_order rd /\ clone_of L mc "ml_g" ml_g (ly_classifier ml_g) /\ clone_of L mc "ml_pi" ml_pi true /\ clone_of L mc "ml_m" ml_m true /\
  let n := M_Data.frows fr in let dcols := M_Data.r_d (M_Data.dd_roles s) in let y := outcome fr s in let zrow := feats fr (M_Data.optl (M_Data.r_z (M_Data.dd_roles s))) in let sel := col fr scol in let cv := map (fun c => value_codes (col fr c)) cl in
  (sound_learning L f g mc w -> classifier_ok L g ->
  fit C nj store ext smod w = (w', Ok tt) ->
  exists F sm, fit_done w w' F sm (length dcols) /\ forall r t fs c, nth_error sm r = Some fs -> nth_error dcols t = Some c -> let x := covariates fr s c in let d := col fr c in exists pi m0 m g1 g0,
      nested_selection L f g (setup_of mc n r t (fun l => nth r (m_params (w_obj w) l c) None) (fun _ => None)) (tts r t) x zrow y d sel fs pi m0 g1 g0 /\ clipped n true thr m0 m /\
      (binary n d -> off_bounds n m -> (forall i, (i < n)%nat -> pi i <> 0) ->
       let w1 := if nm then sumf n d / sumf n (fun i => d i * sel i / (pi i * m i)) else 1 in
       let w0 := if nm then sumf n (compl d) / sumf n (fun i => (1 - d i) * sel i / (pi i * (1 - m i))) else 1 in
       let v := fun i => g1 i + w1 * (d i * sel i * (y i - g1 i) / (m i * pi i)) - (g0 i + w0 * ((1 - d i) * sel i * (y i - g0 i) / ((1 - m i) * pi i))) in
       (nm = true -> sumf n (fun i => d i * sel i / (pi i * m i)) <> 0 /\ sumf n (fun i => (1 - d i) * sel i / (pi i * (1 - m i))) <> 0) ->
       exists ca, clusters_of w cv r fs ca /\ (moment n (Some ca) (fun _ : nat => 1) <> 0 -> clustered_estimate_is F n t r ca (fun _ : nat => 1) (v)))).
Proof. exact ssm_non_cl_end. Qed.
Print Assumptions C82_selection_nonignorable_clustered.

(** Every class on the 8 rows of [i_frame] with the clusters "c": constructed and fitted. *)
Example C82_case_clustered_effects : irm_cl_case "ATE" /\ irm_cl_case "ATTE" /\ apo_cl_case /\ iivm_cl_case /\ did_cl_case "observational" /\ did_cl_case "experimental" /\ cs_cl_case "observational" /\ cs_cl_case "experimental" /\ ssm_cl_case.
Proof. exact (conj (irm_cl_cases _ (or_introl eq_refl)) (conj (irm_cl_cases _ (or_intror eq_refl)) (conj apo_cl_cases (conj iivm_cl_cases (conj (did_cl_cases _ (or_introl eq_refl)) (conj (did_cl_cases _ (or_intror eq_refl)) (conj (cs_cl_cases _ (or_introl eq_refl)) (conj (cs_cl_cases _ (or_intror eq_refl)) ssm_cl_cases)))))))). Qed.
Example C82_case_clustered_instruments : pliv_many_cl_case /\ pliv_z_cl_case.
Proof. exact (conj pliv_many_cl_cases pliv_z_cl_cases). Qed.

(** ** C79: a clustered fit succeeds when its learners can be trained *)
Theorem C79_fit_irm_clustered : forall (E P : Type) (L : learner E row P) f g (mc : machinery E P) n cv dcol atte norm bin tr thr wt x y d strata w nj b b',
  let C := clustered cv (irm_ctx L mc n dcol atte norm bin tr thr wt x y d strata) in
  (0 < n)%nat -> cv <> [] -> soundly_reached C w -> sound_learning L f g mc w -> no_jobs_or_int nj -> (exists sm, m_smpls (w_obj w) = Some sm) ->
  ready L g mc w n 0 dcol "ml_g0" "ml_g" y (fun i => d i = 0) -> ready L g mc w n 0 dcol "ml_g1" "ml_g" y (fun i => d i = 1) -> ready L g mc w n 0 dcol "ml_m" "ml_m" d everyone ->
  (bin = true -> soft f g mc "ml_g") -> exists w', fit C nj (PBool b) ExtNone (PBool b') w = (w', Ok tt).
Proof. exact @irm_cl_fit_success. Qed.
Print Assumptions C79_fit_irm_clustered.

Theorem C79_fit_apo_clustered : forall (E P : Type) (L : learner E row P) f g (mc : machinery E P) n cv dcol norm bin tr thr wt x y d lvl strata w nj b b',
  let C := clustered cv (apo_ctx L mc n dcol norm bin tr thr wt x y d lvl strata) in
  (0 < n)%nat -> cv <> [] -> soundly_reached C w -> sound_learning L f g mc w -> no_jobs_or_int nj -> (exists sm, m_smpls (w_obj w) = Some sm) ->
  ready L g mc w n 0 dcol "ml_g_d_lvl0" "ml_g" y (fun i => lvl i = 0) -> ready L g mc w n 0 dcol "ml_g_d_lvl1" "ml_g" y (fun i => lvl i = 1) -> ready L g mc w n 0 dcol "ml_m" "ml_m" lvl everyone ->
  (bin = true -> soft f g mc "ml_g") ->
  exists w', fit C nj (PBool b) ExtNone (PBool b') w = (w', Ok tt).
Proof. exact @apo_cl_fit_success. Qed.
Print Assumptions C79_fit_apo_clustered.

Theorem C79_fit_iivm_clustered : forall (E P : Type) (L : learner E row P) f g (mc : machinery E P) n cv dcol norm bin at_ nt tr thr x y z d strata w nj b b',
  let C := clustered cv (iivm_ctx L mc n dcol norm bin at_ nt tr thr x y z d strata) in
  (0 < n)%nat -> cv <> [] -> soundly_reached C w -> sound_learning L f g mc w -> no_jobs_or_int nj -> (exists sm, m_smpls (w_obj w) = Some sm) ->
  ready L g mc w n 0 dcol "ml_g0" "ml_g" y (fun i => z i = 0) -> ready L g mc w n 0 dcol "ml_g1" "ml_g" y (fun i => z i = 1) -> ready L g mc w n 0 dcol "ml_m" "ml_m" z everyone ->
  (at_ = true -> ready L g mc w n 0 dcol "ml_r0" "ml_r" d (fun i => z i = 0)) -> (nt = true -> ready L g mc w n 0 dcol "ml_r1" "ml_r" d (fun i => z i = 1)) ->
  (bin = true -> soft f g mc "ml_g") ->
  exists w', fit C nj (PBool b) ExtNone (PBool b') w = (w', Ok tt).
Proof. exact @iivm_cl_fit_success. Qed.
Print Assumptions C79_fit_iivm_clustered.

Theorem C79_fit_did_clustered : forall (E P : Type) (L : learner E row P) f g (mc : machinery E P) n cv dcol (obs : bool) norm tr thr x y d strata w nj b b',
  let C := clustered cv (did_ctx L mc n dcol obs norm tr thr x y d strata) in
  (0 < n)%nat -> cv <> [] -> soundly_reached C w -> sound_learning L f g mc w -> no_jobs_or_int nj -> (exists sm, m_smpls (w_obj w) = Some sm) ->
  ready L g mc w n 0 dcol "ml_g0" "ml_g" y (fun i => d i = 0) -> ready L g mc w n 0 dcol "ml_g1" "ml_g" y (fun i => d i = 1) -> (obs = true -> ready L g mc w n 0 dcol "ml_m" "ml_m" d everyone) ->
  exists w', fit C nj (PBool b) ExtNone (PBool b') w = (w', Ok tt).
Proof. exact @did_cl_fit_success. Qed.
Print Assumptions C79_fit_did_clustered.

Theorem C79_fit_cs_clustered : forall (E P : Type) (L : learner E row P) f g (mc : machinery E P) n cv dcol (obs : bool) norm tr thr x y d t strata w nj b b',
  let C := clustered cv (cs_ctx L mc n dcol obs norm tr thr x y d t strata) in
  (0 < n)%nat -> cv <> [] -> soundly_reached C w -> sound_learning L f g mc w -> no_jobs_or_int nj -> (exists sm, m_smpls (w_obj w) = Some sm) ->
  (forall a c name, In (name, (a, c)) [("ml_g_d0_t0", (0, 0)); ("ml_g_d0_t1", (0, 1)); ("ml_g_d1_t0", (1, 0)); ("ml_g_d1_t1", (1, 1))] -> ready L g mc w n 0 dcol name "ml_g" y (fun i => d i = a /\ t i = c)) ->
  (obs = true -> ready L g mc w n 0 dcol "ml_m" "ml_m" d everyone) ->
  exists w', fit C nj (PBool b) ExtNone (PBool b') w = (w', Ok tt).
Proof. exact @cs_cl_fit_success. Qed.
Print Assumptions C79_fit_cs_clustered.

Theorem C79_fit_pliv_several_clustered : forall (E P : Type) (L : learner E row P) f g (mc : machinery E P) n cv proj dcols x y d zs w nj b b',
  let C := clustered cv (pliv_several_ctx L mc n proj dcols x y d zs) in
  (0 < n)%nat -> cv <> [] -> dcols <> [] -> soundly_reached C w -> sound_learning L f g mc w -> no_jobs_or_int nj -> (exists sm, m_smpls (w_obj w) = Some sm) ->
  (forall t col, nth_error dcols t = Some col -> ready L g mc w n t col "ml_l" "ml_l" y everyone /\ (forall name z, In (name, z) zs -> ready L g mc w n t col ("ml_m_" ++ name)%string "ml_m" z everyone) /\ ready L g mc w n t col "ml_r" "ml_r" (d t) everyone) ->
  exists w', fit C nj (PBool b) ExtNone (PBool b') w = (w', Ok tt).
Proof. exact @pliv_several_cl_fit_success. Qed.
Print Assumptions C79_fit_pliv_several_clustered.

Theorem C79_fit_pliv_z_clustered : forall (E P : Type) (L : learner E row P) f g (mc : machinery E P) n cv dcols x zrow y d w nj b b',
  let C := clustered cv (pliv_z_ctx L mc n dcols x zrow y d) in
  (0 < n)%nat -> cv <> [] -> dcols <> [] -> soundly_reached C w -> sound_learning L f g mc w -> no_jobs_or_int nj -> (exists sm, m_smpls (w_obj w) = Some sm) ->
  (forall t col, nth_error dcols t = Some col -> ready L g mc w n t col "ml_r" "ml_r" (d t) everyone) ->
  exists w', fit C nj (PBool b) ExtNone (PBool b') w = (w', Ok tt).
Proof. exact @pliv_z_cl_fit_success. Qed.
Print Assumptions C79_fit_pliv_z_clustered.

Theorem C79_fit_ssm_clustered : forall (E P : Type) (L : learner E row P) f g (mc : machinery E P) n cv dcols norm tr thr x y d s strata w nj b b',
  let C := clustered cv (ssm_ctx L mc n dcols norm tr thr x y d s strata) in
  (0 < n)%nat -> cv <> [] -> dcols <> [] -> soundly_reached C w -> sound_learning L f g mc w -> no_jobs_or_int nj -> (exists sm, m_smpls (w_obj w) = Some sm) ->
  (forall t col, nth_error dcols t = Some col -> ready L g mc w n t col "ml_pi" "ml_pi" s everyone /\ ready L g mc w n t col "ml_m" "ml_m" (d t) everyone /\
     ready L g mc w n t col "ml_g_d1" "ml_g" y (fun i => d t i = 1 /\ s i = 1) /\ ready L g mc w n t col "ml_g_d0" "ml_g" y (fun i => d t i = 0 /\ s i = 1)) ->
  exists w', fit C nj (PBool b) ExtNone (PBool b') w = (w', Ok tt).
Proof. exact @ssm_cl_fit_success. Qed.
Print Assumptions C79_fit_ssm_clustered.

(** The fits of [C82_case_clustered_effects] and [C82_case_clustered_instruments] return by these theorems. *)
Example C79_case_clustered : irm_cl_case "ATE" /\ iivm_cl_case /\ pliv_z_cl_case.
Proof. exact (conj (irm_cl_cases _ (or_introl eq_refl)) (conj iivm_cl_cases pliv_z_cl_cases)). Qed.

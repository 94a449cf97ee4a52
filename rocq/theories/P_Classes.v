(** Complete fits of the model classes: C75 continued, C80. *)
From Verif Require Import S_Classes L_ClassesWitness.
From Coq Require Import Lra Lia.
Local Open Scope R_scope.
Local Open Scope string_scope.

(** ** C75 *)
Theorem C75_partially_linear_iv_type_fit : forall (E P : Type) (L : learner E row P) f g (mc : machinery E P) n dcols bin x y d w nj store ext smod w',
  let C := plr_ctx L mc n dcols true bin x y d in
  (0 < n)%nat -> dcols <> [] -> soundly_reached C w -> sound_learning L f g mc w ->
  labels_everywhere L g mc w n "ml_l" y everyone -> (forall t, labels_everywhere L g mc w n "ml_m" (d t) everyone) -> mc_proba mc "ml_g" = false ->
  fit C nj store ext smod w = (w', Ok tt) ->
  exists F sm, fit_done w w' F sm (length dcols) /\
    forall r t fs col, nth_error sm r = Some fs -> nth_error dcols t = Some col -> exists m gg,
      used_prediction L f g mc w n ext r t col "ml_m" "ml_m" (x t) (d t) whole_train fs m /\
      (exists v, used_prediction L f g mc w n ext r t col "ml_g" "ml_g" (x t) v whole_train fs gg /\
         ((forall e, ~ supplied ext col "ml_g" r e) -> exists l th, used_prediction L f g mc w n ext r t col "ml_l" "ml_l" (x t) y whole_train fs l /\ v = (fun i => y i - th * d t i) /\
           (sumf n (fun i => (d t i - m i) ^ 2) <> 0 -> th = sumf n (fun i => (d t i - m i) * (y i - l i)) / sumf n (fun i => (d t i - m i) ^ 2)))) /\
      (sumf n (fun i => (d t i - m i) * d t i) <> 0 ->
       let theta := sumf n (fun i => (d t i - m i) * (y i - gg i)) / sumf n (fun i => (d t i - m i) * d t i) in
       estimate_is F n t r theta (fun i => (d t i - m i) * (y i - gg i - theta * d t i)) (sumf n (fun i => (d t i - m i) * d t i))).
Proof. exact @plr_iv_fit. Qed.
Print Assumptions C75_partially_linear_iv_type_fit.
Example C75_case_partially_linear_iv_type_fit : fits_case w_plr_iv_ctx.
Proof. exact w_plr_iv_case. Qed.

Theorem C75_instrument_fit : forall (E P : Type) (L : learner E row P) f g (mc : machinery E P) n dcols x y d z w nj store ext smod w',
  let C := pliv_ctx L mc n dcols false x y d z in
  (0 < n)%nat -> dcols <> [] -> soundly_reached C w -> sound_learning L f g mc w ->
  labels_everywhere L g mc w n "ml_l" y everyone -> labels_everywhere L g mc w n "ml_m" z everyone -> (forall t, labels_everywhere L g mc w n "ml_r" (d t) everyone) ->
  fit C nj store ext smod w = (w', Ok tt) ->
  exists F sm, fit_done w w' F sm (length dcols) /\
    forall r t fs col, nth_error sm r = Some fs -> nth_error dcols t = Some col -> exists l m q,
      used_prediction L f g mc w n ext r t col "ml_l" "ml_l" (x t) y whole_train fs l /\ used_prediction L f g mc w n ext r t col "ml_m" "ml_m" (x t) z whole_train fs m /\
      used_prediction L f g mc w n ext r t col "ml_r" "ml_r" (x t) (d t) whole_train fs q /\
      (sumf n (fun i => (z i - m i) * (d t i - q i)) <> 0 ->
       let theta := sumf n (fun i => (z i - m i) * (y i - l i)) / sumf n (fun i => (z i - m i) * (d t i - q i)) in
       estimate_is F n t r theta (fun i => (z i - m i) * (y i - l i - theta * (d t i - q i))) (sumf n (fun i => (z i - m i) * (d t i - q i)))).
Proof. exact @pliv_fit. Qed.
Print Assumptions C75_instrument_fit.
Example C75_case_instrument_fit : fits_case (w_pliv_ctx false).
Proof. exact (w_pliv_case false). Qed.

Theorem C75_instrument_iv_type_fit : forall (E P : Type) (L : learner E row P) f g (mc : machinery E P) n dcols x y d z w nj store ext smod w',
  let C := pliv_ctx L mc n dcols true x y d z in
  (0 < n)%nat -> dcols <> [] -> soundly_reached C w -> sound_learning L f g mc w ->
  labels_everywhere L g mc w n "ml_l" y everyone -> labels_everywhere L g mc w n "ml_m" z everyone -> (forall t, labels_everywhere L g mc w n "ml_r" (d t) everyone) -> mc_proba mc "ml_g" = false ->
  fit C nj store ext smod w = (w', Ok tt) ->
  exists F sm, fit_done w w' F sm (length dcols) /\
    forall r t fs col, nth_error sm r = Some fs -> nth_error dcols t = Some col -> exists l m q gg th,
      used_prediction L f g mc w n ext r t col "ml_l" "ml_l" (x t) y whole_train fs l /\ used_prediction L f g mc w n ext r t col "ml_m" "ml_m" (x t) z whole_train fs m /\
      used_prediction L f g mc w n ext r t col "ml_r" "ml_r" (x t) (d t) whole_train fs q /\ used_prediction L f g mc w n ext r t col "ml_g" "ml_g" (x t) (fun i => y i - th * d t i) whole_train fs gg /\
      (sumf n (fun i => (z i - m i) * (d t i - q i)) <> 0 -> th = sumf n (fun i => (z i - m i) * (y i - l i)) / sumf n (fun i => (z i - m i) * (d t i - q i))) /\
      (sumf n (fun i => (z i - m i) * d t i) <> 0 ->
       let theta := sumf n (fun i => (z i - m i) * (y i - gg i)) / sumf n (fun i => (z i - m i) * d t i) in
       estimate_is F n t r theta (fun i => (z i - m i) * (y i - gg i - theta * d t i)) (sumf n (fun i => (z i - m i) * d t i))).
Proof. exact @pliv_iv_fit. Qed.
Print Assumptions C75_instrument_iv_type_fit.
Example C75_case_instrument_iv_type_fit : fits_case (w_pliv_ctx true).
Proof. exact (w_pliv_case true). Qed.

Theorem C75_several_instruments_fit : forall (E P : Type) (L : learner E row P) f g (mc : machinery E P) proj n dcols x y d zs w nj store ext smod w',
  let C := pliv_several_ctx L mc n proj dcols x y d zs in
  (0 < n)%nat -> dcols <> [] -> NoDup (map fst zs) -> soundly_reached C w -> sound_learning L f g mc w ->
  labels_everywhere L g mc w n "ml_l" y everyone -> (forall name z, In (name, z) zs -> labels_everywhere L g mc w n "ml_m" z everyone) -> (forall t, labels_everywhere L g mc w n "ml_r" (d t) everyone) ->
  fit C nj store ext smod w = (w', Ok tt) ->
  exists F sm, fit_done w w' F sm (length dcols) /\
    forall r t fs col, nth_error sm r = Some fs -> nth_error dcols t = Some col -> exists l q (mf : string -> vec),
      used_prediction L f g mc w n ext r t col "ml_l" "ml_l" (x t) y whole_train fs l /\ used_prediction L f g mc w n ext r t col "ml_r" "ml_r" (x t) (d t) whole_train fs q /\
      (forall name z, In (name, z) zs -> used_prediction L f g mc w n ext r t col ("ml_m_" ++ name)%string "ml_m" (x t) z whole_train fs (mf name)) /\
      let v := fun i => map (fun p : string * vec => snd p i - mf (fst p) i) zs in
      let hat := fun i => proj (map (fun j => (v j, d t j - q j)) (seq 0 n)) (v i) in
      (sumf n (fun i => hat i * (d t i - q i)) <> 0 ->
       let theta := sumf n (fun i => hat i * (y i - l i)) / sumf n (fun i => hat i * (d t i - q i)) in
       estimate_is F n t r theta (fun i => hat i * (y i - l i - theta * (d t i - q i))) (sumf n (fun i => hat i * (d t i - q i)))).
Proof. exact @pliv_several_fit. Qed.
Print Assumptions C75_several_instruments_fit.
Example C75_case_several_instruments_fit : fits_case w_several_ctx.
Proof. exact w_several_case. Qed.

Theorem C75_instruments_partialled_fit : forall (E P : Type) (L : learner E row P) f g (mc : machinery E P) n dcols x zrow y d w nj store ext smod w',
  let C := pliv_z_ctx L mc n dcols x zrow y d in
  (0 < n)%nat -> dcols <> [] -> soundly_reached C w -> sound_learning L f g mc w -> (forall t, labels_everywhere L g mc w n "ml_r" (d t) everyone) ->
  fit C nj store ext smod w = (w', Ok tt) ->
  exists F sm, fit_done w w' F sm (length dcols) /\
    forall r t fs col, nth_error sm r = Some fs -> nth_error dcols t = Some col -> exists q,
      cross_fitted L f g (setup_of mc n r t (fun l => nth r (m_params (w_obj w) l col) None) (fun _ => None)) "ml_r" "ml_r" (fun i => x t i ++ zrow i)%list (d t) whole_train fs q /\
      (sumf n (fun i => q i * d t i) <> 0 ->
       let theta := sumf n (fun i => q i * y i) / sumf n (fun i => q i * d t i) in
       estimate_is F n t r theta (fun i => q i * (y i - theta * d t i)) (sumf n (fun i => q i * d t i))).
Proof. exact @pliv_z_fit. Qed.
Print Assumptions C75_instruments_partialled_fit.
Example C75_case_instruments_partialled_fit : fits_case w_pliv_z_ctx.
Proof. exact w_pliv_z_case. Qed.

Theorem C75_projected_instruments_fit : forall (E P : Type) (L : learner E row P) f g (mc : machinery E P) n dcols x zrow y d w nj store ext smod w',
  let C := pliv_xz_ctx L mc n dcols x zrow y d in
  (0 < n)%nat -> dcols <> [] -> soundly_reached C w -> sound_learning L f g mc w -> labels_everywhere L g mc w n "ml_l" y everyone ->
  fit C nj store ext smod w = (w', Ok tt) ->
  exists F sm, fit_done w w' F sm (length dcols) /\
    forall r t fs col, nth_error sm r = Some fs -> nth_error dcols t = Some col -> exists l m mt,
      cross_fitted L f g (setup_of mc n r t (fun l => nth r (m_params (w_obj w) l col) None) (fun _ => None)) "ml_l" "ml_l" (x t) y whole_train fs l /\
      projected L f (setup_of mc n r t (fun l => nth r (m_params (w_obj w) l col) None) (fun _ => None)) (x t) (fun i => x t i ++ zrow i)%list (d t) fs m mt /\
      (sumf n (fun i => (m i - mt i) * (d t i - mt i)) <> 0 ->
       let theta := sumf n (fun i => (m i - mt i) * (y i - l i)) / sumf n (fun i => (m i - mt i) * (d t i - mt i)) in
       estimate_is F n t r theta (fun i => (m i - mt i) * (y i - l i - theta * (d t i - mt i))) (sumf n (fun i => (m i - mt i) * (d t i - mt i)))).
Proof. exact @pliv_xz_fit. Qed.
Print Assumptions C75_projected_instruments_fit.
Example C75_case_projected_instruments_fit : fits_case w_pliv_xz_ctx.
Proof. exact w_pliv_xz_case. Qed.

(** Average effects with admissible weights of the column of the repetition. *)
Theorem C75_weighted_ate_fit : forall (E P : Type) (L : learner E row P) f g (mc : machinery E P) n dcol norm bo tr thr wa nr x y d strata w nj store ext smod w',
  let C := irm_ctx L mc n dcol false norm bo tr thr (weights_of wa) x y d strata in
  (0 < n)%nat -> check_weights wa ScATE n nr = Ok tt -> soundly_reached C w -> sound_learning L f g mc w ->
  labels_everywhere L g mc w n "ml_g" y (fun j => d j = 0) -> labels_everywhere L g mc w n "ml_g" y (fun j => d j = 1) -> labels_everywhere L g mc w n "ml_m" d everyone ->
  fit C nj store ext smod w = (w', Ok tt) ->
  exists F sm, fit_done w w' F sm 1 /\ forall r fs, nth_error sm r = Some fs -> (r < nr)%nat -> exists g0 g1 m0 m,
      used_prediction L f g mc w n ext r 0 dcol "ml_g0" "ml_g" x y (group_rows n (fun j => d j = 0)) fs g0 /\
      used_prediction L f g mc w n ext r 0 dcol "ml_g1" "ml_g" x y (group_rows n (fun j => d j = 1)) fs g1 /\
      used_prediction L f g mc w n ext r 0 dcol "ml_m" "ml_m" x d whole_train fs m0 /\ clipped n tr thr m0 m /\
      let W := weights_of wa r in
      let ma := ps_adjust n m d norm in
      let s := fun i => wg W i * (g1 i - g0 i) + resid_weights W i * (d i * (y i - g1 i) / ma i - (1 - d i) * (y i - g0 i) / (1 - ma i)) in
      (off_bounds n ma -> estimate_is F n 0 r (meanf n s) (fun i => s i - meanf n s * (wg W i / meanf n (wg W))) (INR n)).
Proof. exact @irm_ate_fit. Qed.
Print Assumptions C75_weighted_ate_fit.
Example C75_case_weighted_ate_fit : fits_case (w_ate_ctx (weights_of w_weights)) /\ check_weights w_weights ScATE 8 1 = Ok tt.
Proof. exact (conj (w_ate_case _) w_weights_ok). Qed.

Theorem C75_atte_fit : forall (E P : Type) (L : learner E row P) f g (mc : machinery E P) n dcol norm bo tr thr w_ x y d strata w nj store ext smod w',
  let C := irm_ctx L mc n dcol true norm bo tr thr w_ x y d strata in
  (0 < n)%nat -> binary n d -> soundly_reached C w -> sound_learning L f g mc w ->
  labels_everywhere L g mc w n "ml_g" y (fun j => d j = 0) -> labels_everywhere L g mc w n "ml_g" y (fun j => d j = 1) -> labels_everywhere L g mc w n "ml_m" d everyone ->
  fit C nj store ext smod w = (w', Ok tt) ->
  exists F sm, fit_done w w' F sm 1 /\ forall r fs, nth_error sm r = Some fs -> exists g0 g1 m0 m,
      used_prediction L f g mc w n ext r 0 dcol "ml_g0" "ml_g" x y (group_rows n (fun j => d j = 0)) fs g0 /\
      used_prediction L f g mc w n ext r 0 dcol "ml_g1" "ml_g" x y (group_rows n (fun j => d j = 1)) fs g1 /\
      used_prediction L f g mc w n ext r 0 dcol "ml_m" "ml_m" x d whole_train fs m0 /\ clipped n tr thr m0 m /\
      let ma := ps_adjust n m d norm in
      let W := wg (w_ r) in
      let s := fun i => W i * (d i * (y i - g0 i) - (1 - d i) * (ma i / (1 - ma i)) * (y i - g0 i)) in
      (sumf n (fun i => W i * d i) <> 0 -> off_bounds n ma ->
       let theta := sumf n s / sumf n (fun i => W i * d i) in
       estimate_is F n 0 r theta (fun i => s i - theta * (W i * d i)) (sumf n (fun i => W i * d i))).
Proof. exact @irm_atte_fit. Qed.
Print Assumptions C75_atte_fit.
Example C75_case_atte_fit : fits_case (w_atte_ctx (fun _ => unit_weights)).
Proof. exact (w_atte_case _). Qed.

Theorem C75_potential_outcome_fit : forall (E P : Type) (L : learner E row P) f g (mc : machinery E P) n dcol norm bo tr thr wa nr x y d lvl strata w nj store ext smod w',
  let C := apo_ctx L mc n dcol norm bo tr thr (weights_of wa) x y d lvl strata in
  (0 < n)%nat -> check_weights wa ScATE n nr = Ok tt -> soundly_reached C w -> sound_learning L f g mc w ->
  labels_everywhere L g mc w n "ml_g" y (fun j => lvl j = 0) -> labels_everywhere L g mc w n "ml_g" y (fun j => lvl j = 1) -> labels_everywhere L g mc w n "ml_m" lvl everyone ->
  fit C nj store ext smod w = (w', Ok tt) ->
  exists F sm, fit_done w w' F sm 1 /\ forall r fs, nth_error sm r = Some fs -> (r < nr)%nat -> exists g1 m0 m,
      used_prediction L f g mc w n ext r 0 dcol "ml_g_d_lvl1" "ml_g" x y (group_rows n (fun j => lvl j = 1)) fs g1 /\
      used_prediction L f g mc w n ext r 0 dcol "ml_m" "ml_m" x lvl whole_train fs m0 /\ clipped n tr thr m0 m /\
      let W := weights_of wa r in
      let s := fun i => wg W i * g1 i + resid_weights W i * (lvl i * (y i - g1 i) / ps_adjust n m lvl norm i) in
      ((forall i, (i < n)%nat -> ps_adjust n m lvl norm i <> 0) -> estimate_is F n 0 r (meanf n s) (fun i => s i - meanf n s * (wg W i / meanf n (wg W))) (INR n)).
Proof. exact @apo_fit. Qed.
Print Assumptions C75_potential_outcome_fit.
Example C75_case_potential_outcome_fit : fits_case (w_apo_ctx (weights_of w_weights)) /\ check_weights w_weights ScATE 8 1 = Ok tt.
Proof. exact (conj (w_apo_case _) w_weights_ok). Qed.

Theorem C75_local_effect_fit : forall (E P : Type) (L : learner E row P) f g (mc : machinery E P) n dcol norm bo at1 nt1 tr thr x y z d strata w nj store ext smod w',
  let C := iivm_ctx L mc n dcol norm bo at1 nt1 tr thr x y z d strata in
  (0 < n)%nat -> soundly_reached C w -> sound_learning L f g mc w ->
  (forall v, v = 0 \/ v = 1 -> labels_everywhere L g mc w n "ml_g" y (fun j => z j = v)) -> labels_everywhere L g mc w n "ml_m" z everyone -> (forall v, v = 0 /\ at1 = true \/ v = 1 /\ nt1 = true -> labels_everywhere L g mc w n "ml_r" d (fun j => z j = v)) ->
  fit C nj store ext smod w = (w', Ok tt) ->
  exists F sm, fit_done w w' F sm 1 /\ forall r fs, nth_error sm r = Some fs -> exists g0 g1 m0 m r0 r1,
      used_prediction L f g mc w n ext r 0 dcol "ml_g0" "ml_g" x y (group_rows n (fun j => z j = 0)) fs g0 /\
      used_prediction L f g mc w n ext r 0 dcol "ml_g1" "ml_g" x y (group_rows n (fun j => z j = 1)) fs g1 /\
      used_prediction L f g mc w n ext r 0 dcol "ml_m" "ml_m" x z whole_train fs m0 /\ clipped n tr thr m0 m /\
      (if at1 then used_prediction L f g mc w n ext r 0 dcol "ml_r0" "ml_r" x d (group_rows n (fun j => z j = 0)) fs r0 else forall i, (i < n)%nat -> r0 i = 0) /\
      (if nt1 then used_prediction L f g mc w n ext r 0 dcol "ml_r1" "ml_r" x d (group_rows n (fun j => z j = 1)) fs r1 else forall i, (i < n)%nat -> r1 i = 1) /\
      let ma := iivm_adjust n norm d m in
      let sy := dr_signal y z g0 g1 ma in
      let sd := dr_signal d z r0 r1 ma in
      (off_bounds n ma -> sumf n sd <> 0 ->
       let theta := sumf n sy / sumf n sd in estimate_is F n 0 r theta (fun i => sy i - theta * sd i) (sumf n sd)).
Proof. exact @iivm_fit. Qed.
Print Assumptions C75_local_effect_fit.
Example C75_case_local_effect_fit : fits_case w_iivm_ctx.
Proof. exact w_iivm_case. Qed.

Theorem C75_did_observational_fit : forall (E P : Type) (L : learner E row P) f g (mc : machinery E P) n dcol norm tr thr x y d strata w nj store ext smod w',
  let C := did_ctx L mc n dcol true norm tr thr x y d strata in
  (0 < n)%nat -> check_trimming tr (PFloat thr) = Ok tt -> soundly_reached C w -> sound_learning L f g mc w ->
  labels_everywhere L g mc w n "ml_g" y (fun j => d j = 0) -> labels_everywhere L g mc w n "ml_g" y (fun j => d j = 1) -> labels_everywhere L g mc w n "ml_m" d everyone ->
  fit C nj store ext smod w = (w', Ok tt) ->
  exists F sm, fit_done w w' F sm 1 /\ forall r fs, nth_error sm r = Some fs -> exists g0 m0 m p,
      used_prediction L f g mc w n ext r 0 dcol "ml_g0" "ml_g" x y (group_rows n (fun j => d j = 0)) fs g0 /\
      used_prediction L f g mc w n ext r 0 dcol "ml_m" "ml_m" x d whole_train fs m0 /\ clipped n tr thr m0 m /\ share_of fs d p /\
      let odds := fun i => (1 - d i) * (m i / (1 - m i)) in
      let a := share_weight n norm d p in
      let s := fun i => (a i - share_weight n norm odds p i) * (y i - g0 i) in
      (share_ok n norm d p -> share_ok n norm odds p -> sumf n a <> 0 ->
       let theta := sumf n s / sumf n a in estimate_is F n 0 r theta (fun i => s i - theta * a i) (sumf n a)).
Proof. exact @did_obs_fit. Qed.
Print Assumptions C75_did_observational_fit.
Example C75_case_did_observational_fit : fits_case (w_did_ctx true false).
Proof. exact (w_did_case true false). Qed.

Theorem C75_did_experimental_fit : forall (E P : Type) (L : learner E row P) f g (mc : machinery E P) n dcol norm tr thr x y d strata w nj store ext smod w',
  let C := did_ctx L mc n dcol false norm tr thr x y d strata in
  (0 < n)%nat -> soundly_reached C w -> sound_learning L f g mc w ->
  labels_everywhere L g mc w n "ml_g" y (fun j => d j = 0) -> labels_everywhere L g mc w n "ml_g" y (fun j => d j = 1) ->
  fit C nj store ext smod w = (w', Ok tt) ->
  exists F sm, fit_done w w' F sm 1 /\ forall r fs, nth_error sm r = Some fs -> exists g0 g1 p,
      used_prediction L f g mc w n ext r 0 dcol "ml_g0" "ml_g" x y (group_rows n (fun j => d j = 0)) fs g0 /\
      used_prediction L f g mc w n ext r 0 dcol "ml_g1" "ml_g" x y (group_rows n (fun j => d j = 1)) fs g1 /\ share_of fs d p /\
      let a := share_weight n norm d p in
      let s := fun i => g1 i - g0 i + a i * (y i - g1 i) - share_weight n norm (compl d) (compl p) i * (y i - g0 i) in
      (share_ok n norm d p -> share_ok n norm (compl d) (compl p) -> estimate_is F n 0 r (meanf n s) (fun i => s i - meanf n s) (INR n)).
Proof. exact @did_exp_fit. Qed.
Print Assumptions C75_did_experimental_fit.
Example C75_case_did_experimental_fit : fits_case (w_did_ctx false true).
Proof. exact (w_did_case false true). Qed.

Theorem C75_did_cross_sections_observational_fit : forall (E P : Type) (L : learner E row P) f g (mc : machinery E P) n dcol norm tr thr x y d t strata w nj store ext smod w',
  let C := cs_ctx L mc n dcol true norm tr thr x y d t strata in
  (0 < n)%nat -> check_trimming tr (PFloat thr) = Ok tt -> soundly_reached C w -> sound_learning L f g mc w ->
  (forall a b, (a = 0 \/ a = 1) -> (b = 0 \/ b = 1) -> labels_everywhere L g mc w n "ml_g" y (fun j => d j = a /\ t j = b)) -> labels_everywhere L g mc w n "ml_m" d everyone ->
  fit C nj store ext smod w = (w', Ok tt) ->
  exists F sm, fit_done w w' F sm 1 /\ forall r fs, nth_error sm r = Some fs -> exists g00 g01 g10 g11 m0 m p lam,
      used_prediction L f g mc w n ext r 0 dcol "ml_g_d0_t0" "ml_g" x y (group_rows n (fun j => d j = 0 /\ t j = 0)) fs g00 /\
      used_prediction L f g mc w n ext r 0 dcol "ml_g_d0_t1" "ml_g" x y (group_rows n (fun j => d j = 0 /\ t j = 1)) fs g01 /\
      used_prediction L f g mc w n ext r 0 dcol "ml_g_d1_t0" "ml_g" x y (group_rows n (fun j => d j = 1 /\ t j = 0)) fs g10 /\
      used_prediction L f g mc w n ext r 0 dcol "ml_g_d1_t1" "ml_g" x y (group_rows n (fun j => d j = 1 /\ t j = 1)) fs g11 /\
      used_prediction L f g mc w n ext r 0 dcol "ml_m" "ml_m" x d whole_train fs m0 /\ clipped n tr thr m0 m /\ share_of fs d p /\ share_of fs t lam /\
      let odds := fun i => m i / (1 - m i) in
      let d0t1 := fun i => (1 - d i) * t i * odds i in
      let d0t0 := fun i => (1 - d i) * (1 - t i) * odds i in
      let q1 := fun i => p i * lam i in let q0 := fun i => p i * (1 - lam i) in
      let a := share_weight n norm d p in
      let s := fun i => a i * (g11 i - g10 i - (g01 i - g00 i)) +
        share_weight n norm (both d t) q1 i * (y i - g11 i) - share_weight n norm (both d (compl t)) q0 i * (y i - g10 i) -
        (share_weight n norm d0t1 q1 i * (y i - g01 i) - share_weight n norm d0t0 q0 i * (y i - g00 i)) in
      (share_ok n norm d p -> share_ok n norm (both d t) q1 -> share_ok n norm (both d (compl t)) q0 -> share_ok n norm d0t1 q1 -> share_ok n norm d0t0 q0 -> sumf n a <> 0 ->
       let theta := sumf n s / sumf n a in estimate_is F n 0 r theta (fun i => s i - theta * a i) (sumf n a)).
Proof. exact @cs_obs_fit. Qed.
Print Assumptions C75_did_cross_sections_observational_fit.
Example C75_case_did_cross_sections_observational_fit : fits_case (w_cs_ctx true true).
Proof. exact (w_cs_case true true). Qed.

Theorem C75_did_cross_sections_experimental_fit : forall (E P : Type) (L : learner E row P) f g (mc : machinery E P) n dcol norm tr thr x y d t strata w nj store ext smod w',
  let C := cs_ctx L mc n dcol false norm tr thr x y d t strata in
  (0 < n)%nat -> soundly_reached C w -> sound_learning L f g mc w ->
  (forall a b, (a = 0 \/ a = 1) -> (b = 0 \/ b = 1) -> labels_everywhere L g mc w n "ml_g" y (fun j => d j = a /\ t j = b)) ->
  fit C nj store ext smod w = (w', Ok tt) ->
  exists F sm, fit_done w w' F sm 1 /\ forall r fs, nth_error sm r = Some fs -> exists g00 g01 g10 g11 p lam,
      used_prediction L f g mc w n ext r 0 dcol "ml_g_d0_t0" "ml_g" x y (group_rows n (fun j => d j = 0 /\ t j = 0)) fs g00 /\
      used_prediction L f g mc w n ext r 0 dcol "ml_g_d0_t1" "ml_g" x y (group_rows n (fun j => d j = 0 /\ t j = 1)) fs g01 /\
      used_prediction L f g mc w n ext r 0 dcol "ml_g_d1_t0" "ml_g" x y (group_rows n (fun j => d j = 1 /\ t j = 0)) fs g10 /\
      used_prediction L f g mc w n ext r 0 dcol "ml_g_d1_t1" "ml_g" x y (group_rows n (fun j => d j = 1 /\ t j = 1)) fs g11 /\
      share_of fs d p /\ share_of fs t lam /\
      let q11 := fun i => p i * lam i in let q10 := fun i => p i * (1 - lam i) in
      let q01 := fun i => (1 - p i) * lam i in let q00 := fun i => (1 - p i) * (1 - lam i) in
      let s := fun i => g11 i - g10 i - (g01 i - g00 i) +
        share_weight n norm (both d t) q11 i * (y i - g11 i) - share_weight n norm (both d (compl t)) q10 i * (y i - g10 i) -
        (share_weight n norm (both (compl d) t) q01 i * (y i - g01 i) - share_weight n norm (both (compl d) (compl t)) q00 i * (y i - g00 i)) in
      (share_ok n norm (both d t) q11 -> share_ok n norm (both d (compl t)) q10 -> share_ok n norm (both (compl d) t) q01 -> share_ok n norm (both (compl d) (compl t)) q00 ->
       estimate_is F n 0 r (meanf n s) (fun i => s i - meanf n s) (INR n)).
Proof. exact @cs_exp_fit. Qed.
Print Assumptions C75_did_cross_sections_experimental_fit.
Example C75_case_did_cross_sections_experimental_fit : fits_case (w_cs_ctx false false).
Proof. exact (w_cs_case false false). Qed.

Theorem C75_selection_fit : forall (E P : Type) (L : learner E row P) f g (mc : machinery E P) n dcols norm tr thr x y d s strata w nj store ext smod w',
  let C := ssm_ctx L mc n dcols norm tr thr x y d s strata in
  (0 < n)%nat -> dcols <> [] -> soundly_reached C w -> sound_learning L f g mc w ->
  labels_everywhere L g mc w n "ml_pi" s everyone -> (forall t, labels_everywhere L g mc w n "ml_m" (d t) everyone) -> (forall t v, v = 0 \/ v = 1 -> labels_everywhere L g mc w n "ml_g" y (fun j => d t j = v /\ s j = 1)) ->
  fit C nj store ext smod w = (w', Ok tt) ->
  exists F sm, fit_done w w' F sm (length dcols) /\ forall r t fs col, nth_error sm r = Some fs -> nth_error dcols t = Some col -> exists pi m0 m g1 g0,
      cross_fitted L f g (setup_of mc n r t (fun l => nth r (m_params (w_obj w) l col) None) (fun _ => None)) "ml_pi" "ml_pi" (fun i => x t i ++ [d t i])%list s whole_train fs pi /\
      cross_fitted L f g (setup_of mc n r t (fun l => nth r (m_params (w_obj w) l col) None) (fun _ => None)) "ml_m" "ml_m" (x t) (d t) whole_train fs m0 /\ clipped n tr thr m0 m /\
      cross_fitted L f g (setup_of mc n r t (fun l => nth r (m_params (w_obj w) l col) None) (fun _ => None)) "ml_g_d1" "ml_g" (x t) y (group_rows n (fun j => d t j = 1 /\ s j = 1)) fs g1 /\
      cross_fitted L f g (setup_of mc n r t (fun l => nth r (m_params (w_obj w) l col) None) (fun _ => None)) "ml_g_d0" "ml_g" (x t) y (group_rows n (fun j => d t j = 0 /\ s j = 1)) fs g0 /\
      (binary n (d t) -> off_bounds n m -> (forall i, (i < n)%nat -> pi i <> 0) ->
       let w1 := if norm then sumf n (d t) / sumf n (fun i => d t i * s i / (pi i * m i)) else 1 in
       let w0 := if norm then sumf n (compl (d t)) / sumf n (fun i => (1 - d t i) * s i / (pi i * (1 - m i))) else 1 in
       let v := fun i => g1 i + w1 * (d t i * s i * (y i - g1 i) / (m i * pi i)) - (g0 i + w0 * ((1 - d t i) * s i * (y i - g0 i) / ((1 - m i) * pi i))) in
       (norm = true -> sumf n (fun i => d t i * s i / (pi i * m i)) <> 0 /\ sumf n (fun i => (1 - d t i) * s i / (pi i * (1 - m i))) <> 0) ->
       estimate_is F n t r (meanf n v) (fun i => v i - meanf n v) (INR n)).
Proof. exact @ssm_fit. Qed.
Print Assumptions C75_selection_fit.
Example C75_case_selection_fit : fits_case w_ssm_ctx.
Proof. exact w_ssm_case. Qed.

Theorem C75_nested_selection_fit : forall (E P : Type) (L : learner E row P) f g (mc : machinery E P) tts n dcols norm tr thr x zrow y d s strata w nj store ext smod w',
  let C := ssm_non_ctx L mc n tts dcols norm tr thr x zrow y d s strata in
  (0 < n)%nat -> dcols <> [] -> soundly_reached C w -> sound_learning L f g mc w -> classifier_ok L g ->
  fit C nj store ext smod w = (w', Ok tt) ->
  exists F sm, fit_done w w' F sm (length dcols) /\ forall r t fs col, nth_error sm r = Some fs -> nth_error dcols t = Some col -> exists pi m0 m g1 g0,
      nested_selection L f g (setup_of mc n r t (fun l => nth r (m_params (w_obj w) l col) None) (fun _ => None)) (tts r t) (x t) zrow y (d t) s fs pi m0 g1 g0 /\ clipped n tr thr m0 m /\
      (binary n (d t) -> off_bounds n m -> (forall i, (i < n)%nat -> pi i <> 0) ->
       let w1 := if norm then sumf n (d t) / sumf n (fun i => d t i * s i / (pi i * m i)) else 1 in
       let w0 := if norm then sumf n (compl (d t)) / sumf n (fun i => (1 - d t i) * s i / (pi i * (1 - m i))) else 1 in
       let v := fun i => g1 i + w1 * (d t i * s i * (y i - g1 i) / (m i * pi i)) - (g0 i + w0 * ((1 - d t i) * s i * (y i - g0 i) / ((1 - m i) * pi i))) in
       (norm = true -> sumf n (fun i => d t i * s i / (pi i * m i)) <> 0 /\ sumf n (fun i => (1 - d t i) * s i / (pi i * (1 - m i))) <> 0) ->
       estimate_is F n t r (meanf n v) (fun i => v i - meanf n v) (INR n)).
Proof. exact @ssm_non_fit. Qed.
Print Assumptions C75_nested_selection_fit.
Example C75_case_nested_selection_fit : fits_case w_ssm_non_ctx.
Proof. exact w_ssm_non_case. Qed.

(** Clustered data. *)
Theorem C75_clustered_partially_linear_fit : forall (E P : Type) (L : learner E row P) f g (mc : machinery E P) cv n dcols bin x y d w nj store ext smod w',
  let C := clustered cv (plr_ctx L mc n dcols false bin x y d) in
  (0 < n)%nat -> dcols <> [] -> cv <> [] -> soundly_reached C w -> sound_learning L f g mc w ->
  labels_everywhere L g mc w n "ml_l" y everyone -> (forall t, labels_everywhere L g mc w n "ml_m" (d t) everyone) ->
  fit C nj store ext smod w = (w', Ok tt) ->
  exists F sm, fit_done w w' F sm (length dcols) /\
    forall r t fs col, nth_error sm r = Some fs -> nth_error dcols t = Some col -> exists l m c,
      used_prediction L f g mc w n ext r t col "ml_l" "ml_l" (x t) y whole_train fs l /\
      used_prediction L f g mc w n ext r t col "ml_m" "ml_m" (x t) (d t) whole_train fs m /\ clusters_of w cv r fs c /\
      (moment n (Some c) (fun i => (d t i - m i) ^ 2) <> 0 ->
       clustered_estimate_is F n t r c (fun i => (d t i - m i) ^ 2) (fun i => (d t i - m i) * (y i - l i))).
Proof. exact @clustered_plr_fit. Qed.
Print Assumptions C75_clustered_partially_linear_fit.
Example C75_case_clustered_partially_linear_fit : fits_case w_clustered_plr.
Proof. exact w_clustered_plr_case. Qed.

Theorem C75_clustered_instrument_fit : forall (E P : Type) (L : learner E row P) f g (mc : machinery E P) cv n dcols x y d z w nj store ext smod w',
  let C := clustered cv (pliv_ctx L mc n dcols false x y d z) in
  (0 < n)%nat -> dcols <> [] -> cv <> [] -> soundly_reached C w -> sound_learning L f g mc w ->
  labels_everywhere L g mc w n "ml_l" y everyone -> labels_everywhere L g mc w n "ml_m" z everyone -> (forall t, labels_everywhere L g mc w n "ml_r" (d t) everyone) ->
  fit C nj store ext smod w = (w', Ok tt) ->
  exists F sm, fit_done w w' F sm (length dcols) /\
    forall r t fs col, nth_error sm r = Some fs -> nth_error dcols t = Some col -> exists l m q c,
      used_prediction L f g mc w n ext r t col "ml_l" "ml_l" (x t) y whole_train fs l /\ used_prediction L f g mc w n ext r t col "ml_m" "ml_m" (x t) z whole_train fs m /\
      used_prediction L f g mc w n ext r t col "ml_r" "ml_r" (x t) (d t) whole_train fs q /\ clusters_of w cv r fs c /\
      (moment n (Some c) (fun i => (z i - m i) * (d t i - q i)) <> 0 ->
       clustered_estimate_is F n t r c (fun i => (z i - m i) * (d t i - q i)) (fun i => (z i - m i) * (y i - l i))).
Proof. exact @clustered_pliv_fit. Qed.
Print Assumptions C75_clustered_instrument_fit.
Example C75_case_clustered_instrument_fit : fits_case w_clustered_pliv.
Proof. exact w_clustered_pliv_case. Qed.

(** The conditions on the labels in these cases. *)
Example C75_case_labels : forall w, m_smpls (w_obj w) = Some [w_smpls] -> (forall lrn y G, lrn <> "ml_m" -> labels_everywhere r_learner r_proba w_machine w 8 lrn y G) /\
  labels_everywhere r_learner r_proba w_machine w 8 "ml_m" w_d everyone /\ labels_everywhere r_learner r_proba w_machine w 8 "ml_m" w_t everyone.
Proof. exact w_case_labels. Qed.

(** ** C80 *)
Theorem C80_partially_linear : forall (E P : Type) (L : learner E row P) f g (mc : machinery E P) n dcols bin x y d w nj store ext smod w',
  let C := plr_ctx L mc n dcols false bin x y d in
  (0 < n)%nat -> dcols <> [] -> soundly_reached C w -> sound_learning L f g mc w ->
  labels_everywhere L g mc w n "ml_l" y everyone -> (forall t, labels_everywhere L g mc w n "ml_m" (d t) everyone) ->
  fit C nj store ext smod w = (w', Ok tt) ->
  exists F e sm, fit_done w w' F sm (length dcols) /\ fw_sens F = Some e /\
    forall t col, nth_error dcols t = Some col -> exists l m : nat -> vec,
    (forall r fs, nth_error sm r = Some fs ->
      used_prediction L f g mc w n ext r t col "ml_l" "ml_l" (x t) y whole_train fs (l r) /\ used_prediction L f g mc w n ext r t col "ml_m" "ml_m" (x t) (d t) whole_train fs (m r)) /\
    let v r i := d t i - m r i in
    let nu2 r := / meanf n (fun i => v r i ^ 2) in
    let s2 r i := (y i - l r i - at_ (fw_all_thetas F) [t; r] * v r i) ^ 2 in
    ((forall r, (r < length sm)%nat -> meanf n (fun i => v r i ^ 2) <> 0) -> forall r, (r < length sm)%nat ->
     reports_sens w' e n r t (meanf n (s2 r)) (nu2 r) (fun i => s2 r i - meanf n (s2 r)) (fun i => nu2 r - v r i ^ 2 * nu2 r ^ 2) (fun i => v r i * nu2 r)).
Proof. exact @plr_sens_fit. Qed.
Print Assumptions C80_partially_linear.
Example C80_case_partially_linear : exists w w', soundly_reached w_plr_ctx w /\ sound_learning r_learner r_predict r_proba w_machine w /\
  labels_everywhere r_learner r_proba w_machine w 8 "ml_l" w_y everyone /\ (forall t, labels_everywhere r_learner r_proba w_machine w 8 "ml_m" (match t with O => w_d | _ => w_t end) everyone) /\
  fit w_plr_ctx PNone (PBool true) ExtNone (PBool false) w = (w', Ok tt).
Proof. exact w_plr_case. Qed.

Theorem C80_partially_linear_iv_type : forall (E P : Type) (L : learner E row P) f g (mc : machinery E P) n dcols bin x y d w nj store ext smod w',
  let C := plr_ctx L mc n dcols true bin x y d in
  (0 < n)%nat -> dcols <> [] -> soundly_reached C w -> sound_learning L f g mc w ->
  labels_everywhere L g mc w n "ml_l" y everyone -> (forall t, labels_everywhere L g mc w n "ml_m" (d t) everyone) -> mc_proba mc "ml_g" = false ->
  fit C nj store ext smod w = (w', Ok tt) ->
  exists F e sm, fit_done w w' F sm (length dcols) /\ fw_sens F = Some e /\
    forall t col, nth_error dcols t = Some col -> exists m gg : nat -> vec,
    (forall r fs, nth_error sm r = Some fs ->
      used_prediction L f g mc w n ext r t col "ml_m" "ml_m" (x t) (d t) whole_train fs (m r) /\
      exists v, used_prediction L f g mc w n ext r t col "ml_g" "ml_g" (x t) v whole_train fs (gg r) /\
         ((forall e, ~ supplied ext col "ml_g" r e) -> exists l th, used_prediction L f g mc w n ext r t col "ml_l" "ml_l" (x t) y whole_train fs l /\ v = (fun i => y i - th * d t i) /\
           (sumf n (fun i => (d t i - m r i) ^ 2) <> 0 -> th = sumf n (fun i => (d t i - m r i) * (y i - l i)) / sumf n (fun i => (d t i - m r i) ^ 2)))) /\
    let v r i := d t i - m r i in
    let nu2 r := / meanf n (fun i => v r i ^ 2) in
    let s2 r i := (y i - gg r i - at_ (fw_all_thetas F) [t; r] * d t i) ^ 2 in
    ((forall r, (r < length sm)%nat -> meanf n (fun i => v r i ^ 2) <> 0) -> forall r, (r < length sm)%nat ->
     reports_sens w' e n r t (meanf n (s2 r)) (nu2 r) (fun i => s2 r i - meanf n (s2 r)) (fun i => nu2 r - v r i ^ 2 * nu2 r ^ 2) (fun i => v r i * nu2 r)).
Proof. exact @plr_iv_sens_fit. Qed.
Print Assumptions C80_partially_linear_iv_type.
Example C80_case_partially_linear_iv_type : fits_case w_plr_iv_ctx.
Proof. exact w_plr_iv_case. Qed.

Theorem C80_interactive : forall (E P : Type) (L : learner E row P) f g (mc : machinery E P) n dcol (atte : bool) norm bo tr thr w_ x y d strata w nj store ext smod w',
  let C := irm_ctx L mc n dcol atte norm bo tr thr w_ x y d strata in
  (0 < n)%nat -> soundly_reached C w -> sound_learning L f g mc w ->
  labels_everywhere L g mc w n "ml_g" y (fun j => d j = 0) -> labels_everywhere L g mc w n "ml_g" y (fun j => d j = 1) -> labels_everywhere L g mc w n "ml_m" d everyone ->
  fit C nj store ext smod w = (w', Ok tt) ->
  exists F e sm, fit_done w w' F sm 1 /\ fw_sens F = Some e /\ exists g0 g1 m0 m : nat -> vec,
    (forall r fs, nth_error sm r = Some fs ->
      used_prediction L f g mc w n ext r 0 dcol "ml_g0" "ml_g" x y (group_rows n (fun j => d j = 0)) fs (g0 r) /\
      used_prediction L f g mc w n ext r 0 dcol "ml_g1" "ml_g" x y (group_rows n (fun j => d j = 1)) fs (g1 r) /\
      used_prediction L f g mc w n ext r 0 dcol "ml_m" "ml_m" x d whole_train fs (m0 r) /\ clipped n tr thr (m0 r) (m r)) /\
    let ma r := ps_adjust n (m r) d norm in
    let W r i := if atte then wg (w_ r) i * d i / meanf n (fun i => wg (w_ r) i * d i) else wg (w_ r) i in
    let Wb r i := if atte then wg (w_ r) i * ma r i / meanf n (fun i => wg (w_ r) i * d i) else resid_weights (w_ r) i in
    let rr r i := Wb r i * (d i / ma r i - (1 - d i) / (1 - ma r i)) in
    ((forall r, (r < length sm)%nat -> off_bounds n (ma r) /\ (atte = true -> sumf n (fun i => wg (w_ r) i * d i) <> 0)) ->
     sens_reported w' e n (length sm) 0 (fun r i => (y i - (d i * g1 r i + (1 - d i) * g0 r i)) ^ 2)
       (fun r i => 2 * (W r i * Wb r i * (1 / ma r i + 1 / (1 - ma r i))) - rr r i ^ 2) rr).
Proof. exact @irm_sens_fit. Qed.
Print Assumptions C80_interactive.
Example C80_case_interactive : fits_case (w_ate_ctx (weights_of w_weights)) /\ fits_case (w_atte_ctx (fun _ => unit_weights)).
Proof. exact (conj (w_ate_case _) (w_atte_case _)). Qed.

Theorem C80_potential_outcome : forall (E P : Type) (L : learner E row P) f g (mc : machinery E P) n dcol norm bo tr thr w_ x y d lvl strata w nj store ext smod w',
  let C := apo_ctx L mc n dcol norm bo tr thr w_ x y d lvl strata in
  (0 < n)%nat -> soundly_reached C w -> sound_learning L f g mc w ->
  labels_everywhere L g mc w n "ml_g" y (fun j => lvl j = 0) -> labels_everywhere L g mc w n "ml_g" y (fun j => lvl j = 1) -> labels_everywhere L g mc w n "ml_m" lvl everyone ->
  fit C nj store ext smod w = (w', Ok tt) ->
  exists F e sm, fit_done w w' F sm 1 /\ fw_sens F = Some e /\ exists g0 g1 m0 m : nat -> vec,
    (forall r fs, nth_error sm r = Some fs ->
      used_prediction L f g mc w n ext r 0 dcol "ml_g_d_lvl0" "ml_g" (fun i => d i :: x i) y (group_rows n (fun j => lvl j = 0)) fs (g0 r) /\
      used_prediction L f g mc w n ext r 0 dcol "ml_g_d_lvl1" "ml_g" x y (group_rows n (fun j => lvl j = 1)) fs (g1 r) /\
      used_prediction L f g mc w n ext r 0 dcol "ml_m" "ml_m" x lvl whole_train fs (m0 r) /\ clipped n tr thr (m0 r) (m r)) /\
    let ma r := ps_adjust n (m r) lvl norm in
    let rr r i := resid_weights (w_ r) i * (lvl i / ma r i) in
    ((forall r i, (r < length sm)%nat -> (i < n)%nat -> ma r i <> 0) ->
     sens_reported w' e n (length sm) 0 (fun r i => (y i - (lvl i * g1 r i + (1 - lvl i) * g0 r i)) ^ 2)
       (fun r i => 2 * (wg (w_ r) i * resid_weights (w_ r) i / ma r i) - rr r i ^ 2) rr).
Proof. exact @apo_sens_fit. Qed.
Print Assumptions C80_potential_outcome.
Example C80_case_potential_outcome : fits_case (w_apo_ctx (weights_of w_weights)).
Proof. exact (w_apo_case _). Qed.

Theorem C80_did_observational : forall (E P : Type) (L : learner E row P) f g (mc : machinery E P) n dcol (norm : bool) tr thr x y d strata w nj store ext smod w',
  let C := did_ctx L mc n dcol true norm tr thr x y d strata in
  (0 < n)%nat -> soundly_reached C w -> sound_learning L f g mc w ->
  labels_everywhere L g mc w n "ml_g" y (fun j => d j = 0) -> labels_everywhere L g mc w n "ml_g" y (fun j => d j = 1) -> labels_everywhere L g mc w n "ml_m" d everyone ->
  fit C nj store ext smod w = (w', Ok tt) ->
  exists F e sm, fit_done w w' F sm 1 /\ fw_sens F = Some e /\ exists g0 g1 m0 m : nat -> vec,
    (forall r fs, nth_error sm r = Some fs ->
      used_prediction L f g mc w n ext r 0 dcol "ml_g0" "ml_g" x y (group_rows n (fun j => d j = 0)) fs (g0 r) /\
      used_prediction L f g mc w n ext r 0 dcol "ml_g1" "ml_g" x y (group_rows n (fun j => d j = 1)) fs (g1 r) /\
      used_prediction L f g mc w n ext r 0 dcol "ml_m" "ml_m" x d whole_train fs (m0 r) /\ clipped n tr thr (m0 r) (m r)) /\
    let p := meanf n d in
    let odds r i := m r i / (1 - m r i) in
    let q r := if norm then meanf n (fun i => (1 - d i) * odds r i) else p in
    let rr r i := d i / p - (1 - d i) * odds r i / q r in
    (p <> 0 -> (forall r i, (r < length sm)%nat -> (i < n)%nat -> m r i <> 1 /\ q r <> 0) ->
     sens_reported w' e n (length sm) 0 (fun r i => (y i - (d i * g1 r i + (1 - d i) * g0 r i)) ^ 2)
       (fun r i => 2 * (d i / p * (1 / p + odds r i / q r)) - rr r i ^ 2) rr).
Proof. exact @did_sens_obs_fit. Qed.
Print Assumptions C80_did_observational.
Example C80_case_did_observational : fits_case (w_did_ctx true true) /\ fits_case (w_did_ctx true false).
Proof. exact (conj (w_did_case _ _) (w_did_case _ _)). Qed.

Theorem C80_did_experimental : forall (E P : Type) (L : learner E row P) f g (mc : machinery E P) n dcol norm tr thr x y d strata w nj store ext smod w',
  let C := did_ctx L mc n dcol false norm tr thr x y d strata in
  (0 < n)%nat -> soundly_reached C w -> sound_learning L f g mc w ->
  labels_everywhere L g mc w n "ml_g" y (fun j => d j = 0) -> labels_everywhere L g mc w n "ml_g" y (fun j => d j = 1) ->
  fit C nj store ext smod w = (w', Ok tt) ->
  exists F e sm, fit_done w w' F sm 1 /\ fw_sens F = Some e /\ exists g0 g1 : nat -> vec,
    (forall r fs, nth_error sm r = Some fs ->
      used_prediction L f g mc w n ext r 0 dcol "ml_g0" "ml_g" x y (group_rows n (fun j => d j = 0)) fs (g0 r) /\
      used_prediction L f g mc w n ext r 0 dcol "ml_g1" "ml_g" x y (group_rows n (fun j => d j = 1)) fs (g1 r)) /\
    let p := meanf n d in
    let rr (r : nat) i := d i / p - (1 - d i) / (1 - p) in
    (p <> 0 -> p <> 1 ->
     sens_reported w' e n (length sm) 0 (fun r i => (y i - (d i * g1 r i + (1 - d i) * g0 r i)) ^ 2)
       (fun r i => 2 * (1 / p + 1 / (1 - p)) - rr r i ^ 2) rr).
Proof. exact @did_sens_exp_fit. Qed.
Print Assumptions C80_did_experimental.
Example C80_case_did_experimental : fits_case (w_did_ctx false true).
Proof. exact (w_did_case _ _). Qed.

Theorem C80_did_cross_sections_observational : forall (E P : Type) (L : learner E row P) f g (mc : machinery E P) n dcol (norm : bool) tr thr x y d t strata w nj store ext smod w',
  let C := cs_ctx L mc n dcol true norm tr thr x y d t strata in
  (0 < n)%nat -> soundly_reached C w -> sound_learning L f g mc w ->
  (forall a b, (a = 0 \/ a = 1) -> (b = 0 \/ b = 1) -> labels_everywhere L g mc w n "ml_g" y (fun j => d j = a /\ t j = b)) -> labels_everywhere L g mc w n "ml_m" d everyone ->
  fit C nj store ext smod w = (w', Ok tt) ->
  exists F e sm, fit_done w w' F sm 1 /\ fw_sens F = Some e /\ exists g00 g01 g10 g11 m0 m : nat -> vec,
    (forall r fs, nth_error sm r = Some fs ->
      used_prediction L f g mc w n ext r 0 dcol "ml_g_d0_t0" "ml_g" x y (group_rows n (fun j => d j = 0 /\ t j = 0)) fs (g00 r) /\
      used_prediction L f g mc w n ext r 0 dcol "ml_g_d0_t1" "ml_g" x y (group_rows n (fun j => d j = 0 /\ t j = 1)) fs (g01 r) /\
      used_prediction L f g mc w n ext r 0 dcol "ml_g_d1_t0" "ml_g" x y (group_rows n (fun j => d j = 1 /\ t j = 0)) fs (g10 r) /\
      used_prediction L f g mc w n ext r 0 dcol "ml_g_d1_t1" "ml_g" x y (group_rows n (fun j => d j = 1 /\ t j = 1)) fs (g11 r) /\
      used_prediction L f g mc w n ext r 0 dcol "ml_m" "ml_m" x d whole_train fs (m0 r) /\ clipped n tr thr (m0 r) (m r)) /\
    let p := meanf n d in let lam := meanf n t in
    let odds r i := m r i / (1 - m r i) in
    let q11 := if norm then meanf n (both d t) else p * lam in
    let q10 := if norm then meanf n (both d (compl t)) else p * (1 - lam) in
    let q01 r := if norm then meanf n (fun i => (1 - d i) * t i * odds r i) else p * lam in
    let q00 r := if norm then meanf n (fun i => (1 - d i) * (1 - t i) * odds r i) else p * (1 - lam) in
    let sg := if norm then -1 else 1 in
    let rr r i := d i * t i / q11 + sg * (d i * (1 - t i) / q10) + sg * ((1 - d i) * t i * odds r i / q01 r) + (1 - d i) * (1 - t i) * odds r i / q00 r in
    (p <> 0 -> q11 <> 0 -> q10 <> 0 -> (forall r i, (r < length sm)%nat -> (i < n)%nat -> m r i <> 1 /\ q01 r <> 0 /\ q00 r <> 0) ->
     sens_reported w' e n (length sm) 0
       (fun r i => (y i - (d i * (t i * g11 r i + (1 - t i) * g10 r i) + (1 - d i) * (t i * g01 r i + (1 - t i) * g00 r i))) ^ 2)
       (fun r i => 2 * (d i / p * (1 / q11 + 1 / q10 + odds r i / q01 r + odds r i / q00 r)) - rr r i ^ 2) rr).
Proof. exact @cs_sens_obs_fit. Qed.
Print Assumptions C80_did_cross_sections_observational.
Example C80_case_did_cross_sections_observational : fits_case (w_cs_ctx true true) /\ fits_case (w_cs_ctx true false).
Proof. exact (conj (w_cs_case _ _) (w_cs_case _ _)). Qed.

Theorem C80_did_cross_sections_experimental : forall (E P : Type) (L : learner E row P) f g (mc : machinery E P) n dcol (norm : bool) tr thr x y d t strata w nj store ext smod w',
  let C := cs_ctx L mc n dcol false norm tr thr x y d t strata in
  (0 < n)%nat -> soundly_reached C w -> sound_learning L f g mc w ->
  (forall a b, (a = 0 \/ a = 1) -> (b = 0 \/ b = 1) -> labels_everywhere L g mc w n "ml_g" y (fun j => d j = a /\ t j = b)) ->
  fit C nj store ext smod w = (w', Ok tt) ->
  exists F e sm, fit_done w w' F sm 1 /\ fw_sens F = Some e /\ exists g00 g01 g10 g11 : nat -> vec,
    (forall r fs, nth_error sm r = Some fs ->
      used_prediction L f g mc w n ext r 0 dcol "ml_g_d0_t0" "ml_g" x y (group_rows n (fun j => d j = 0 /\ t j = 0)) fs (g00 r) /\
      used_prediction L f g mc w n ext r 0 dcol "ml_g_d0_t1" "ml_g" x y (group_rows n (fun j => d j = 0 /\ t j = 1)) fs (g01 r) /\
      used_prediction L f g mc w n ext r 0 dcol "ml_g_d1_t0" "ml_g" x y (group_rows n (fun j => d j = 1 /\ t j = 0)) fs (g10 r) /\
      used_prediction L f g mc w n ext r 0 dcol "ml_g_d1_t1" "ml_g" x y (group_rows n (fun j => d j = 1 /\ t j = 1)) fs (g11 r)) /\
    let p := meanf n d in let lam := meanf n t in
    let q11 := if norm then meanf n (both d t) else p * lam in
    let q10 := if norm then meanf n (both d (compl t)) else p * (1 - lam) in
    let q01 := if norm then meanf n (both (compl d) t) else (1 - p) * lam in
    let q00 := if norm then meanf n (both (compl d) (compl t)) else (1 - p) * (1 - lam) in
    let rr (r : nat) i := d i * t i / q11 - d i * (1 - t i) / q10 - (1 - d i) * t i / q01 + (1 - d i) * (1 - t i) / q00 in
    (q11 <> 0 -> q10 <> 0 -> q01 <> 0 -> q00 <> 0 ->
     sens_reported w' e n (length sm) 0
       (fun r i => (y i - (d i * (t i * g11 r i + (1 - t i) * g10 r i) + (1 - d i) * (t i * g01 r i + (1 - t i) * g00 r i))) ^ 2)
       (fun r i => 2 * (1 / q11 + 1 / q10 + 1 / q01 + 1 / q00) - rr r i ^ 2) rr).
Proof. exact @cs_sens_exp_fit. Qed.
Print Assumptions C80_did_cross_sections_experimental.
Example C80_case_did_cross_sections_experimental : fits_case (w_cs_ctx false true).
Proof. exact (w_cs_case _ _). Qed.


(** Properties of fits from external predictions: C89. *)
From Verif Require Import L_External L_ExternalIrm L_ExternalDid L_ExternalEnd L_ExternalWitness.
Local Open Scope R_scope.
Local Open Scope string_scope.

(** ** C89: a fit from complete external predictions needs no learner *)
(** Partially linear regression. Predictions of a 0/1 treatment must not be all
    0 or 1 themselves. *)
Theorem C89_partially_linear : forall (E P : Type) (L : learner E row P) mc n dcols bin x y d w nj b ext b', let C := plr_ctx L mc n dcols false bin x y d in
  (0 < n)%nat -> dcols <> [] -> reachable C w -> no_jobs_or_int nj -> (exists sm, m_smpls (w_obj w) = Some sm) ->
  well_formed_predictions ext dcols ["ml_l"; "ml_m"] n (m_n_rep (w_obj w)) -> complete_predictions ext dcols ["ml_l"; "ml_m"] ->
  (forall t col, nth_error dcols t = Some col -> bin t = true -> soft_predictions ext col "ml_m" n) ->
  fit_from C w nj b ext b' (fun F r t fs col => forall l m, supplied ext col "ml_l" r l -> supplied ext col "ml_m" r m ->
    let v := fun i => d t i - m i in sumf n (fun i => v i * v i) <> 0 ->
    let theta := sumf n (fun i => v i * (y i - l i)) / sumf n (fun i => v i * v i) in
    estimate_is F n t r theta (fun i => v i * (y i - l i) - theta * (v i * v i)) (sumf n (fun i => v i * v i))).
Proof. exact @plr_ext. Qed.
Print Assumptions C89_partially_linear.

(** Score "IV-type": "ml_l" is not needed. *)
Theorem C89_partially_linear_iv : forall (E P : Type) (L : learner E row P) mc n dcols bin x y d w nj b ext b', let C := plr_ctx L mc n dcols true bin x y d in
  (0 < n)%nat -> dcols <> [] -> reachable C w -> no_jobs_or_int nj -> (exists sm, m_smpls (w_obj w) = Some sm) ->
  well_formed_predictions ext dcols ["ml_l"; "ml_m"; "ml_g"] n (m_n_rep (w_obj w)) -> complete_predictions ext dcols ["ml_m"; "ml_g"] ->
  (forall t col, nth_error dcols t = Some col -> bin t = true -> soft_predictions ext col "ml_m" n) ->
  fit_from C w nj b ext b' (fun F r t fs col => forall m g, supplied ext col "ml_m" r m -> supplied ext col "ml_g" r g ->
    let v := fun i => d t i - m i in sumf n (fun i => v i * d t i) <> 0 ->
    let theta := sumf n (fun i => v i * (y i - g i)) / sumf n (fun i => v i * d t i) in
    estimate_is F n t r theta (fun i => v i * (y i - g i) - theta * (v i * d t i)) (sumf n (fun i => v i * d t i))).
Proof. exact @plr_iv_ext. Qed.
Print Assumptions C89_partially_linear_iv.

(** Partially linear IV. *)
Theorem C89_instrumental : forall (E P : Type) (L : learner E row P) mc n dcols x y d z w nj b ext b', let C := pliv_ctx L mc n dcols false x y d z in
  (0 < n)%nat -> dcols <> [] -> reachable C w -> no_jobs_or_int nj -> (exists sm, m_smpls (w_obj w) = Some sm) ->
  well_formed_predictions ext dcols ["ml_l"; "ml_m"; "ml_r"] n (m_n_rep (w_obj w)) -> complete_predictions ext dcols ["ml_l"; "ml_m"; "ml_r"] ->
  fit_from C w nj b ext b' (fun F r t fs col => forall l m q, supplied ext col "ml_l" r l -> supplied ext col "ml_m" r m -> supplied ext col "ml_r" r q ->
    let v := fun i => z i - m i in let a := fun i => (d t i - q i) * v i in sumf n a <> 0 ->
    let theta := sumf n (fun i => v i * (y i - l i)) / sumf n a in
    estimate_is F n t r theta (fun i => v i * (y i - l i) - theta * a i) (sumf n a)).
Proof. exact @pliv_ext. Qed.
Print Assumptions C89_instrumental.

Theorem C89_instrumental_iv : forall (E P : Type) (L : learner E row P) mc n dcols x y d z w nj b ext b', let C := pliv_ctx L mc n dcols true x y d z in
  (0 < n)%nat -> dcols <> [] -> reachable C w -> no_jobs_or_int nj -> (exists sm, m_smpls (w_obj w) = Some sm) ->
  well_formed_predictions ext dcols ["ml_l"; "ml_m"; "ml_r"; "ml_g"] n (m_n_rep (w_obj w)) -> complete_predictions ext dcols ["ml_l"; "ml_m"; "ml_r"; "ml_g"] ->
  fit_from C w nj b ext b' (fun F r t fs col => forall m g, supplied ext col "ml_m" r m -> supplied ext col "ml_g" r g ->
    let v := fun i => z i - m i in let a := fun i => v i * d t i in sumf n a <> 0 ->
    let theta := sumf n (fun i => v i * (y i - g i)) / sumf n a in
    estimate_is F n t r theta (fun i => v i * (y i - g i) - theta * a i) (sumf n a)).
Proof. exact @pliv_iv_ext. Qed.
Print Assumptions C89_instrumental_iv.

Theorem C89_several_instruments : forall (E P : Type) (L : learner E row P) mc proj n dcols x y d zs w nj b ext b', let C := pliv_several_ctx L mc n proj dcols x y d zs in
  let names := ("ml_l" :: "ml_r" :: map (fun p => "ml_m_" ++ fst p)%string zs)%list in
  (0 < n)%nat -> dcols <> [] -> reachable C w -> no_jobs_or_int nj -> (exists sm, m_smpls (w_obj w) = Some sm) ->
  well_formed_predictions ext dcols names n (m_n_rep (w_obj w)) -> complete_predictions ext dcols names ->
  fit_from C w nj b ext b' (fun F r t fs col => forall l q (mf : string -> vec), supplied ext col "ml_l" r l -> supplied ext col "ml_r" r q ->
    (forall p, In p zs -> supplied ext col ("ml_m_" ++ fst p)%string r (mf (fst p))) ->
    let v := fun i => map (fun p : string * vec => snd p i - mf (fst p) i) zs in
    let h := fun i => proj (map (fun j => (v j, d t j - q j)) (seq 0 n)) (v i) in
    let a := fun i => (d t i - q i) * h i in sumf n a <> 0 ->
    let theta := sumf n (fun i => h i * (y i - l i)) / sumf n a in
    estimate_is F n t r theta (fun i => h i * (y i - l i) - theta * a i) (sumf n a)).
Proof. exact @pliv_several_ext. Qed.
Print Assumptions C89_several_instruments.

(** Interactive regression, average effect and effect on the treated. *)
Theorem C89_interactive : forall (E P : Type) (L : learner E row P) mc n dcol norm bo tr thr wa nr x y d strata w nj b ext b', let C := irm_ctx L mc n dcol false norm bo tr thr (weights_of wa) x y d strata in
  (0 < n)%nat -> check_weights wa ScATE n nr = Ok tt -> reachable C w -> no_jobs_or_int nj -> (exists sm, m_smpls (w_obj w) = Some sm) ->
  well_formed_predictions ext [dcol] ["ml_g0"; "ml_g1"; "ml_m"] n (m_n_rep (w_obj w)) -> complete_predictions ext [dcol] ["ml_g0"; "ml_g1"; "ml_m"] ->
  (bo = true -> soft_predictions ext dcol "ml_g1" n) ->
  fit_from C w nj b ext b' (fun F r t fs col => forall g0 g1 m0, supplied ext col "ml_g0" r g0 -> supplied ext col "ml_g1" r g1 -> supplied ext col "ml_m" r m0 ->
    let W := weights_of wa r in let ma := ps_adjust n (clip tr thr m0) d norm in
    let s := fun i => wg W i * (g1 i - g0 i) + resid_weights W i * (d i * (y i - g1 i) / ma i - (1 - d i) * (y i - g0 i) / (1 - ma i)) in
    off_bounds n ma -> estimate_is F n 0 r (meanf n s) (fun i => s i - meanf n s * (wg W i / meanf n (wg W))) (INR n)).
Proof. exact @irm_ate_ext. Qed.
Print Assumptions C89_interactive.

Theorem C89_interactive_treated : forall (E P : Type) (L : learner E row P) mc n dcol norm bo tr thr w_ x y d strata w nj b ext b', let C := irm_ctx L mc n dcol true norm bo tr thr w_ x y d strata in
  (0 < n)%nat -> binary n d -> reachable C w -> no_jobs_or_int nj -> (exists sm, m_smpls (w_obj w) = Some sm) ->
  well_formed_predictions ext [dcol] ["ml_g0"; "ml_g1"; "ml_m"] n (m_n_rep (w_obj w)) -> complete_predictions ext [dcol] ["ml_g0"; "ml_g1"; "ml_m"] ->
  fit_from C w nj b ext b' (fun F r t fs col => forall g0 m0, supplied ext col "ml_g0" r g0 -> supplied ext col "ml_m" r m0 ->
    let ma := ps_adjust n (clip tr thr m0) d norm in let W := wg (w_ r) in
    let s := fun i => W i * (d i * (y i - g0 i) - (1 - d i) * (ma i / (1 - ma i)) * (y i - g0 i)) in
    sumf n (fun i => W i * d i) <> 0 -> off_bounds n ma ->
    let theta := sumf n s / sumf n (fun i => W i * d i) in
    estimate_is F n 0 r theta (fun i => s i - theta * (W i * d i)) (sumf n (fun i => W i * d i))).
Proof. exact @irm_atte_ext. Qed.
Print Assumptions C89_interactive_treated.

Theorem C89_potential_outcome : forall (E P : Type) (L : learner E row P) mc n dcol norm bo tr thr wa nr x y d lvl strata w nj b ext b', let C := apo_ctx L mc n dcol norm bo tr thr (weights_of wa) x y d lvl strata in
  (0 < n)%nat -> check_weights wa ScATE n nr = Ok tt -> reachable C w -> no_jobs_or_int nj -> (exists sm, m_smpls (w_obj w) = Some sm) ->
  well_formed_predictions ext [dcol] ["ml_g_d_lvl0"; "ml_g_d_lvl1"; "ml_m"] n (m_n_rep (w_obj w)) -> complete_predictions ext [dcol] ["ml_g_d_lvl0"; "ml_g_d_lvl1"; "ml_m"] ->
  (bo = true -> soft_predictions ext dcol "ml_g_d_lvl0" n /\ soft_predictions ext dcol "ml_g_d_lvl1" n) ->
  fit_from C w nj b ext b' (fun F r t fs col => forall g1 m0, supplied ext col "ml_g_d_lvl1" r g1 -> supplied ext col "ml_m" r m0 ->
    let W := weights_of wa r in let ma := ps_adjust n (clip tr thr m0) lvl norm in
    let s := fun i => wg W i * g1 i + resid_weights W i * (lvl i * (y i - g1 i) / ma i) in
    (forall i, (i < n)%nat -> ma i <> 0) -> estimate_is F n 0 r (meanf n s) (fun i => s i - meanf n s * (wg W i / meanf n (wg W))) (INR n)).
Proof. exact @apo_full_ext. Qed.
Print Assumptions C89_potential_outcome.

(** Interactive IV: "ml_r0", "ml_r1" are needed only if the subgroups exist. *)
Theorem C89_local_effect : forall (E P : Type) (L : learner E row P) mc n dcol norm bo at1 nt1 tr thr x y z d strata w nj b ext b', let C := iivm_ctx L mc n dcol norm bo at1 nt1 tr thr x y z d strata in
  (0 < n)%nat -> reachable C w -> no_jobs_or_int nj -> (exists sm, m_smpls (w_obj w) = Some sm) ->
  well_formed_predictions ext [dcol] ["ml_g0"; "ml_g1"; "ml_m"; "ml_r0"; "ml_r1"] n (m_n_rep (w_obj w)) ->
  complete_predictions ext [dcol] (["ml_g0"; "ml_g1"; "ml_m"] ++ (if at1 then ["ml_r0"] else []) ++ (if nt1 then ["ml_r1"] else []))%list ->
  (bo = true -> soft_predictions ext dcol "ml_g0" n /\ soft_predictions ext dcol "ml_g1" n) ->
  fit_from C w nj b ext b' (fun F r t fs col => forall g0 g1 m0 r0 r1, supplied ext col "ml_g0" r g0 -> supplied ext col "ml_g1" r g1 -> supplied ext col "ml_m" r m0 ->
    (if at1 then supplied ext col "ml_r0" r r0 else forall i, r0 i = 0) -> (if nt1 then supplied ext col "ml_r1" r r1 else forall i, r1 i = 1) ->
    let ma := iivm_adjust n norm d (clip tr thr m0) in
    let sy := dr_signal y z g0 g1 ma in let sd := dr_signal d z r0 r1 ma in
    off_bounds n ma -> sumf n sd <> 0 ->
    let theta := sumf n sy / sumf n sd in estimate_is F n 0 r theta (fun i => sy i - theta * sd i) (sumf n sd)).
Proof. exact @iivm_full_ext. Qed.
Print Assumptions C89_local_effect.

Theorem C89_differences : forall (E P : Type) (L : learner E row P) mc n dcol norm tr thr x y d strata w nj b ext b', let C := did_ctx L mc n dcol true norm tr thr x y d strata in
  (0 < n)%nat -> check_trimming tr (PFloat thr) = Ok tt -> reachable C w -> no_jobs_or_int nj -> (exists sm, m_smpls (w_obj w) = Some sm) ->
  well_formed_predictions ext [dcol] ["ml_g0"; "ml_g1"; "ml_m"] n (m_n_rep (w_obj w)) -> complete_predictions ext [dcol] ["ml_g0"; "ml_g1"; "ml_m"] ->
  fit_from C w nj b ext b' (fun F r t fs col => forall g0 m0, supplied ext col "ml_g0" r g0 -> supplied ext col "ml_m" r m0 -> exists p, share_of fs d p /\
    let m := clip tr thr m0 in
    let odds := fun i => (1 - d i) * (m i / (1 - m i)) in
    let a := share_weight n norm d p in
    let s := fun i => (a i - share_weight n norm odds p i) * (y i - g0 i) in
    (share_ok n norm d p -> share_ok n norm odds p -> sumf n a <> 0 ->
     let theta := sumf n s / sumf n a in estimate_is F n 0 r theta (fun i => s i - theta * a i) (sumf n a))).
Proof. exact @did_obs_ext. Qed.
Print Assumptions C89_differences.

Theorem C89_differences_experimental : forall (E P : Type) (L : learner E row P) mc n dcol norm tr thr x y d strata w nj b ext b', let C := did_ctx L mc n dcol false norm tr thr x y d strata in
  (0 < n)%nat -> reachable C w -> no_jobs_or_int nj -> (exists sm, m_smpls (w_obj w) = Some sm) ->
  well_formed_predictions ext [dcol] ["ml_g0"; "ml_g1"] n (m_n_rep (w_obj w)) -> complete_predictions ext [dcol] ["ml_g0"; "ml_g1"] ->
  fit_from C w nj b ext b' (fun F r t fs col => forall g0 g1, supplied ext col "ml_g0" r g0 -> supplied ext col "ml_g1" r g1 -> exists p, share_of fs d p /\
    let a := share_weight n norm d p in
    let s := fun i => g1 i - g0 i + a i * (y i - g1 i) - share_weight n norm (compl d) (compl p) i * (y i - g0 i) in
    (share_ok n norm d p -> share_ok n norm (compl d) (compl p) -> estimate_is F n 0 r (meanf n s) (fun i => s i - meanf n s) (INR n))).
Proof. exact @did_exp_ext. Qed.
Print Assumptions C89_differences_experimental.

Theorem C89_cross_sections : forall (E P : Type) (L : learner E row P) mc n dcol norm tr thr x y d t strata w nj b ext b', let C := cs_ctx L mc n dcol true norm tr thr x y d t strata in
  (0 < n)%nat -> reachable C w -> no_jobs_or_int nj -> (exists sm, m_smpls (w_obj w) = Some sm) ->
  well_formed_predictions ext [dcol] ["ml_g_d0_t0"; "ml_g_d0_t1"; "ml_g_d1_t0"; "ml_g_d1_t1"; "ml_m"] n (m_n_rep (w_obj w)) ->
  complete_predictions ext [dcol] ["ml_g_d0_t0"; "ml_g_d0_t1"; "ml_g_d1_t0"; "ml_g_d1_t1"; "ml_m"] ->
  fit_from C w nj b ext b' (fun F r k fs col => forall g00 g01 g10 g11 m0, supplied ext col "ml_g_d0_t0" r g00 -> supplied ext col "ml_g_d0_t1" r g01 ->
    supplied ext col "ml_g_d1_t0" r g10 -> supplied ext col "ml_g_d1_t1" r g11 -> supplied ext col "ml_m" r m0 -> exists p lam, share_of fs d p /\ share_of fs t lam /\
    let m := clip tr thr m0 in
    let odds := fun i => m i / (1 - m i) in
    let d0t1 := fun i => (1 - d i) * t i * odds i in
    let d0t0 := fun i => (1 - d i) * (1 - t i) * odds i in
    let q1 := fun i => p i * lam i in let q0 := fun i => p i * (1 - lam i) in
    let a := share_weight n norm d p in
    let s := fun i => a i * (g11 i - g10 i - (g01 i - g00 i)) +
      share_weight n norm (both d t) q1 i * (y i - g11 i) - share_weight n norm (both d (compl t)) q0 i * (y i - g10 i) -
      (share_weight n norm d0t1 q1 i * (y i - g01 i) - share_weight n norm d0t0 q0 i * (y i - g00 i)) in
    (share_ok n norm d p -> share_ok n norm (both d t) q1 -> share_ok n norm (both d (compl t)) q0 -> share_ok n norm d0t1 q1 -> share_ok n norm d0t0 q0 -> sumf n a <> 0 ->
     let theta := sumf n s / sumf n a in estimate_is F n 0 r theta (fun i => s i - theta * a i) (sumf n a))).
Proof. exact @cs_obs_ext. Qed.
Print Assumptions C89_cross_sections.

Theorem C89_cross_sections_experimental : forall (E P : Type) (L : learner E row P) mc n dcol norm tr thr x y d t strata w nj b ext b', let C := cs_ctx L mc n dcol false norm tr thr x y d t strata in
  (0 < n)%nat -> reachable C w -> no_jobs_or_int nj -> (exists sm, m_smpls (w_obj w) = Some sm) ->
  well_formed_predictions ext [dcol] ["ml_g_d0_t0"; "ml_g_d0_t1"; "ml_g_d1_t0"; "ml_g_d1_t1"] n (m_n_rep (w_obj w)) ->
  complete_predictions ext [dcol] ["ml_g_d0_t0"; "ml_g_d0_t1"; "ml_g_d1_t0"; "ml_g_d1_t1"] ->
  fit_from C w nj b ext b' (fun F r k fs col => forall g00 g01 g10 g11, supplied ext col "ml_g_d0_t0" r g00 -> supplied ext col "ml_g_d0_t1" r g01 ->
    supplied ext col "ml_g_d1_t0" r g10 -> supplied ext col "ml_g_d1_t1" r g11 -> exists p lam, share_of fs d p /\ share_of fs t lam /\
    let q11 := fun i => p i * lam i in let q10 := fun i => p i * (1 - lam i) in
    let q01 := fun i => (1 - p i) * lam i in let q00 := fun i => (1 - p i) * (1 - lam i) in
    let s := fun i => g11 i - g10 i - (g01 i - g00 i) +
      share_weight n norm (both d t) q11 i * (y i - g11 i) - share_weight n norm (both d (compl t)) q10 i * (y i - g10 i) -
      (share_weight n norm (both (compl d) t) q01 i * (y i - g01 i) - share_weight n norm (both (compl d) (compl t)) q00 i * (y i - g00 i)) in
    (share_ok n norm (both d t) q11 -> share_ok n norm (both d (compl t)) q10 -> share_ok n norm (both (compl d) t) q01 -> share_ok n norm (both (compl d) (compl t)) q00 ->
     estimate_is F n 0 r (meanf n s) (fun i => s i - meanf n s) (INR n))).
Proof. exact @cs_exp_ext. Qed.
Print Assumptions C89_cross_sections_experimental.

(** With learners that cannot be trained, a fit succeeds only if nothing is
    missing. *)
Theorem C89_incomplete_partially_linear : forall (E P : Type) (L : learner E row P) (mc : machinery E P), untrainable L -> forall n dcols iv bin x y d, dcols <> [] -> requires (plr_ctx L mc n dcols iv bin x y d) (if iv then ["ml_m"; "ml_g"] else ["ml_l"; "ml_m"]).
Proof. exact @plr_requires. Qed.
Print Assumptions C89_incomplete_partially_linear.

Theorem C89_incomplete_instrumental : forall (E P : Type) (L : learner E row P) (mc : machinery E P), untrainable L -> forall n dcols iv x y d z, dcols <> [] -> requires (pliv_ctx L mc n dcols iv x y d z) (if iv then ["ml_l"; "ml_m"; "ml_r"; "ml_g"] else ["ml_l"; "ml_m"; "ml_r"]).
Proof. exact @pliv_requires. Qed.
Print Assumptions C89_incomplete_instrumental.

Theorem C89_incomplete_several_instruments : forall (E P : Type) (L : learner E row P) (mc : machinery E P), untrainable L -> forall proj n dcols x y d zs, dcols <> [] -> requires (pliv_several_ctx L mc n proj dcols x y d zs) ("ml_l" :: "ml_r" :: map (fun p => "ml_m_" ++ fst p)%string zs)%list.
Proof. exact @several_requires. Qed.
Print Assumptions C89_incomplete_several_instruments.

Theorem C89_incomplete_interactive : forall (E P : Type) (L : learner E row P) (mc : machinery E P), untrainable L -> forall n dcol atte norm bo tr thr w_ x y d strata, requires (irm_ctx L mc n dcol atte norm bo tr thr w_ x y d strata) ["ml_g0"; "ml_g1"; "ml_m"].
Proof. exact @irm_requires. Qed.
Print Assumptions C89_incomplete_interactive.

Theorem C89_incomplete_potential_outcome : forall (E P : Type) (L : learner E row P) (mc : machinery E P), untrainable L -> forall n dcol norm bo tr thr w_ x y d lvl strata, requires (apo_ctx L mc n dcol norm bo tr thr w_ x y d lvl strata) ["ml_g_d_lvl0"; "ml_g_d_lvl1"; "ml_m"].
Proof. exact @apo_requires. Qed.
Print Assumptions C89_incomplete_potential_outcome.

Theorem C89_incomplete_local_effect : forall (E P : Type) (L : learner E row P) (mc : machinery E P), untrainable L -> forall n dcol norm bo at1 nt1 tr thr x y z d strata, requires (iivm_ctx L mc n dcol norm bo at1 nt1 tr thr x y z d strata) (["ml_g0"; "ml_g1"; "ml_m"] ++ (if at1 then ["ml_r0"] else []) ++ (if nt1 then ["ml_r1"] else []))%list.
Proof. exact @iivm_requires. Qed.
Print Assumptions C89_incomplete_local_effect.

Theorem C89_incomplete_differences : forall (E P : Type) (L : learner E row P) (mc : machinery E P), untrainable L -> forall n dcol obs norm tr thr x y d strata, requires (did_ctx L mc n dcol obs norm tr thr x y d strata) (if obs then ["ml_g0"; "ml_g1"; "ml_m"] else ["ml_g0"; "ml_g1"]).
Proof. exact @did_requires. Qed.
Print Assumptions C89_incomplete_differences.

Theorem C89_incomplete_cross_sections : forall (E P : Type) (L : learner E row P) (mc : machinery E P), untrainable L -> forall n dcol obs norm tr thr x y d t_ strata, requires (cs_ctx L mc n dcol obs norm tr thr x y d t_ strata) (["ml_g_d0_t0"; "ml_g_d0_t1"; "ml_g_d1_t0"; "ml_g_d1_t1"] ++ if obs then ["ml_m"] else [])%list.
Proof. exact @cs_requires. Qed.
Print Assumptions C89_incomplete_cross_sections.

(** The dummy learners of the package. *)
Theorem C89_dummy_learners : forall (P : Type), untrainable (dummy_learner P).
Proof. exact @dummy_untrainable. Qed.
Print Assumptions C89_dummy_learners.

(** Partially linear IV with partialled-out instruments: external predictions are
    accepted, but the results do not depend on them. *)
Theorem C89_ignored_instruments_refuted : forall (E P : Type) (L : learner E row P) mc n dcols x zrow y d, dcols <> [] -> ignores_predictions (pliv_z_ctx L mc n dcols x zrow y d).
Proof. exact @pliv_z_unused. Qed.
Print Assumptions C89_ignored_instruments_refuted.

Theorem C89_ignored_both_refuted : forall (E P : Type) (L : learner E row P) mc n dcols x zrow y d, dcols <> [] -> ignores_predictions (pliv_xz_ctx L mc n dcols x zrow y d).
Proof. exact @pliv_xz_unused. Qed.
Print Assumptions C89_ignored_both_refuted.

Example C89_case : exists w w', reachable (d_plr false) w /\ fit (d_plr false) PNone (PBool true) (given halves ["ml_l"; "ml_m"]) (PBool false) w = (w', Ok tt) /\ theta_at w' 0 0 1.
Proof. exact d_plr_ex. Qed.
Example C89_case_linear : ext_case (d_plr false) ["ml_l"; "ml_m"] ["ml_l"; "ml_m"] /\ ext_case (d_plr true) ["ml_l"; "ml_m"; "ml_g"] ["ml_m"; "ml_g"] /\
  ext_case (d_pliv false) ["ml_l"; "ml_m"; "ml_r"] ["ml_l"; "ml_m"; "ml_r"] /\ ext_case (d_pliv true) ["ml_l"; "ml_m"; "ml_r"; "ml_g"] ["ml_l"; "ml_m"; "ml_r"; "ml_g"] /\
  ext_case d_several ["ml_l"; "ml_r"; "ml_m_z1"; "ml_m_z2"] ["ml_l"; "ml_r"; "ml_m_z1"; "ml_m_z2"].
Proof. exact (conj (d_plr_case false) (conj (d_plr_case true) (conj (d_pliv_case false) (conj (d_pliv_case true) d_several_case)))). Qed.
Example C89_case_interactive : check_weights w_weights ScATE 8 1 = Ok tt /\ (forall atte, ext_case (d_irm atte w_weights) ["ml_g0"; "ml_g1"; "ml_m"] ["ml_g0"; "ml_g1"; "ml_m"]) /\
  ext_case (d_apo w_weights) ["ml_g_d_lvl0"; "ml_g_d_lvl1"; "ml_m"] ["ml_g_d_lvl0"; "ml_g_d_lvl1"; "ml_m"] /\
  ext_case d_iivm ["ml_g0"; "ml_g1"; "ml_m"; "ml_r0"; "ml_r1"] ["ml_g0"; "ml_g1"; "ml_m"; "ml_r0"].
Proof. exact (conj w_weights_ok (conj (fun atte => d_irm_case atte w_weights) (conj (d_apo_case w_weights) d_iivm_case))). Qed.
Example C89_case_differences : forall norm, ext_case (d_did true norm) ["ml_g0"; "ml_g1"; "ml_m"] ["ml_g0"; "ml_g1"; "ml_m"] /\ ext_case (d_did false norm) ["ml_g0"; "ml_g1"] ["ml_g0"; "ml_g1"] /\
  ext_case (d_cs true norm) ["ml_g_d0_t0"; "ml_g_d0_t1"; "ml_g_d1_t0"; "ml_g_d1_t1"; "ml_m"] ["ml_g_d0_t0"; "ml_g_d0_t1"; "ml_g_d1_t0"; "ml_g_d1_t1"; "ml_m"] /\
  ext_case (d_cs false norm) ["ml_g_d0_t0"; "ml_g_d0_t1"; "ml_g_d1_t0"; "ml_g_d1_t1"] ["ml_g_d0_t0"; "ml_g_d0_t1"; "ml_g_d1_t0"; "ml_g_d1_t1"].
Proof. exact (fun norm => conj (d_did_case true norm) (conj (d_did_case false norm) (conj (d_cs_case true norm) (d_cs_case false norm)))). Qed.
Example C89_case_ignored : ignored_case w_pliv_z_ctx.
Proof. exact pliv_z_ignored. Qed.

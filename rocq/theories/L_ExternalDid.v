(** Fits from complete external predictions: difference in differences. *)
From Verif Require Import L_Debias.
From Verif Require Export L_ExternalIrm.
From Coq Require Import Lia Lra FunctionalExtensionality.
Local Open Scope R_scope.
Local Open Scope res_scope.
Local Open Scope string_scope.

Lemma shares smpls d : share_of smpls d (fun i => fold_share smpls d i 0).
Proof.
  intros i k h (T1 & T2 & T3). cbv beta. rewrite (fold_share_spec smpls d i 0 k h T1 T2); [reflexivity|]. intros j h' Hj Hne Hin. apply Hne, (T3 j h'); assumption.
Qed.
Lemma clip_inside n tr thr m0 : check_trimming tr (PFloat thr) = Ok tt -> inside n (clip tr thr m0).
Proof. intro H. apply (clipped_inside n tr thr m0); [exact H|]. intros i _. reflexivity. Qed.

Section Classes.
Context {E P : Type}.
Variable L : learner E row P.
Variable mc : machinery E P.

Lemma did_obs_ext n dcol norm tr thr x y d strata w nj b ext b' : let C := did_ctx L mc n dcol true norm tr thr x y d strata in
  (0 < n)%nat -> check_trimming tr (PFloat thr) = Ok tt -> reachable C w -> no_jobs_or_int nj -> (exists sm, m_smpls (w_obj w) = Some sm) ->
  well_formed_predictions ext [dcol] ["ml_g0"; "ml_g1"; "ml_m"] n (m_n_rep (w_obj w)) -> complete_predictions ext [dcol] ["ml_g0"; "ml_g1"; "ml_m"] ->
  fit_from C w nj b ext b' (fun F r t fs col => forall g0 m0, supplied ext col "ml_g0" r g0 -> supplied ext col "ml_m" r m0 -> exists p, share_of fs d p /\
    let m := clip tr thr m0 in
    let odds := fun i => (1 - d i) * (m i / (1 - m i)) in
    let a := share_weight n norm d p in
    let s := fun i => (a i - share_weight n norm odds p i) * (y i - g0 i) in
    (share_ok n norm d p -> share_ok n norm odds p -> sumf n a <> 0 ->
     let theta := sumf n s / sumf n a in estimate_is F n 0 r theta (fun i => s i - theta * a i) (sumf n a))).
Proof.
  intros C Hn Ck Hw Hj Hs Wf Cp. ext_start C ["ml_g0"; "ml_g1"; "ml_m"] ltac:(apply did_var_ok).
  - intros r t fs prm e col Ht A. giv A "ml_g0" g0 He0 Hs0. giv A "ml_g1" g1 He1 Hs1. giv A "ml_m" m Em Sm. cbn [C did_ctx c_nuis]. unfold did_nuis, or_ext. cbn [setup_of su_ext]. rewrite He0, He1, Em. cbn [bind].
    rewrite ext_finite. cbn [require bind]. eexists. reflexivity.
  - intros out F r t fs prm e col Rp Hr Ht Hc A N g0 m0 Hs0 Sm. cbn [C did_ctx c_nuis] in N. unfold did_nuis, or_ext in N. cbn [setup_of su_ext] in N.
    assert (Et : t = 0%nat) by (rewrite (rp_n_thetas _ _ _ _ Rp) in Ht; cbn in Ht; lia). subst t. giv A "ml_g1" g1 He1 Hs1.
    val A N Hs0. rewrite He1 in N. val A N Sm. cbn [bind] in N. rewrite ext_finite in N. cbn [require bind] in N. injection N as N. rewrite hv_clip, !hv_ext in N. cbn [setup_of su_n] in N.
    exists (fun i => fold_share fs d i 0). split; [apply shares|]. set (p := fun i => fold_share fs d i 0) in *. intros m odds a s Ha Ho Hs' theta. pose proof (clip_inside n tr thr m0 Ck) as In.
    apply (ratio_estimate C w out F r 0 a s Hn eq_refl Rp Hr Ht); [|exact Hs'].
    intros i Hi. rewrite <- N. specialize (In i Hi). fold m in In |- *. unfold mk_out. cbn [no_a no_b]. unfold s, a, did_score, did_weights, share_weight, share_ok in *. destruct norm; cbn [el_a el_b].
    + unfold odds. split; ring.
    + specialize (Ha i Hi). unfold odds. split; [ring|]. field. split; [lra|assumption].
Qed.
Lemma did_exp_ext n dcol norm tr thr x y d strata w nj b ext b' : let C := did_ctx L mc n dcol false norm tr thr x y d strata in
  (0 < n)%nat -> reachable C w -> no_jobs_or_int nj -> (exists sm, m_smpls (w_obj w) = Some sm) ->
  well_formed_predictions ext [dcol] ["ml_g0"; "ml_g1"] n (m_n_rep (w_obj w)) -> complete_predictions ext [dcol] ["ml_g0"; "ml_g1"] ->
  fit_from C w nj b ext b' (fun F r t fs col => forall g0 g1, supplied ext col "ml_g0" r g0 -> supplied ext col "ml_g1" r g1 -> exists p, share_of fs d p /\
    let a := share_weight n norm d p in
    let s := fun i => g1 i - g0 i + a i * (y i - g1 i) - share_weight n norm (compl d) (compl p) i * (y i - g0 i) in
    (share_ok n norm d p -> share_ok n norm (compl d) (compl p) -> estimate_is F n 0 r (meanf n s) (fun i => s i - meanf n s) (INR n))).
Proof.
  intros C Hn Hw Hj Hs Wf Cp. ext_start C ["ml_g0"; "ml_g1"] ltac:(apply did_var_ok).
  - intros r t fs prm e col Ht A. giv A "ml_g0" g0 He0 Hs0. giv A "ml_g1" g1 He1 Hs1. cbn [C did_ctx c_nuis]. unfold did_nuis, or_ext. cbn [setup_of su_ext]. rewrite He0, He1. cbn [bind]. eexists. reflexivity.
  - intros out F r t fs prm e col Rp Hr Ht Hc A N g0 g1 Hs0 Hs1. cbn [C did_ctx c_nuis] in N. unfold did_nuis, or_ext in N. cbn [setup_of su_ext] in N.
    assert (Et : t = 0%nat) by (rewrite (rp_n_thetas _ _ _ _ Rp) in Ht; cbn in Ht; lia). subst t.
    val A N Hs0. val A N Hs1. cbn [bind] in N. injection N as N. rewrite !hv_ext in N. cbn [setup_of su_n] in N.
    exists (fun i => fold_share fs d i 0). split; [apply shares|]. set (p := fun i => fold_share fs d i 0) in *. intros a s Ha Ho.
    apply (mean_estimate C w out F r 0 s Hn eq_refl Rp Hr Ht).
    intros i Hi. rewrite <- N. unfold mk_out. cbn [no_a no_b]. unfold s, a, did_score, did_weights, share_weight, share_ok, compl in *. destruct norm; cbn [el_a el_b].
    + split; [ring|]. field. split; [exact Ho|exact Ha].
    + specialize (Ha i Hi). specialize (Ho i Hi). split; [ring|]. field. split; assumption.
Qed.

Lemma cs_obs_ext n dcol norm tr thr x y d t strata w nj b ext b' : let C := cs_ctx L mc n dcol true norm tr thr x y d t strata in
  (0 < n)%nat -> reachable C w -> no_jobs_or_int nj -> (exists sm, m_smpls (w_obj w) = Some sm) ->
  well_formed_predictions ext [dcol] ["ml_g_d0_t0"; "ml_g_d0_t1"; "ml_g_d1_t0"; "ml_g_d1_t1"; "ml_m"] n (m_n_rep (w_obj w)) ->
  complete_predictions ext [dcol] ["ml_g_d0_t0"; "ml_g_d0_t1"; "ml_g_d1_t0"; "ml_g_d1_t1"; "ml_m"] ->
  fit_from C w nj b ext b' (fun F r k fs col => forall g00 g01 g10 g11 m0, supplied ext col "ml_g_d0_t0" r g00 -> supplied ext col "ml_g_d0_t1" r g01 ->
    supplied ext col "ml_g_d1_t0" r g10 -> supplied ext col "ml_g_d1_t1" r g11 -> supplied ext col "ml_m" r m0 -> exists p lam, share_of fs d p /\ share_of fs t lam /\
    let m := clip tr thr m0 in
    let odds := fun i => m i / (1 - m i) in
    let d0t1 := fun i => (1 - d i) * t i * odds i in
    let d0t0 := fun i => (1 - d i) * (1 - t i) * odds i in
    let q1 := fun i => p i * lam i in let q0 := fun i => p i * (1 - lam i) in
    let a := share_weight n norm d p in
    let s := fun i => a i * (g11 i - g10 i - (g01 i - g00 i)) +
      share_weight n norm (both d t) q1 i * (y i - g11 i) - share_weight n norm (both d (compl t)) q0 i * (y i - g10 i) -
      (share_weight n norm d0t1 q1 i * (y i - g01 i) - share_weight n norm d0t0 q0 i * (y i - g00 i)) in
    (share_ok n norm d p -> share_ok n norm (both d t) q1 -> share_ok n norm (both d (compl t)) q0 -> share_ok n norm d0t1 q1 -> share_ok n norm d0t0 q0 -> sumf n a <> 0 ->
     let theta := sumf n s / sumf n a in estimate_is F n 0 r theta (fun i => s i - theta * a i) (sumf n a))).
Proof.
  intros C Hn Hw Hj Hs Wf Cp. ext_start C ["ml_g_d0_t0"; "ml_g_d0_t1"; "ml_g_d1_t0"; "ml_g_d1_t1"; "ml_m"] ltac:(apply cs_var_ok).
  - intros r k fs prm e col Ht A. giv A "ml_g_d0_t0" g00 H1 Sv0. giv A "ml_g_d0_t1" g01 H2 Sv1. giv A "ml_g_d1_t0" g10 H3 Sv2. giv A "ml_g_d1_t1" g11 H4 Sv3. giv A "ml_m" m Em Sm.
    cbn [C cs_ctx c_nuis]. unfold cs_nuis, or_ext. cbn [setup_of su_ext]. rewrite H1, H2, H3, H4, Em. cbn [bind]. eexists. reflexivity.
  - intros out F r k fs prm e col Rp Hr Ht Hc A N g00 g01 g10 g11 m0 Q00 Q01 Q10 Q11 Sm. cbn [C cs_ctx c_nuis] in N. unfold cs_nuis, or_ext in N. cbn [setup_of su_ext] in N.
    assert (Et : k = 0%nat) by (rewrite (rp_n_thetas _ _ _ _ Rp) in Ht; cbn in Ht; lia). subst k.
    val A N Q00. val A N Q01. val A N Q10. val A N Q11. val A N Sm. cbn [bind] in N. injection N as N. rewrite hv_clip, !hv_ext in N. cbn [setup_of su_n] in N.
    set (p := fun i => fold_share fs d i 0) in *. set (lam := fun i => fold_share fs t i 0) in *. exists p, lam. split; [apply shares|]. split; [apply shares|].
    intros m odds d0t1 d0t0 q1 q0 a s A1 A2 A3 A4 A5 Hs' theta.
    apply (ratio_estimate C w out F r 0 a s Hn eq_refl Rp Hr Ht); [|exact Hs'].
    intros i Hi. rewrite <- N. fold m. unfold mk_out. cbn [no_a no_b]. unfold s, a, cs_score, cs_weight_a, cs_resid_weights, share_weight, both, compl. destruct norm; cbn [el_a el_b].
    + unfold d0t1, d0t0, odds. split; ring.
    + unfold d0t1, d0t0, odds, q1, q0, Rdiv. split; ring.
Qed.
Lemma cs_exp_ext n dcol norm tr thr x y d t strata w nj b ext b' : let C := cs_ctx L mc n dcol false norm tr thr x y d t strata in
  (0 < n)%nat -> reachable C w -> no_jobs_or_int nj -> (exists sm, m_smpls (w_obj w) = Some sm) ->
  well_formed_predictions ext [dcol] ["ml_g_d0_t0"; "ml_g_d0_t1"; "ml_g_d1_t0"; "ml_g_d1_t1"] n (m_n_rep (w_obj w)) ->
  complete_predictions ext [dcol] ["ml_g_d0_t0"; "ml_g_d0_t1"; "ml_g_d1_t0"; "ml_g_d1_t1"] ->
  fit_from C w nj b ext b' (fun F r k fs col => forall g00 g01 g10 g11, supplied ext col "ml_g_d0_t0" r g00 -> supplied ext col "ml_g_d0_t1" r g01 ->
    supplied ext col "ml_g_d1_t0" r g10 -> supplied ext col "ml_g_d1_t1" r g11 -> exists p lam, share_of fs d p /\ share_of fs t lam /\
    let q11 := fun i => p i * lam i in let q10 := fun i => p i * (1 - lam i) in
    let q01 := fun i => (1 - p i) * lam i in let q00 := fun i => (1 - p i) * (1 - lam i) in
    let s := fun i => g11 i - g10 i - (g01 i - g00 i) +
      share_weight n norm (both d t) q11 i * (y i - g11 i) - share_weight n norm (both d (compl t)) q10 i * (y i - g10 i) -
      (share_weight n norm (both (compl d) t) q01 i * (y i - g01 i) - share_weight n norm (both (compl d) (compl t)) q00 i * (y i - g00 i)) in
    (share_ok n norm (both d t) q11 -> share_ok n norm (both d (compl t)) q10 -> share_ok n norm (both (compl d) t) q01 -> share_ok n norm (both (compl d) (compl t)) q00 ->
     estimate_is F n 0 r (meanf n s) (fun i => s i - meanf n s) (INR n))).
Proof.
  intros C Hn Hw Hj Hs Wf Cp. ext_start C ["ml_g_d0_t0"; "ml_g_d0_t1"; "ml_g_d1_t0"; "ml_g_d1_t1"] ltac:(apply cs_var_ok).
  - intros r k fs prm e col Ht A. giv A "ml_g_d0_t0" g00 H1 Sv0. giv A "ml_g_d0_t1" g01 H2 Sv1. giv A "ml_g_d1_t0" g10 H3 Sv2. giv A "ml_g_d1_t1" g11 H4 Sv3.
    cbn [C cs_ctx c_nuis]. unfold cs_nuis, or_ext. cbn [setup_of su_ext]. rewrite H1, H2, H3, H4. cbn [bind]. eexists. reflexivity.
  - intros out F r k fs prm e col Rp Hr Ht Hc A N g00 g01 g10 g11 Q00 Q01 Q10 Q11. cbn [C cs_ctx c_nuis] in N. unfold cs_nuis, or_ext in N. cbn [setup_of su_ext] in N.
    assert (Et : k = 0%nat) by (rewrite (rp_n_thetas _ _ _ _ Rp) in Ht; cbn in Ht; lia). subst k.
    val A N Q00. val A N Q01. val A N Q10. val A N Q11. cbn [bind] in N. injection N as N. rewrite !hv_ext in N. cbn [setup_of su_n] in N.
    set (p := fun i => fold_share fs d i 0) in *. set (lam := fun i => fold_share fs t i 0) in *. exists p, lam. split; [apply shares|]. split; [apply shares|].
    intros q11 q10 q01 q00 s A1 A2 A3 A4. apply (mean_estimate C w out F r 0 s Hn eq_refl Rp Hr Ht).
    intros i Hi. rewrite <- N. unfold mk_out. cbn [no_a no_b]. unfold s, cs_score, cs_weight_a, cs_resid_weights, share_weight, both, compl. destruct norm; cbn [el_a el_b]; unfold q11, q10, q01, q00, Rdiv; split; ring.
Qed.
End Classes.

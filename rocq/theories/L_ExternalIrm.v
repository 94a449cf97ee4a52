(** Fits from complete external predictions: interactive models. *)
From Verif Require Export L_External.
From Coq Require Import Lia Lra FunctionalExtensionality.
Local Open Scope R_scope.
Local Open Scope res_scope.
Local Open Scope string_scope.

Section Classes.
Context {E P : Type}.
Variable L : learner E row P.
Variable mc : machinery E P.

Lemma irm_ate_ext n dcol norm bo tr thr wa nr x y d strata w nj b ext b' : let C := irm_ctx L mc n dcol false norm bo tr thr (weights_of wa) x y d strata in
  (0 < n)%nat -> check_weights wa ScATE n nr = Ok tt -> reachable C w -> no_jobs_or_int nj -> (exists sm, m_smpls (w_obj w) = Some sm) ->
  well_formed_predictions ext [dcol] ["ml_g0"; "ml_g1"; "ml_m"] n (m_n_rep (w_obj w)) -> complete_predictions ext [dcol] ["ml_g0"; "ml_g1"; "ml_m"] ->
  (bo = true -> soft_predictions ext dcol "ml_g1" n) ->
  fit_from C w nj b ext b' (fun F r t fs col => forall g0 g1 m0, supplied ext col "ml_g0" r g0 -> supplied ext col "ml_g1" r g1 -> supplied ext col "ml_m" r m0 ->
    let W := weights_of wa r in let ma := ps_adjust n (clip tr thr m0) d norm in
    let s := fun i => wg W i * (g1 i - g0 i) + resid_weights W i * (d i * (y i - g1 i) / ma i - (1 - d i) * (y i - g0 i) / (1 - ma i)) in
    off_bounds n ma -> estimate_is F n 0 r (meanf n s) (fun i => s i - meanf n s * (wg W i / meanf n (wg W))) (INR n)).
Proof.
  intros C Hn Ha Hw Hj Hs Wf Cp Sf. ext_start C ["ml_g0"; "ml_g1"; "ml_m"] ltac:(apply irm_var_ok).
  - intros r t fs prm e col Ht A. giv A "ml_g0" g0 He0 Hs0. giv A "ml_g1" g1 He1 Hs1. giv A "ml_m" m Em Sm. cbn [C irm_ctx c_nuis c_dcols] in *. unfold irm_nuis, or_ext. cbn [setup_of su_ext]. rewrite He0, He1, Em. cbn [bind setup_of su_n].
    assert (Ec : col = dcol) by (apply nth_error_In in Ht; destruct Ht as [<-|[]]; reflexivity). subst col.
    assert (Q : (bo && negb false && binary_preds n (ext_hat g1))%bool = false).
    { destruct bo; [|reflexivity]. apply (soft_not_binary ext dcol "ml_g1" n r g1); [exact (Sf eq_refl)|exact Hs1|reflexivity]. }
    rewrite Q. cbn [negb require bind]. eexists. reflexivity.
  - intros out F r t fs prm e col Rp Hr Ht Hc A N g0 g1 m0 Hs0 Hs1 Sm W ma s _. cbn [C irm_ctx c_nuis] in N. unfold irm_nuis, or_ext in N. cbn [setup_of su_ext] in N.
    assert (Et : t = 0%nat) by (rewrite (rp_n_thetas _ _ _ _ Rp) in Ht; cbn in Ht; lia). subst t.
    val A N Hs0. val A N Hs1. val A N Sm. cbn [bind] in N. destruct (negb _); cbn [require bind] in N; [|discriminate N]. injection N as N. rewrite hv_clip, !hv_ext in N. cbn [setup_of su_n] in N.
    pose proof (accepted_mean wa n nr r Hn Ha) as Pw. fold W in Pw. assert (Sn := sum_norm n (wg W) Hn ltac:(lra)). assert (Hi : INR n <> 0) by (apply not_0_INR; lia).
    eapply estimate_eq; [apply (ratio_estimate C w out F r 0 (fun i => wg W i / meanf n (wg W)) s Hn eq_refl Rp Hr Ht)| | |].
    + intros i _. rewrite <- N. split; [unfold mk_out, irm_score, irm_weights; cbn; fold W; ring|reflexivity].
    + cbn [C irm_ctx c_n]. rewrite Sn. exact Hi.
    + cbn [C irm_ctx c_n]. rewrite Sn. reflexivity.
    + intros i _. cbn [C irm_ctx c_n]. rewrite Sn. reflexivity.
    + cbn [C irm_ctx c_n]. rewrite Sn. reflexivity.
Qed.

Lemma irm_atte_ext n dcol norm bo tr thr w_ x y d strata w nj b ext b' : let C := irm_ctx L mc n dcol true norm bo tr thr w_ x y d strata in
  (0 < n)%nat -> binary n d -> reachable C w -> no_jobs_or_int nj -> (exists sm, m_smpls (w_obj w) = Some sm) ->
  well_formed_predictions ext [dcol] ["ml_g0"; "ml_g1"; "ml_m"] n (m_n_rep (w_obj w)) -> complete_predictions ext [dcol] ["ml_g0"; "ml_g1"; "ml_m"] ->
  fit_from C w nj b ext b' (fun F r t fs col => forall g0 m0, supplied ext col "ml_g0" r g0 -> supplied ext col "ml_m" r m0 ->
    let ma := ps_adjust n (clip tr thr m0) d norm in let W := wg (w_ r) in
    let s := fun i => W i * (d i * (y i - g0 i) - (1 - d i) * (ma i / (1 - ma i)) * (y i - g0 i)) in
    sumf n (fun i => W i * d i) <> 0 -> off_bounds n ma ->
    let theta := sumf n s / sumf n (fun i => W i * d i) in
    estimate_is F n 0 r theta (fun i => s i - theta * (W i * d i)) (sumf n (fun i => W i * d i))).
Proof.
  intros C Hn B Hw Hj Hsm Wf Cp. ext_start C ["ml_g0"; "ml_g1"; "ml_m"] ltac:(apply irm_var_ok).
  - intros r t fs prm e col Ht A. giv A "ml_g0" g0 He0 Hs0. giv A "ml_g1" g1 He1 Hs1. giv A "ml_m" m Em Sm. cbn [C irm_ctx c_nuis c_dcols] in *. unfold irm_nuis, or_ext. cbn [setup_of su_ext]. rewrite He0, He1, Em. cbn [bind setup_of su_n].
    rewrite andb_comm, andb_assoc. cbn [negb]. rewrite andb_false_r. cbn [negb require bind]. eexists. reflexivity.
  - intros out F r t fs prm e col Rp Hr Ht Hc A N g0 m0 Hs0 Sm ma W s Hs Hma theta. cbn [C irm_ctx c_nuis] in N. unfold irm_nuis, or_ext in N. cbn [setup_of su_ext] in N.
    assert (Et : t = 0%nat) by (rewrite (rp_n_thetas _ _ _ _ Rp) in Ht; cbn in Ht; lia). subst t. giv A "ml_g1" g1 He1 Hs1.
    val A N Hs0. rewrite He1 in N. val A N Sm. cbn [bind] in N. destruct (negb _); cbn [require bind] in N; [|discriminate N]. injection N as N. rewrite hv_clip, !hv_ext in N. cbn [setup_of su_n] in N.
    assert (Hi : INR n <> 0) by (apply not_0_INR; lia).
    set (p := meanf n (fun i => W i * d i)) in *. assert (Hp : p <> 0) by (unfold p, meanf, Rdiv; apply Rmult_integral_contrapositive_currified; [exact Hs|apply Rinv_neq_0_compat, Hi]).
    assert (Ep : sumf n (fun i => W i * d i) = INR n * p) by (apply sum_mean; exact Hn).
    assert (Sd : sumf n (fun i => W i * d i / p) = INR n) by (apply (sum_norm n (fun i => W i * d i) Hn Hp)).
    assert (Sb' : sumf n (fun i => s i / p) = sumf n s / p) by (unfold Rdiv; rewrite (sumf_ext n _ (fun i => / p * s i)) by (intros; ring); rewrite sumf_scal; ring).
    assert (Eth : sumf n s / p / INR n = theta) by (unfold theta; rewrite Ep; field; split; assumption).
    pose proof (ratio_estimate C w out F r 0 (fun i => W i * d i / p) (fun i => s i / p) Hn eq_refl Rp Hr Ht) as Q. cbv zeta in Q. cbn [C irm_ctx c_n] in Q. rewrite Sd, Sb', Eth in Q.
    assert (Q' : estimate_is F n 0 r theta (fun i => s i / p - theta * (W i * d i / p)) (INR n)).
    { apply Q; [|exact Hi]. intros i Hlt. rewrite <- N. unfold mk_out. cbn [no_a no_b]. unfold irm_score, irm_weights. cbn [fst snd el_a el_b]. fold ma W p. assert (Md : meanf n (fun j => W j * d j / p) = 1) by (apply (meanf_norm n (fun j => W j * d j) Hp)). rewrite Md. split; [field; exact Hp|].
      unfold s. destruct (Hma i Hlt) as (Hma1 & _). destruct (B i Hlt) as [Ed|Ed]; rewrite Ed in *.
      - unfold Rdiv. ring.
      - unfold Rdiv. replace ((1 - 1) * (y i - g0 i) * / (1 - ma i)) with 0 by ring. replace ((1 - 1) * (ma i * / (1 - ma i)) * (y i - g0 i)) with 0 by ring. field. split; assumption. }
    destruct Q' as (Q1 & Q2 & Q3). split; [exact Q1|]. split; [|intros i Hj'; rewrite (Q3 i Hj'), Ep; field; split; assumption]. rewrite Q2, Ep, Rabs_mult, (Rabs_pos_eq (INR n)) by apply pos_INR.
    rewrite (sumf_ext n _ (fun i => (/ p) ^ 2 * (s i - theta * (W i * d i)) ^ 2)) by (intros; field; exact Hp). rewrite sumf_scal, sqrt_mult; [|apply pow2_ge_0|apply sumf_nonneg; intros; apply pow2_ge_0].
    replace ((/ p) ^ 2) with (Rsqr (/ p)) by (unfold Rsqr; ring). rewrite sqrt_Rsqr_abs, Rabs_inv. field. split; [apply Rabs_no_R0, Hp|exact Hi].
Qed.

Lemma apo_given n r t prm e name c v k (h : vec) : e name = Some h ->
  apo_ext (E := E) (P := P) (setup_of mc n r t prm e) name c v k = Ok {| h_preds := fun i => Some (h i); h_targets := Some (fun i => if c i then Some (v i) else None) |}.
Proof. unfold apo_ext. cbn [setup_of su_ext]. intros ->. reflexivity. Qed.
Lemma apo_full_ext n dcol norm bo tr thr wa nr x y d lvl strata w nj b ext b' : let C := apo_ctx L mc n dcol norm bo tr thr (weights_of wa) x y d lvl strata in
  (0 < n)%nat -> check_weights wa ScATE n nr = Ok tt -> reachable C w -> no_jobs_or_int nj -> (exists sm, m_smpls (w_obj w) = Some sm) ->
  well_formed_predictions ext [dcol] ["ml_g_d_lvl0"; "ml_g_d_lvl1"; "ml_m"] n (m_n_rep (w_obj w)) -> complete_predictions ext [dcol] ["ml_g_d_lvl0"; "ml_g_d_lvl1"; "ml_m"] ->
  (bo = true -> soft_predictions ext dcol "ml_g_d_lvl0" n /\ soft_predictions ext dcol "ml_g_d_lvl1" n) ->
  fit_from C w nj b ext b' (fun F r t fs col => forall g1 m0, supplied ext col "ml_g_d_lvl1" r g1 -> supplied ext col "ml_m" r m0 ->
    let W := weights_of wa r in let ma := ps_adjust n (clip tr thr m0) lvl norm in
    let s := fun i => wg W i * g1 i + resid_weights W i * (lvl i * (y i - g1 i) / ma i) in
    (forall i, (i < n)%nat -> ma i <> 0) -> estimate_is F n 0 r (meanf n s) (fun i => s i - meanf n s * (wg W i / meanf n (wg W))) (INR n)).
Proof.
  intros C Hn Ha Hw Hj Hs Wf Cp Sf. ext_start C ["ml_g_d_lvl0"; "ml_g_d_lvl1"; "ml_m"] ltac:(apply apo_var_ok).
  - intros r t fs prm e col Ht A. giv A "ml_g_d_lvl0" g0 He0 Hs0. giv A "ml_g_d_lvl1" g1 He1 Hs1. giv A "ml_m" m Em Sm. cbn [C apo_ctx c_nuis c_dcols] in *.
    assert (Ec : col = dcol) by (apply nth_error_In in Ht; destruct Ht as [<-|[]]; reflexivity). subst col. unfold apo_nuis.
    assert (Q : forall l v h, supplied ext dcol l r v -> (bo = true -> soft_predictions ext dcol l n) -> h_preds h = (fun i => Some (v i)) -> (bo && binary_preds n h)%bool = false).
    { intros l v h Sv Hv Eh. destruct bo; [|reflexivity]. apply (soft_not_binary ext dcol l n r v); [exact (Hv eq_refl)|exact Sv|exact Eh]. }
    rewrite (apo_given _ _ _ _ _ _ _ _ _ _ He1). cbn [bind setup_of su_n]. rewrite (Q "ml_g_d_lvl1" g1) by (try assumption; try reflexivity; intro X; apply (Sf X)). cbn [negb require].
    rewrite (apo_given _ _ _ _ _ _ _ _ _ _ He0). cbn [bind setup_of su_n]. rewrite (Q "ml_g_d_lvl0" g0) by (try assumption; try reflexivity; intro X; apply (Sf X)). cbn [negb require].
    rewrite (apo_given _ _ _ _ _ _ _ _ _ _ Em). cbn [bind]. eexists. reflexivity.
  - intros out F r t fs prm e col Rp Hr Ht Hc A N g1 m0 Hs1 Sm W ma s _. cbn [C apo_ctx c_nuis] in N. unfold apo_nuis in N.
    assert (Et : t = 0%nat) by (rewrite (rp_n_thetas _ _ _ _ Rp) in Ht; cbn in Ht; lia). subst t. giv A "ml_g_d_lvl0" g0 He0 Hs0.
    assert (He1 := given_val _ _ _ _ _ _ _ _ A (or_intror (or_introl eq_refl)) Hs1). assert (Em := given_val _ _ _ _ _ _ _ _ A (or_intror (or_intror (or_introl eq_refl))) Sm).
    rewrite (apo_given _ _ _ _ _ _ _ _ _ _ He1) in N. cbn [bind] in N. destruct (negb _); cbn [require bind] in N; [|discriminate N].
    rewrite (apo_given _ _ _ _ _ _ _ _ _ _ He0) in N. cbn [bind] in N. destruct (negb _); cbn [require bind] in N; [|discriminate N].
    rewrite (apo_given _ _ _ _ _ _ _ _ _ _ Em) in N. cbn [bind] in N. injection N as N. rewrite hv_trim in N. cbn [setup_of su_n h_preds] in N.
    pose proof (accepted_mean wa n nr r Hn Ha) as Pw. fold W in Pw. assert (Sn := sum_norm n (wg W) Hn ltac:(lra)). assert (Hi : INR n <> 0) by (apply not_0_INR; lia).
    eapply estimate_eq; [apply (ratio_estimate C w out F r 0 (fun i => wg W i / meanf n (wg W)) s Hn eq_refl Rp Hr Ht)| | |].
    + intros i _. rewrite <- N. split; [unfold mk_out, apo_score, apo_weights; cbn; fold W; ring|reflexivity].
    + cbn [C apo_ctx c_n]. rewrite Sn. exact Hi.
    + cbn [C apo_ctx c_n]. rewrite Sn. reflexivity.
    + intros i _. cbn [C apo_ctx c_n]. rewrite Sn. reflexivity.
    + cbn [C apo_ctx c_n]. rewrite Sn. reflexivity.
Qed.

(** The names needed by the interactive IV model. *)
Definition iivm_names (at1 nt1 : bool) : list string := (["ml_g0"; "ml_g1"; "ml_m"] ++ (if at1 then ["ml_r0"] else []) ++ (if nt1 then ["ml_r1"] else []))%list.
Lemma const_finite smpls c : finite_on smpls (const_hat c) = true.
Proof. apply forallb_forall. intros. reflexivity. Qed.
Lemma ext_finite smpls v : finite_on smpls (ext_hat v) = true.
Proof. apply forallb_forall. intros. reflexivity. Qed.
Lemma iivm_full_ext n dcol norm bo at1 nt1 tr thr x y z d strata w nj b ext b' : let C := iivm_ctx L mc n dcol norm bo at1 nt1 tr thr x y z d strata in
  (0 < n)%nat -> reachable C w -> no_jobs_or_int nj -> (exists sm, m_smpls (w_obj w) = Some sm) ->
  well_formed_predictions ext [dcol] ["ml_g0"; "ml_g1"; "ml_m"; "ml_r0"; "ml_r1"] n (m_n_rep (w_obj w)) ->
  complete_predictions ext [dcol] (["ml_g0"; "ml_g1"; "ml_m"] ++ (if at1 then ["ml_r0"] else []) ++ (if nt1 then ["ml_r1"] else []))%list ->
  (bo = true -> soft_predictions ext dcol "ml_g0" n /\ soft_predictions ext dcol "ml_g1" n) ->
  fit_from C w nj b ext b' (fun F r t fs col => forall g0 g1 m0 r0 r1, supplied ext col "ml_g0" r g0 -> supplied ext col "ml_g1" r g1 -> supplied ext col "ml_m" r m0 ->
    (if at1 then supplied ext col "ml_r0" r r0 else forall i, r0 i = 0) -> (if nt1 then supplied ext col "ml_r1" r r1 else forall i, r1 i = 1) ->
    let ma := iivm_adjust n norm d (clip tr thr m0) in
    let sy := dr_signal y z g0 g1 ma in let sd := dr_signal d z r0 r1 ma in
    off_bounds n ma -> sumf n sd <> 0 ->
    let theta := sumf n sy / sumf n sd in estimate_is F n 0 r theta (fun i => sy i - theta * sd i) (sumf n sd)).
Proof.
  intros C Hn Hw Hj Hs Wf Cp Sf. apply (fit_external C (iivm_names at1 nt1)); try assumption; try discriminate; try reflexivity.
  - intros l Hl. unfold iivm_names in Hl. destruct at1, nt1; cbn in *; tauto.
  - intros r t fs prm e col Ht A. giv A "ml_g0" g0 He0 Hs0. giv A "ml_g1" g1 He1 Hs1. giv A "ml_m" m Em Sm. cbn [C iivm_ctx c_nuis c_dcols] in *.
    assert (Ec : col = dcol) by (apply nth_error_In in Ht; destruct Ht as [<-|[]]; reflexivity). subst col.
    assert (Q : forall l v, supplied ext dcol l r v -> (bo = true -> soft_predictions ext dcol l n) -> (bo && binary_preds n (ext_hat v))%bool = false).
    { intros l v Sv Hv. destruct bo; [|reflexivity]. apply (soft_not_binary ext dcol l n r v); [exact (Hv eq_refl)|exact Sv|reflexivity]. }
    unfold iivm_nuis, or_ext. cbn [setup_of su_ext]. rewrite He0, He1, Em. cbn [bind setup_of su_n].
    rewrite (Q "ml_g0" g0) by (try assumption; intro X; apply (Sf X)). cbn [negb require bind]. rewrite (Q "ml_g1" g1) by (try assumption; intro X; apply (Sf X)). cbn [negb require bind].
    destruct at1.
    + destruct (A "ml_r0" ltac:(unfold iivm_names; cbn; tauto)) as (v0 & Ev0 & _). rewrite Ev0. cbn [bind]. destruct nt1.
      * destruct (A "ml_r1" ltac:(unfold iivm_names; cbn; tauto)) as (v1 & Ev1 & _). rewrite Ev1. cbn [bind]. eexists. reflexivity.
      * cbn [bind]. destruct (e "ml_r1"); [|rewrite const_finite]; cbn [require bind]; eexists; reflexivity.
    + cbn [bind]. destruct nt1.
      * destruct (A "ml_r1" ltac:(unfold iivm_names; cbn; tauto)) as (v1 & Ev1 & _). rewrite Ev1. destruct (e "ml_r0"); [|rewrite const_finite]; cbn [require bind]; eexists; reflexivity.
      * destruct (e "ml_r0"); [|rewrite const_finite]; cbn [require bind]; (destruct (e "ml_r1"); [|rewrite const_finite]; cbn [require bind]; eexists; reflexivity).
  - intros out F r t fs prm e col Rp Hr Ht Hc A N g0 g1 m0 r0 r1 Hs0 Hs1 Sm Sr0 Sr1 ma sy sd _ Hs' theta. cbn [C iivm_ctx c_nuis] in N. unfold iivm_nuis, or_ext in N. cbn [setup_of su_ext] in N.
    assert (Et : t = 0%nat) by (rewrite (rp_n_thetas _ _ _ _ Rp) in Ht; cbn in Ht; lia). subst t.
    val A N Hs0. val A N Hs1. val A N Sm. cbn [bind] in N. destruct (negb _); cbn [require bind] in N; [|discriminate N]. destruct (negb _); cbn [require bind] in N; [|discriminate N].
    assert (Q : no_a (out r 0%nat) = el_a (iivm_score n norm y z d g0 g1 (clip tr thr m0) r0 r1) /\ no_b (out r 0%nat) = el_b (iivm_score n norm y z d g0 g1 (clip tr thr m0) r0 r1)).
    { assert (T : forall (have : bool) (v : vec) c l, (if have then supplied ext col l r v else forall i, v i = c) -> (have = true -> In l (iivm_names at1 nt1)) -> if have then e l = Some v else v = (fun _ => c)).
      { intros have v c l Hv Hin. destruct have; [exact (given_val _ _ _ _ _ _ _ _ A (Hin eq_refl) Hv)|apply functional_extensionality, Hv]. }
      apply (T at1 r0 0 "ml_r0") in Sr0; [|intros ->; unfold iivm_names; cbn; tauto]. apply (T nt1 r1 1 "ml_r1") in Sr1; [|intros ->; unfold iivm_names; destruct at1; cbn; tauto].
      rewrite <- (hv_clip tr thr m0).
      destruct at1; [rewrite Sr0 in N|subst r0]; cbn [bind] in N; [|destruct (e "ml_r0"); [|rewrite const_finite in N]; cbn [require bind] in N];
      (destruct nt1; [rewrite Sr1 in N|subst r1]; cbn [bind] in N; [|destruct (e "ml_r1"); [|rewrite const_finite in N]; cbn [require bind] in N]); injection N as N; rewrite <- N; split; reflexivity. }
    apply (ratio_estimate C w out F r 0 sd sy Hn eq_refl Rp Hr Ht); [|exact Hs'].
    intros i Hi. destruct Q as (-> & ->). unfold iivm_score. cbn [el_a el_b]. fold ma. unfold sy, sd, dr_signal, dr_level, compl. split; unfold Rdiv; ring.
Qed.
End Classes.

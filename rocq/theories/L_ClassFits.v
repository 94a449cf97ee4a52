(** Complete fits of the model classes (continued). *)
From Verif Require Export L_Classes.
From Coq Require Import Lia Lra FunctionalExtensionality.
Local Open Scope R_scope.
Local Open Scope res_scope.
Local Open Scope string_scope.

Lemma sum_mean n (v : vec) : (0 < n)%nat -> sumf n v = INR n * meanf n v.
Proof. intro Hn. unfold meanf. field. apply not_0_INR. lia. Qed.
Lemma sum_norm n (v : vec) : (0 < n)%nat -> meanf n v <> 0 -> sumf n (fun i => v i / meanf n v) = INR n.
Proof. intros Hn H. rewrite sum_mean by exact Hn. rewrite meanf_norm by exact H. ring. Qed.
Ltac lab H Es Hr := intros _; eapply rep_labels; [exact H|exact Es|exact Hr].
Ltac lab' H Es Hr := eapply rep_labels; [exact H|exact Es|exact Hr].

Section Classes.
Context {E P : Type}.
Variable L : learner E row P.
Variables (f : E -> row -> R) (g : E -> row -> list R).
Variable mc : machinery E P.
Notation Used := (used_prediction L f g mc).
Notation Labels := (labels_everywhere L g mc).
(** Cross-fitted with the parameters of the object, for classes that ignore
    external predictions. *)
Notation Own w n r t col := (setup_of mc n r t (fun l => nth r (m_params (w_obj w) l col) None) (fun _ => None)).

Lemma pliv_iv_fit n dcols x y d z w nj store ext smod w' : let C := pliv_ctx L mc n dcols true x y d z in
  (0 < n)%nat -> dcols <> [] -> soundly_reached C w -> sound_learning L f g mc w ->
  Labels w n "ml_l" y everyone -> Labels w n "ml_m" z everyone -> (forall t, Labels w n "ml_r" (d t) everyone) -> mc_proba mc "ml_g" = false ->
  fit C nj store ext smod w = (w', Ok tt) ->
  exists F sm, fit_done w w' F sm (length dcols) /\
    forall r t fs col, nth_error sm r = Some fs -> nth_error dcols t = Some col -> exists l m q gg th,
      Used w n ext r t col "ml_l" "ml_l" (x t) y whole_train fs l /\ Used w n ext r t col "ml_m" "ml_m" (x t) z whole_train fs m /\
      Used w n ext r t col "ml_r" "ml_r" (x t) (d t) whole_train fs q /\ Used w n ext r t col "ml_g" "ml_g" (x t) (fun i => y i - th * d t i) whole_train fs gg /\
      (sumf n (fun i => (z i - m i) * (d t i - q i)) <> 0 -> th = sumf n (fun i => (z i - m i) * (y i - l i)) / sumf n (fun i => (z i - m i) * (d t i - q i))) /\
      (sumf n (fun i => (z i - m i) * d t i) <> 0 ->
       let theta := sumf n (fun i => (z i - m i) * (y i - gg i)) / sumf n (fun i => (z i - m i) * d t i) in
       estimate_is F n t r theta (fun i => (z i - m i) * (y i - gg i - theta * d t i)) (sumf n (fun i => (z i - m i) * d t i))).
Proof.
  intros C Hn Hd Hw HL Hl Hm Hq Hg H. start L f g mc C H Hw HL. assert (Es : m_smpls (w_obj w) = Some sm) by apply Fd. intros r t fs col Hr Ht.
  destruct (K r t fs col Hr Ht) as (Hr' & Ht' & e & M & S & N). cbn [C pliv_ctx c_nuis c_n] in N, S.
  edestruct (pliv_iv_type L f g) as (l & m & q & gg & th & N1 & N2 & N3 & Sl & N4 & _ & _ & _ & _ & Sc); [exact S|lab Hl Es Hr|lab Hm Es Hr|lab (Hq t) Es Hr|intros v _ Z; cbn [setup_of su_proba] in Z; congruence|exact N|].
  exists l, m, q, gg, th. split; [used M N1|]. split; [used M N2|]. split; [used M N3|]. split; [used M N4|]. unfold slope_of in Sl. cbn [setup_of su_n] in Sl.
  split; [intro Hs; rewrite <- (Sl Hs); field; exact Hs|]. intros Hs theta.
  eapply estimate_eq; [apply (ratio_estimate C w out F r t (fun i => (z i - m i) * d t i) (fun i => (z i - m i) * (y i - gg i)) Hn eq_refl Rp Hr' Ht' Sc Hs)|reflexivity| |reflexivity].
  intros i _. cbv beta zeta. cbn [C c_n pliv_ctx]. fold theta. ring.
Qed.

Lemma pliv_several_fit proj n dcols x y d zs w nj store ext smod w' : let C := pliv_several_ctx L mc n proj dcols x y d zs in
  (0 < n)%nat -> dcols <> [] -> NoDup (map fst zs) -> soundly_reached C w -> sound_learning L f g mc w ->
  Labels w n "ml_l" y everyone -> (forall name z, In (name, z) zs -> Labels w n "ml_m" z everyone) -> (forall t, Labels w n "ml_r" (d t) everyone) ->
  fit C nj store ext smod w = (w', Ok tt) ->
  exists F sm, fit_done w w' F sm (length dcols) /\
    forall r t fs col, nth_error sm r = Some fs -> nth_error dcols t = Some col -> exists l q (mf : string -> vec),
      Used w n ext r t col "ml_l" "ml_l" (x t) y whole_train fs l /\ Used w n ext r t col "ml_r" "ml_r" (x t) (d t) whole_train fs q /\
      (forall name z, In (name, z) zs -> Used w n ext r t col ("ml_m_" ++ name)%string "ml_m" (x t) z whole_train fs (mf name)) /\
      let v := fun i => map (fun p : string * vec => snd p i - mf (fst p) i) zs in
      let hat := fun i => proj (map (fun j => (v j, d t j - q j)) (seq 0 n)) (v i) in
      (sumf n (fun i => hat i * (d t i - q i)) <> 0 ->
       let theta := sumf n (fun i => hat i * (y i - l i)) / sumf n (fun i => hat i * (d t i - q i)) in
       estimate_is F n t r theta (fun i => hat i * (y i - l i - theta * (d t i - q i))) (sumf n (fun i => hat i * (d t i - q i)))).
Proof.
  intros C Hn Hd Nd Hw HL Hl Hm Hq H. start L f g mc C H Hw HL. assert (Es : m_smpls (w_obj w) = Some sm) by apply Fd. intros r t fs col Hr Ht.
  destruct (K r t fs col Hr Ht) as (Hr' & Ht' & e & M & S & N). cbn [C pliv_several_ctx c_nuis c_n] in N, S.
  edestruct (pliv_several L f g) as (l & q & mf & N1 & N2 & _ & _ & N3 & Sc); [exact S|exact Nd|lab Hl Es Hr|intros name z Hz; lab (Hm name z Hz) Es Hr|lab (Hq t) Es Hr|exact N|].
  exists l, q, mf. split; [used M N1|]. split; [used M N2|]. split.
  { intros name z Hz. eapply rep_used; [|exact (proj1 (N3 name z Hz))]. apply M. cbn. right. right. apply (in_map (fun p => ("ml_m_" ++ fst p)%string) zs (name, z) Hz). }
  intros v hat Hs theta. eapply estimate_eq; [apply (ratio_estimate C w out F r t (fun i => hat i * (d t i - q i)) (fun i => hat i * (y i - l i)) Hn eq_refl Rp Hr' Ht')|reflexivity| |reflexivity].
  - intros i Hi. destruct (Sc i Hi) as (-> & ->). split; [|reflexivity]. transitivity (- ((d t i - q i) * hat i)); [reflexivity|ring].
  - exact Hs.
  - intros i _. cbv beta zeta. cbn [C c_n pliv_several_ctx]. fold theta. ring.
Qed.

Lemma pliv_z_fit n dcols x zrow y d w nj store ext smod w' : let C := pliv_z_ctx L mc n dcols x zrow y d in
  (0 < n)%nat -> dcols <> [] -> soundly_reached C w -> sound_learning L f g mc w -> (forall t, Labels w n "ml_r" (d t) everyone) ->
  fit C nj store ext smod w = (w', Ok tt) ->
  exists F sm, fit_done w w' F sm (length dcols) /\
    forall r t fs col, nth_error sm r = Some fs -> nth_error dcols t = Some col -> exists q,
      cross_fitted L f g (Own w n r t col) "ml_r" "ml_r" (fun i => x t i ++ zrow i)%list (d t) whole_train fs q /\
      (sumf n (fun i => q i * d t i) <> 0 ->
       let theta := sumf n (fun i => q i * y i) / sumf n (fun i => q i * d t i) in
       estimate_is F n t r theta (fun i => q i * (y i - theta * d t i)) (sumf n (fun i => q i * d t i))).
Proof.
  intros C Hn Hd Hw HL Hq H. start L f g mc C H Hw HL. assert (Es : m_smpls (w_obj w) = Some sm) by apply Fd. intros r t fs col Hr Ht.
  destruct (K r t fs col Hr Ht) as (Hr' & Ht' & e & M & S & N). cbn [C pliv_z_ctx c_nuis c_n] in N, S.
  edestruct (pliv_z L f g) as (q & N1 & _ & Sc); [exact S|lab' (Hq t) Es Hr|exact N|].
  exists q. split; [exact N1|]. intros Hs theta.
  eapply estimate_eq; [apply (ratio_estimate C w out F r t (fun i => q i * d t i) (fun i => q i * y i) Hn eq_refl Rp Hr' Ht' Sc Hs)|reflexivity| |reflexivity].
  intros i _. cbv beta zeta. cbn [C c_n pliv_z_ctx]. fold theta. ring.
Qed.

Lemma pliv_xz_fit n dcols x zrow y d w nj store ext smod w' : let C := pliv_xz_ctx L mc n dcols x zrow y d in
  (0 < n)%nat -> dcols <> [] -> soundly_reached C w -> sound_learning L f g mc w -> Labels w n "ml_l" y everyone ->
  fit C nj store ext smod w = (w', Ok tt) ->
  exists F sm, fit_done w w' F sm (length dcols) /\
    forall r t fs col, nth_error sm r = Some fs -> nth_error dcols t = Some col -> exists l m mt,
      cross_fitted L f g (Own w n r t col) "ml_l" "ml_l" (x t) y whole_train fs l /\
      projected L f (Own w n r t col) (x t) (fun i => x t i ++ zrow i)%list (d t) fs m mt /\
      (sumf n (fun i => (m i - mt i) * (d t i - mt i)) <> 0 ->
       let theta := sumf n (fun i => (m i - mt i) * (y i - l i)) / sumf n (fun i => (m i - mt i) * (d t i - mt i)) in
       estimate_is F n t r theta (fun i => (m i - mt i) * (y i - l i - theta * (d t i - mt i))) (sumf n (fun i => (m i - mt i) * (d t i - mt i)))).
Proof.
  intros C Hn Hd Hw HL Hl H. start L f g mc C H Hw HL. assert (Es : m_smpls (w_obj w) = Some sm) by apply Fd. intros r t fs col Hr Ht.
  destruct (K r t fs col Hr Ht) as (Hr' & Ht' & e & M & S & N). cbn [C pliv_xz_ctx c_nuis c_n] in N, S.
  edestruct (pliv_xz L f g) as (l & m & mt & N1 & N2 & _ & _ & _ & Sc); [exact S|lab' Hl Es Hr|exact N|].
  exists l, m, mt. split; [exact N1|]. split; [exact N2|]. intros Hs theta.
  eapply estimate_eq; [apply (ratio_estimate C w out F r t (fun i => (m i - mt i) * (d t i - mt i)) (fun i => (m i - mt i) * (y i - l i)) Hn eq_refl Rp Hr' Ht')|reflexivity| |reflexivity].
  - intros i Hi. destruct (Sc i Hi) as (-> & ->). split; [ring|reflexivity].
  - exact Hs.
  - intros i _. cbv beta zeta. cbn [C c_n pliv_xz_ctx]. fold theta. ring.
Qed.

Lemma accepted_mean wa n nr r : (0 < n)%nat -> check_weights wa ScATE n nr = Ok tt -> 0 < meanf n (wg (weights_of wa r)).
Proof.
  intros Hn H. apply accepted_iff in H. destruct wa as [|a|ew eb extra|]; cbn in H; try contradiction; cbn [weights_of].
  - cbn. rewrite mean_one by exact Hn. lra.
  - apply admissible_mean. tauto.
  - destruct H as (_ & _ & a & b & -> & -> & A & _). cbn. apply admissible_mean. exact A.
Qed.
Lemma irm_ate_fit n dcol norm bo tr thr wa nr x y d strata w nj store ext smod w' : let C := irm_ctx L mc n dcol false norm bo tr thr (weights_of wa) x y d strata in
  (0 < n)%nat -> check_weights wa ScATE n nr = Ok tt -> soundly_reached C w -> sound_learning L f g mc w ->
  Labels w n "ml_g" y (fun j => d j = 0) -> Labels w n "ml_g" y (fun j => d j = 1) -> Labels w n "ml_m" d everyone ->
  fit C nj store ext smod w = (w', Ok tt) ->
  exists F sm, fit_done w w' F sm 1 /\ forall r fs, nth_error sm r = Some fs -> (r < nr)%nat -> exists g0 g1 m0 m,
      Used w n ext r 0 dcol "ml_g0" "ml_g" x y (group_rows n (fun j => d j = 0)) fs g0 /\
      Used w n ext r 0 dcol "ml_g1" "ml_g" x y (group_rows n (fun j => d j = 1)) fs g1 /\
      Used w n ext r 0 dcol "ml_m" "ml_m" x d whole_train fs m0 /\ clipped n tr thr m0 m /\
      let W := weights_of wa r in
      let ma := ps_adjust n m d norm in
      let s := fun i => wg W i * (g1 i - g0 i) + resid_weights W i * (d i * (y i - g1 i) / ma i - (1 - d i) * (y i - g0 i) / (1 - ma i)) in
      (off_bounds n ma -> estimate_is F n 0 r (meanf n s) (fun i => s i - meanf n s * (wg W i / meanf n (wg W))) (INR n)).
Proof.
  intros C Hn Ha Hw HL H0 H1 Hm H. start L f g mc C H Hw HL. assert (Es : m_smpls (w_obj w) = Some sm) by apply Fd. intros r fs Hr _.
  destruct (K r 0%nat fs dcol Hr eq_refl) as (Hr' & Ht' & e & M & S & N). cbn [C irm_ctx c_nuis c_n] in N, S.
  edestruct (irm_spec L f g) as (g0 & g1 & m0 & m & N1 & N2 & N3 & Tm & _ & _ & _ & Sc); [exact S|lab H0 Es Hr|lab H1 Es Hr|lab Hm Es Hr|exact N|].
  exists g0, g1, m0, m. split; [used M N1|]. split; [used M N2|]. split; [used M N3|]. split; [exact Tm|]. intros W ma s _.
  pose proof (accepted_mean wa n nr r Hn Ha) as Pw. fold W in Pw. assert (Sn := sum_norm n (wg W) Hn ltac:(lra)). cbn [setup_of su_n] in Sc. destruct Sc as (Sa & Sb).
  assert (Hi : INR n <> 0) by (apply not_0_INR; lia).
  eapply estimate_eq; [apply (ratio_estimate C w out F r 0 (fun i => wg W i / meanf n (wg W)) s Hn eq_refl Rp Hr' Ht')| | |].
  - intros i _. rewrite Sa, Sb. split; [unfold irm_score, irm_weights; cbn; fold W; ring|reflexivity].
  - cbn [C irm_ctx c_n]. rewrite Sn. exact Hi.
  - cbn [C irm_ctx c_n]. rewrite Sn. reflexivity.
  - intros i _. cbn [C irm_ctx c_n]. rewrite Sn. reflexivity.
  - cbn [C irm_ctx c_n]. rewrite Sn. reflexivity.
Qed.

Lemma irm_atte_fit n dcol norm bo tr thr w_ x y d strata w nj store ext smod w' : let C := irm_ctx L mc n dcol true norm bo tr thr w_ x y d strata in
  (0 < n)%nat -> binary n d -> soundly_reached C w -> sound_learning L f g mc w ->
  Labels w n "ml_g" y (fun j => d j = 0) -> Labels w n "ml_g" y (fun j => d j = 1) -> Labels w n "ml_m" d everyone ->
  fit C nj store ext smod w = (w', Ok tt) ->
  exists F sm, fit_done w w' F sm 1 /\ forall r fs, nth_error sm r = Some fs -> exists g0 g1 m0 m,
      Used w n ext r 0 dcol "ml_g0" "ml_g" x y (group_rows n (fun j => d j = 0)) fs g0 /\
      Used w n ext r 0 dcol "ml_g1" "ml_g" x y (group_rows n (fun j => d j = 1)) fs g1 /\
      Used w n ext r 0 dcol "ml_m" "ml_m" x d whole_train fs m0 /\ clipped n tr thr m0 m /\
      let ma := ps_adjust n m d norm in
      let W := wg (w_ r) in
      let s := fun i => W i * (d i * (y i - g0 i) - (1 - d i) * (ma i / (1 - ma i)) * (y i - g0 i)) in
      (sumf n (fun i => W i * d i) <> 0 -> off_bounds n ma ->
       let theta := sumf n s / sumf n (fun i => W i * d i) in
       estimate_is F n 0 r theta (fun i => s i - theta * (W i * d i)) (sumf n (fun i => W i * d i))).
Proof.
  intros C Hn B Hw HL H0 H1 Hm H. start L f g mc C H Hw HL. assert (Es : m_smpls (w_obj w) = Some sm) by apply Fd. intros r fs Hr.
  destruct (K r 0%nat fs dcol Hr eq_refl) as (Hr' & Ht' & e & M & S & N). cbn [C irm_ctx c_nuis c_n] in N, S.
  edestruct (irm_spec L f g) as (g0 & g1 & m0 & m & N1 & N2 & N3 & Tm & _ & _ & _ & Sc); [exact S|lab H0 Es Hr|lab H1 Es Hr|lab Hm Es Hr|exact N|].
  exists g0, g1, m0, m. split; [used M N1|]. split; [used M N2|]. split; [used M N3|]. split; [exact Tm|]. intros ma W s Hs Hma theta.
  cbn [setup_of su_n] in Sc. destruct Sc as (Sa & Sb). assert (Hi : INR n <> 0) by (apply not_0_INR; lia).
  set (p := meanf n (fun i => W i * d i)) in *. assert (Hp : p <> 0) by (unfold p, meanf, Rdiv; apply Rmult_integral_contrapositive_currified; [exact Hs|apply Rinv_neq_0_compat, Hi]).
  assert (Ep : sumf n (fun i => W i * d i) = INR n * p) by (apply sum_mean; exact Hn).
  assert (Sd : sumf n (fun i => W i * d i / p) = INR n) by (apply (sum_norm n (fun i => W i * d i) Hn Hp)).
  assert (Sb' : sumf n (fun i => s i / p) = sumf n s / p) by (unfold Rdiv; rewrite (sumf_ext n _ (fun i => / p * s i)) by (intros; ring); rewrite sumf_scal; ring).
  assert (Et : sumf n s / p / INR n = theta) by (unfold theta; rewrite Ep; field; split; assumption).
  pose proof (ratio_estimate C w out F r 0 (fun i => W i * d i / p) (fun i => s i / p) Hn eq_refl Rp Hr' Ht') as Q. cbv zeta in Q. cbn [C irm_ctx c_n] in Q. rewrite Sd, Sb', Et in Q.
  assert (Q' : estimate_is F n 0 r theta (fun i => s i / p - theta * (W i * d i / p)) (INR n)).
  { apply Q; [|exact Hi]. intros i Hlt. rewrite Sa, Sb. unfold irm_score, irm_weights. cbn [fst snd el_a el_b]. fold ma W p. assert (Md : meanf n (fun j => W j * d j / p) = 1) by (apply (meanf_norm n (fun j => W j * d j) Hp)). rewrite Md. split; [field; exact Hp|].
    unfold s. destruct (Hma i Hlt) as (Hma1 & _). destruct (B i Hlt) as [Ed|Ed]; rewrite Ed in *.
    - unfold Rdiv. ring.
    - unfold Rdiv. replace ((1 - 1) * (y i - g0 i) * / (1 - ma i)) with 0 by ring. replace ((1 - 1) * (ma i * / (1 - ma i)) * (y i - g0 i)) with 0 by ring. field. split; assumption. }
  destruct Q' as (Q1 & Q2 & Q3). split; [exact Q1|]. split; [|intros i Hj; rewrite (Q3 i Hj), Ep; field; split; assumption]. rewrite Q2, Ep, Rabs_mult, (Rabs_pos_eq (INR n)) by apply pos_INR.
  rewrite (sumf_ext n _ (fun i => (/ p) ^ 2 * (s i - theta * (W i * d i)) ^ 2)) by (intros; field; exact Hp). rewrite sumf_scal, sqrt_mult; [|apply pow2_ge_0|apply sumf_nonneg; intros; apply pow2_ge_0].
  replace ((/ p) ^ 2) with (Rsqr (/ p)) by (unfold Rsqr; ring). rewrite sqrt_Rsqr_abs, Rabs_inv. field. split; [apply Rabs_no_R0, Hp|exact Hi].
Qed.

Lemma apo_fit n dcol norm bo tr thr wa nr x y d lvl strata w nj store ext smod w' : let C := apo_ctx L mc n dcol norm bo tr thr (weights_of wa) x y d lvl strata in
  (0 < n)%nat -> check_weights wa ScATE n nr = Ok tt -> soundly_reached C w -> sound_learning L f g mc w ->
  Labels w n "ml_g" y (fun j => lvl j = 0) -> Labels w n "ml_g" y (fun j => lvl j = 1) -> Labels w n "ml_m" lvl everyone ->
  fit C nj store ext smod w = (w', Ok tt) ->
  exists F sm, fit_done w w' F sm 1 /\ forall r fs, nth_error sm r = Some fs -> (r < nr)%nat -> exists g1 m0 m,
      Used w n ext r 0 dcol "ml_g_d_lvl1" "ml_g" x y (group_rows n (fun j => lvl j = 1)) fs g1 /\
      Used w n ext r 0 dcol "ml_m" "ml_m" x lvl whole_train fs m0 /\ clipped n tr thr m0 m /\
      let W := weights_of wa r in
      let s := fun i => wg W i * g1 i + resid_weights W i * (lvl i * (y i - g1 i) / ps_adjust n m lvl norm i) in
      ((forall i, (i < n)%nat -> ps_adjust n m lvl norm i <> 0) -> estimate_is F n 0 r (meanf n s) (fun i => s i - meanf n s * (wg W i / meanf n (wg W))) (INR n)).
Proof.
  intros C Hn Ha Hw HL H0 H1 Hm H. start L f g mc C H Hw HL. assert (Es : m_smpls (w_obj w) = Some sm) by apply Fd. intros r fs Hr _.
  destruct (K r 0%nat fs dcol Hr eq_refl) as (Hr' & Ht' & e & M & S & N). cbn [C apo_ctx c_nuis c_n] in N, S.
  edestruct (apo_spec L f g) as (g0 & g1 & m0 & m & N1 & N2 & N3 & Tm & _ & _ & _ & Sc); [exact S|lab H0 Es Hr|lab H1 Es Hr|lab Hm Es Hr|exact N|].
  exists g1, m0, m. split; [used M N2|]. split; [used M N3|]. split; [exact Tm|]. intros W s _.
  pose proof (accepted_mean wa n nr r Hn Ha) as Pw. fold W in Pw. assert (Sn := sum_norm n (wg W) Hn ltac:(lra)). cbn [setup_of su_n] in Sc. destruct Sc as (Sa & Sb).
  assert (Hi : INR n <> 0) by (apply not_0_INR; lia).
  eapply estimate_eq; [apply (ratio_estimate C w out F r 0 (fun i => wg W i / meanf n (wg W)) s Hn eq_refl Rp Hr' Ht')| | |].
  - intros i _. rewrite Sa, Sb. split; [unfold apo_score, apo_weights; cbn; fold W; ring|reflexivity].
  - cbn [C apo_ctx c_n]. rewrite Sn. exact Hi.
  - cbn [C apo_ctx c_n]. rewrite Sn. reflexivity.
  - intros i _. cbn [C apo_ctx c_n]. rewrite Sn. reflexivity.
  - cbn [C apo_ctx c_n]. rewrite Sn. reflexivity.
Qed.

Lemma iivm_fit n dcol norm bo at1 nt1 tr thr x y z d strata w nj store ext smod w' : let C := iivm_ctx L mc n dcol norm bo at1 nt1 tr thr x y z d strata in
  (0 < n)%nat -> soundly_reached C w -> sound_learning L f g mc w ->
  (forall v, v = 0 \/ v = 1 -> Labels w n "ml_g" y (fun j => z j = v)) -> Labels w n "ml_m" z everyone -> (forall v, v = 0 /\ at1 = true \/ v = 1 /\ nt1 = true -> Labels w n "ml_r" d (fun j => z j = v)) ->
  fit C nj store ext smod w = (w', Ok tt) ->
  exists F sm, fit_done w w' F sm 1 /\ forall r fs, nth_error sm r = Some fs -> exists g0 g1 m0 m r0 r1,
      Used w n ext r 0 dcol "ml_g0" "ml_g" x y (group_rows n (fun j => z j = 0)) fs g0 /\
      Used w n ext r 0 dcol "ml_g1" "ml_g" x y (group_rows n (fun j => z j = 1)) fs g1 /\
      Used w n ext r 0 dcol "ml_m" "ml_m" x z whole_train fs m0 /\ clipped n tr thr m0 m /\
      (if at1 then Used w n ext r 0 dcol "ml_r0" "ml_r" x d (group_rows n (fun j => z j = 0)) fs r0 else forall i, (i < n)%nat -> r0 i = 0) /\
      (if nt1 then Used w n ext r 0 dcol "ml_r1" "ml_r" x d (group_rows n (fun j => z j = 1)) fs r1 else forall i, (i < n)%nat -> r1 i = 1) /\
      let ma := iivm_adjust n norm d m in
      let sy := dr_signal y z g0 g1 ma in
      let sd := dr_signal d z r0 r1 ma in
      (off_bounds n ma -> sumf n sd <> 0 ->
       let theta := sumf n sy / sumf n sd in estimate_is F n 0 r theta (fun i => sy i - theta * sd i) (sumf n sd)).
Proof.
  intros C Hn Hw HL Hg Hm Hq H. start L f g mc C H Hw HL. assert (Es : m_smpls (w_obj w) = Some sm) by apply Fd. intros r fs Hr.
  destruct (K r 0%nat fs dcol Hr eq_refl) as (Hr' & Ht' & e & M & S & N). cbn [C iivm_ctx c_nuis c_n] in N, S.
  edestruct (iivm_spec L f g) as (g0 & g1 & m0 & m & r0 & r1 & N1 & N2 & N3 & Tm & N4 & N5 & _ & _ & _ & _ & _ & Sc);
    [exact S|lab (Hg 0 (or_introl eq_refl)) Es Hr|lab (Hg 1 (or_intror eq_refl)) Es Hr|lab Hm Es Hr|intros Qa; lab (Hq 0 (or_introl (conj eq_refl Qa))) Es Hr|intros Qa; lab (Hq 1 (or_intror (conj eq_refl Qa))) Es Hr|exact N|].
  exists g0, g1, m0, m, r0, r1. split; [used M N1|]. split; [used M N2|]. split; [used M N3|]. split; [exact Tm|].
  split; [destruct at1; cbn [taker_fn] in N4; [used M N4|exact N4]|]. split; [destruct nt1; cbn [taker_fn] in N5; [used M N5|exact N5]|].
  intros ma sy sd _ Hs theta. cbn [setup_of su_n] in Sc. destruct Sc as (Sa & Sb).
  apply (ratio_estimate C w out F r 0 sd sy Hn eq_refl Rp Hr' Ht'); [|exact Hs].
  intros i _. rewrite Sa, Sb. unfold sy, sd, iivm_score, dr_signal, dr_level, compl. cbn [el_a el_b]. fold ma. split; unfold Rdiv; ring.
Qed.
End Classes.

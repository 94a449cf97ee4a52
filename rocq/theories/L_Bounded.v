(** Trimmed propensities bound the estimates. *)
From Verif Require Import L_Sum L_Scores L_NuisFit L_ClassFits.
From Verif Require Export S_Bounded.
From Coq Require Import Lia Lra.
Local Open Scope R_scope.
Local Open Scope string_scope.

Lemma mean_within n K s : (0 < n)%nat -> within n K s -> - K <= meanf n s <= K.
Proof.
  intros Hn H. assert (N : INR n <> 0) by (apply not_0_INR; lia).
  assert (C : forall c, meanf n (fun _ => c) = c) by (intro c; unfold meanf; rewrite sumf_const; field; exact N).
  split; [rewrite <- (C (- K))|rewrite <- (C K)]; apply meanf_le; auto; intros i Hi; apply H, Hi.
Qed.
Lemma centred_squares n s : (0 < n)%nat -> sumf n (fun i => (s i - meanf n s) ^ 2) <= sumf n (fun i => s i ^ 2).
Proof.
  intro Hn. assert (N : 0 < INR n) by (apply lt_0_INR; lia). set (mu := meanf n s).
  rewrite (sumf_ext n (fun i => (s i - mu) ^ 2) (fun i => s i ^ 2 - ((2 * mu) * s i - mu ^ 2))) by (intros; ring).
  rewrite sumf_minus, (sumf_minus n (fun i => 2 * mu * s i) (fun _ => mu ^ 2)), sumf_scal, sumf_const.
  assert (S : sumf n s = INR n * mu) by (unfold mu, meanf; field; lra). rewrite S. assert (0 <= INR n * mu ^ 2) by (apply Rmult_le_pos; [lra|apply pow2_ge_0]). nra.
Qed.
Lemma root_mean n K v : (0 < n)%nat -> 0 <= K -> sumf n v <= INR n * K ^ 2 -> sqrt (sumf n v) / INR n <= K / sqrt (INR n).
Proof.
  intros Hn HK H. assert (N : 0 < INR n) by (apply lt_0_INR; lia). assert (Q : 0 < sqrt (INR n)) by (apply sqrt_lt_R0; exact N).
  apply Rle_trans with (sqrt (INR n * K ^ 2) / INR n).
  - apply Rmult_le_compat_r; [left; apply Rinv_0_lt_compat; exact N|]. apply sqrt_le_1_alt, H.
  - rewrite sqrt_mult by (try apply pow2_ge_0; lra). rewrite sqrt_pow2 by exact HK. right. rewrite <- (sqrt_sqrt (INR n)) at 2 by lra. field. lra.
Qed.
Lemma squares_within n K s : within n K s -> sumf n (fun i => s i ^ 2) <= INR n * K ^ 2.
Proof. intro H. rewrite <- sumf_const. apply sumf_le. intros i Hi. destruct (H i Hi). nra. Qed.
Lemma se_within n K s : (0 < n)%nat -> 0 <= K -> within n K s -> sqrt (sumf n (fun i => (s i - meanf n s) ^ 2)) / INR n <= K / sqrt (INR n).
Proof. intros Hn HK H. apply root_mean; [exact Hn|exact HK|]. eapply Rle_trans; [apply centred_squares, Hn|apply squares_within, H]. Qed.

Lemma within_nonneg n B v : (0 < n)%nat -> within n B v -> 0 <= B.
Proof. intros Hn H. specialize (H 0%nat Hn). lra. Qed.
Lemma quotient_bound u B m t : 0 < t -> t <= m -> - (2 * B) <= u <= 2 * B -> - (2 * B / t) <= u / m <= 2 * B / t.
Proof.
  intros Ht Hm Hu. assert (I : 0 < / m <= / t) by (split; [apply Rinv_0_lt_compat; lra|apply Rinv_le_contravar; lra]). unfold Rdiv. split; nra.
Qed.
Lemma signal_within n B t y d g0 g1 m : 0 < t < 1 / 2 -> binary n d -> within n B y -> within n B g0 -> within n B g1 -> (forall i, (i < n)%nat -> t <= m i <= 1 - t) -> within n (2 * B + 2 * B / t) (dr_signal y d g0 g1 m).
Proof.
  intros Ht Hd Hy H0 H1 Hm i Hi. specialize (Hd i Hi); specialize (Hy i Hi); specialize (H0 i Hi); specialize (H1 i Hi); specialize (Hm i Hi).
  unfold dr_signal, dr_level, compl. destruct Hd as [E|E]; rewrite E.
  - assert (Q := quotient_bound (y i - g0 i) B (1 - m i) t ltac:(lra) ltac:(lra) ltac:(lra)). replace (0 * (y i - g1 i) / m i) with 0 by (field; lra). replace ((1 - 0) * (y i - g0 i)) with (y i - g0 i) by ring. lra.
  - assert (Q := quotient_bound (y i - g1 i) B (m i) t ltac:(lra) ltac:(lra) ltac:(lra)). replace ((1 - 1) * (y i - g0 i) / (1 - m i)) with 0 by (field; lra). replace (1 * (y i - g1 i)) with (y i - g1 i) by ring. lra.
Qed.
Lemma level_within n B t y a g m : 0 < t < 1 / 2 -> binary n a -> within n B y -> within n B g -> (forall i, (i < n)%nat -> t <= m i <= 1 - t) -> within n (B + 2 * B / t) (dr_level y a g m).
Proof.
  intros Ht Hd Hy H1 Hm i Hi. specialize (Hd i Hi); specialize (Hy i Hi); specialize (H1 i Hi); specialize (Hm i Hi).
  unfold dr_level. destruct Hd as [E|E]; rewrite E.
  - replace (0 * (y i - g i) / m i) with 0 by (field; lra). assert (0 <= 2 * B / t) by (apply Rmult_le_pos; [lra|left; apply Rinv_0_lt_compat; lra]). lra.
  - assert (Q := quotient_bound (y i - g i) B (m i) t ltac:(lra) ltac:(lra) ltac:(lra)). replace (1 * (y i - g i)) with (y i - g i) by ring. lra.
Qed.
Lemma clip_range t m0 : 0 < t < 1 / 2 -> t <= Rmin (Rmax m0 t) (1 - t) <= 1 - t.
Proof. intro Ht. split; [apply Rmin_glb; [apply Rmax_r|lra]|apply Rmin_r]. Qed.
Lemma bound_pos n B t v : (0 < n)%nat -> 0 < t -> within n B v -> 0 <= 2 * B + 2 * B / t /\ 0 <= B + 2 * B / t.
Proof. intros Hn Ht H. pose proof (within_nonneg n B v Hn H). assert (0 <= 2 * B / t) by (apply Rmult_le_pos; [lra|left; apply Rinv_0_lt_compat; lra]). lra. Qed.

(** Normalised weights of an arm average to one, or vanish. *)
Lemma normal_arm n a m u B : (0 < n)%nat -> binary n a -> (forall i, (i < n)%nat -> 0 < m i) -> within n (2 * B) u ->
  - (2 * B) <= meanf n (fun i => a i * u i / (m i * meanf n (fun j => a j / m j))) <= 2 * B.
Proof.
  intros Hn Ha Hm Hu. set (q := meanf n (fun j => a j / m j)).
  assert (Wp : forall i, (i < n)%nat -> 0 <= a i / m i) by (intros i Hi; apply Rmult_le_pos; [destruct (Ha i Hi) as [-> | ->]; lra|left; apply Rinv_0_lt_compat, Hm, Hi]).
  assert (Hq : 0 <= q) by (apply Rmult_le_pos; [apply sumf_nonneg, Wp|left; apply Rinv_0_lt_compat, lt_0_INR; lia]).
  pose proof (within_nonneg n (2 * B) u Hn Hu) as B0.
  destruct (Req_dec q 0) as [Z|Z].
  { rewrite (meanf_ext n _ (fun _ => 0)) by (intros i Hi; rewrite Z, Rmult_0_r; unfold Rdiv; rewrite Rinv_0; ring). unfold meanf. rewrite sumf_const, Rmult_0_r. unfold Rdiv. rewrite Rmult_0_l. lra. }
  rewrite (meanf_ext n _ (fun i => / q * (a i / m i * u i))) by (intros i Hi; pose proof (Hm i Hi); field; split; lra).
  rewrite meanf_scal. assert (Bd : - (2 * B) * q <= meanf n (fun i => a i / m i * u i) <= 2 * B * q).
  { split; [apply Rle_trans with (meanf n (fun i => - (2 * B) * (a i / m i))); [rewrite meanf_scal; unfold q; lra|]|apply Rle_trans with (meanf n (fun i => 2 * B * (a i / m i))); [|rewrite meanf_scal; unfold q; lra]];
    apply meanf_le; try exact Hn; intros i Hi; pose proof (Wp i Hi); destruct (Hu i Hi); nra. }
  assert (Iq : 0 < / q) by (apply Rinv_0_lt_compat; lra).
  assert (C : forall k, / q * (k * q) = k) by (intro; field; lra).
  split; [rewrite <- (C (- (2 * B)))|rewrite <- (C (2 * B))]; apply Rmult_le_compat_l; lra.
Qed.
Lemma normalised_signal_mean n B y d g0 g1 m : (0 < n)%nat -> binary n d -> within n B y -> within n B g0 -> within n B g1 -> inside n m ->
  - (6 * B) <= meanf n (dr_signal y d g0 g1 (normalize_ipw n m d)) <= 6 * B.
Proof.
  intros Hn Hd Hy H0 H1 Hm.
  rewrite (meanf_ext n _ (fun i => (g1 i - g0 i) + (d i * (y i - g1 i) / (m i * meanf n (fun j => d j / m j)) - compl d i * (y i - g0 i) / (compl m i * meanf n (fun j => compl d j / compl m j))))).
  2: { intros i Hi. unfold dr_signal, dr_level, normalize_ipw, compl. destruct (Hd i Hi) as [-> | ->].
       - replace (1 - (0 * _ + (1 - 0) * _)) with ((1 - m i) * meanf n (fun j => (1 - d j) / (1 - m j))) by ring. unfold Rdiv. ring.
       - replace (1 * _ + (1 - 1) * _) with (m i * meanf n (fun j => d j / m j)) by ring. unfold Rdiv. ring. }
  rewrite meanf_plus, (meanf_minus n (fun i => d i * (y i - g1 i) / _) (fun i => compl d i * (y i - g0 i) / _)).
  assert (A := normal_arm n d m (fun i => y i - g1 i) B Hn Hd (fun i Hi => proj1 (Hm i Hi)) ltac:(intros i Hi; destruct (Hy i Hi), (H1 i Hi); lra)).
  assert (A' := normal_arm n (compl d) (compl m) (fun i => y i - g0 i) B Hn ltac:(intros i Hi; unfold compl; destruct (Hd i Hi) as [-> | ->]; lra) ltac:(intros i Hi; unfold compl; destruct (Hm i Hi); lra) ltac:(intros i Hi; destruct (Hy i Hi), (H0 i Hi); lra)).
  assert (G := mean_within n (2 * B) (fun i => g1 i - g0 i) Hn ltac:(intros i Hi; destruct (H1 i Hi), (H0 i Hi); lra)). cbv beta in A, A'. lra.
Qed.

Section Bounded.
Context {E P : Type}.
Variables (L : learner E row P) (f : E -> row -> R) (g : E -> row -> list R) (mc : machinery E P).

Lemma irm_bounded n dcol bo thr w_ x y d strata w nj store ext smod w' B : let C := irm_ctx L mc n dcol false false bo true thr w_ x y d strata in
  (0 < n)%nat -> 0 < thr < 1 / 2 -> binary n d -> (forall r, w_ r = unit_weights) -> soundly_reached C w -> sound_learning L f g mc w ->
  labels_everywhere L g mc w n "ml_g" y (fun j => d j = 0) -> labels_everywhere L g mc w n "ml_g" y (fun j => d j = 1) -> labels_everywhere L g mc w n "ml_m" d everyone ->
  fit C nj store ext smod w = (w', Ok tt) -> within n B y ->
  (forall r fs v, used_prediction L f g mc w n ext r 0 dcol "ml_g0" "ml_g" x y (group_rows n (fun j => d j = 0)) fs v -> within n B v) ->
  (forall r fs v, used_prediction L f g mc w n ext r 0 dcol "ml_g1" "ml_g" x y (group_rows n (fun j => d j = 1)) fs v -> within n B v) ->
  exists F sm, fit_done w w' F sm 1 /\ forall r, (r < length sm)%nat -> bounded_estimate F n 0 r (2 * B + 2 * B / thr).
Proof.
  intros C Hn Ht Hd Hw Sr Sl L0 L1 Lm Hf Hy B0 B1.
  destruct (irm_fit L f g mc n dcol false bo true thr w_ x y d strata w nj store ext smod w' Hn Hw Sr Sl L0 L1 Lm Hf) as (F & sm & A1 & A2 & A3 & A4 & A5 & A6 & H).
  exists F, sm. split; [exact (conj A1 (conj A2 (conj A3 (conj A4 (conj A5 A6)))))|]. intros r Hr. destruct (nth_error sm r) as [fs|] eqn:Er; [|apply nth_error_None in Er; lia].
  destruct (H r fs Er) as (g0 & g1 & m0 & m & U0 & U1 & Um & Hm & T & Se). cbv zeta in T, Se. cbn [ps_adjust] in T, Se.
  assert (W : within n (2 * B + 2 * B / thr) (dr_signal y d g0 g1 m)) by (apply signal_within; [exact Ht|exact Hd|exact Hy|apply (B0 _ _ _ U0)|apply (B1 _ _ _ U1)|intros i Hi; rewrite (Hm i Hi); apply clip_range, Ht]).
  split; [rewrite T; apply mean_within; assumption|rewrite Se; apply se_within; [exact Hn|apply (bound_pos n B thr y Hn (proj1 Ht) Hy)|exact W]].
Qed.
Lemma irm_normalised_bounded n dcol bo thr w_ x y d strata w nj store ext smod w' B : let C := irm_ctx L mc n dcol false true bo true thr w_ x y d strata in
  (0 < n)%nat -> 0 < thr < 1 / 2 -> binary n d -> (forall r, w_ r = unit_weights) -> soundly_reached C w -> sound_learning L f g mc w ->
  labels_everywhere L g mc w n "ml_g" y (fun j => d j = 0) -> labels_everywhere L g mc w n "ml_g" y (fun j => d j = 1) -> labels_everywhere L g mc w n "ml_m" d everyone ->
  fit C nj store ext smod w = (w', Ok tt) -> within n B y ->
  (forall r fs v, used_prediction L f g mc w n ext r 0 dcol "ml_g0" "ml_g" x y (group_rows n (fun j => d j = 0)) fs v -> within n B v) ->
  (forall r fs v, used_prediction L f g mc w n ext r 0 dcol "ml_g1" "ml_g" x y (group_rows n (fun j => d j = 1)) fs v -> within n B v) ->
  exists F sm, fit_done w w' F sm 1 /\ forall r fs, nth_error sm r = Some fs -> exists m0 m, used_prediction L f g mc w n ext r 0 dcol "ml_m" "ml_m" x d whole_train fs m0 /\ clipped n true thr m0 m /\
    (off_bounds n (ps_adjust n m d true) -> - (6 * B) <= at_ (fw_all_thetas F) [0%nat; r] <= 6 * B).
Proof.
  intros C Hn Ht Hd Hw Sr Sl L0 L1 Lm Hf Hy B0 B1.
  destruct (irm_fit L f g mc n dcol true bo true thr w_ x y d strata w nj store ext smod w' Hn Hw Sr Sl L0 L1 Lm Hf) as (F & sm & A1 & A2 & A3 & A4 & A5 & A6 & H).
  exists F, sm. split; [exact (conj A1 (conj A2 (conj A3 (conj A4 (conj A5 A6)))))|]. intros r fs Er.
  destruct (H r fs Er) as (g0 & g1 & m0 & m & U0 & U1 & Um & Hm & T & _). exists m0, m. split; [exact Um|]. split; [exact Hm|]. intros _. rewrite T. cbn [ps_adjust].
  apply normalised_signal_mean; [exact Hn|exact Hd|exact Hy|apply (B0 _ _ _ U0)|apply (B1 _ _ _ U1)|intros i Hi; rewrite (Hm i Hi); pose proof (clip_range thr (m0 i) Ht); lra].
Qed.
Lemma apo_bounded n dcol bo thr x y d lvl strata w nj store ext smod w' B : let C := apo_ctx L mc n dcol false bo true thr (weights_of WNone) x y d lvl strata in
  (0 < n)%nat -> 0 < thr < 1 / 2 -> binary n lvl -> soundly_reached C w -> sound_learning L f g mc w ->
  labels_everywhere L g mc w n "ml_g" y (fun j => lvl j = 0) -> labels_everywhere L g mc w n "ml_g" y (fun j => lvl j = 1) -> labels_everywhere L g mc w n "ml_m" lvl everyone ->
  fit C nj store ext smod w = (w', Ok tt) -> within n B y ->
  (forall r fs v, used_prediction L f g mc w n ext r 0 dcol "ml_g_d_lvl1" "ml_g" x y (group_rows n (fun j => lvl j = 1)) fs v -> within n B v) ->
  exists F sm, fit_done w w' F sm 1 /\ forall r, (r < length sm)%nat -> bounded_estimate F n 0 r (B + 2 * B / thr).
Proof.
  intros C Hn Ht Hd Sr Sl L0 L1 Lm Hf Hy B1.
  assert (Rp : exists F sm, fit_done w w' F sm 1 /\ forall r fs, nth_error sm r = Some fs -> exists g1 m0 m,
    used_prediction L f g mc w n ext r 0 dcol "ml_g_d_lvl1" "ml_g" x y (group_rows n (fun j => lvl j = 1)) fs g1 /\ clipped n true thr m0 m /\
    ((forall i, (i < n)%nat -> m i <> 0) -> estimate_is F n 0 r (meanf n (dr_level y lvl g1 m)) (fun i => dr_level y lvl g1 m i - meanf n (dr_level y lvl g1 m)) (INR n))).
  { assert (Nn : INR n <> 0) by (apply not_0_INR; lia). assert (Ck : check_weights WNone ScATE n (S (match m_smpls (w_obj w) with Some sm => length sm | None => 0 end)) = Ok tt) by reflexivity.
    destruct (apo_fit L f g mc n dcol false bo true thr WNone _ x y d lvl strata w nj store ext smod w' Hn Ck Sr Sl L0 L1 Lm Hf) as (F & sm & Fd & H). exists F, sm. split; [exact Fd|]. intros r fs Er.
    assert (Es : m_smpls (w_obj w) = Some sm) by apply Fd. destruct (H r fs Er) as (g1 & m0 & m & U & Um & Cl & Q). { rewrite Es. assert (r < length sm)%nat by (apply nth_error_Some; congruence). lia. }
    exists g1, m0, m. split; [exact U|]. split; [exact Cl|]. intro Nz. specialize (Q Nz). cbv zeta in Q. cbn [weights_of wg wg_bar unit_weights resid_weights ps_adjust] in Q.
    assert (One : meanf n (fun _ => 1) = 1) by (unfold meanf; rewrite sumf_const; field; exact Nn).
    rewrite (meanf_ext n _ (dr_level y lvl g1 m)) in Q by (intros i Hi; unfold dr_level; rewrite !Rmult_1_l; reflexivity).
    destruct Q as (Q1 & Q2 & Q3). split; [exact Q1|]. assert (Ei : forall i, 1 * g1 i + 1 * (lvl i * (y i - g1 i) / m i) - meanf n (dr_level y lvl g1 m) * (1 / meanf n (fun _ => 1)) = dr_level y lvl g1 m i - meanf n (dr_level y lvl g1 m)) by (intro i; rewrite One; unfold dr_level, Rdiv; rewrite Rinv_1; ring).
    split; [rewrite Q2; do 2 f_equal; apply sumf_ext; intros i Hi; rewrite Ei; reflexivity|intros i Hi; rewrite (Q3 i Hi), Ei; reflexivity]. }
  destruct Rp as (F & sm & Fd & H). exists F, sm. split; [exact Fd|]. intros r Hr. destruct (nth_error sm r) as [fs|] eqn:Er; [|apply nth_error_None in Er; lia].
  destruct (H r fs Er) as (g1 & m0 & m & U & Cl & Q).
  assert (Hm : forall i, (i < n)%nat -> thr <= m i <= 1 - thr) by (intros i Hi; rewrite (Cl i Hi); apply clip_range, Ht).
  destruct Q as (T & Se & _); [intros i Hi; specialize (Hm i Hi); lra|].
  assert (W : within n (B + 2 * B / thr) (dr_level y lvl g1 m)) by (apply level_within; [exact Ht|exact Hd|exact Hy|apply (B1 _ _ _ U)|exact Hm]).
  split; [rewrite T; apply mean_within; assumption|rewrite Se, (Rabs_right (INR n)) by (apply Rle_ge, pos_INR); apply se_within; [exact Hn|apply (bound_pos n B thr y Hn (proj1 Ht) Hy)|exact W]].
Qed.
End Bounded.

(** Trimmed propensities bound the estimate of the effect on the treated. *)
From Verif Require Import L_Sum L_Scores L_NuisFit L_ClassFits L_Bounded.
From Verif Require Export S_Bounded.
From Coq Require Import Lia Lra.
Local Open Scope R_scope.
Local Open Scope string_scope.

Lemma odds_range t m : 0 < t < 1 / 2 -> t <= m <= 1 - t -> 0 <= m / (1 - m) <= (1 - t) / t.
Proof.
  intros Ht Hm. assert (I : 0 < / (1 - m) <= / t) by (split; [apply Rinv_0_lt_compat; lra|apply Rinv_le_contravar; lra]). unfold Rdiv. split; [apply Rmult_le_pos; lra|]. apply Rmult_le_compat; lra.
Qed.
Lemma treated_sum n B t y d g0 m : 0 < t < 1 / 2 -> binary n d -> within n B y -> within n B g0 -> (forall i, (i < n)%nat -> t <= m i <= 1 - t) ->
  let K := 2 * B * sumf n d + 2 * B * ((1 - t) / t) * (INR n - sumf n d) in
  - K <= sumf n (fun i => 1 * (d i * (y i - g0 i) - (1 - d i) * (m i / (1 - m i)) * (y i - g0 i))) <= K.
Proof.
  intros Ht Hd Hy H0 Hm K. set (s := fun i => _).
  assert (S : forall i, (i < n)%nat -> - (2 * B * d i + 2 * B * ((1 - t) / t) * (1 - d i)) <= s i <= 2 * B * d i + 2 * B * ((1 - t) / t) * (1 - d i)).
  { intros i Hi. unfold s. pose proof (odds_range t (m i) Ht (Hm i Hi)) as O. destruct (Hy i Hi), (H0 i Hi). set (q := m i / (1 - m i)) in *. set (b := (1 - t) / t) in *. destruct (Hd i Hi) as [-> | ->]; [|lra].
    assert (0 <= B) by lra. assert (q * (2 * B) <= b * (2 * B)) by (apply Rmult_le_compat_r; lra). split; nra. }
  assert (Ek : K = sumf n (fun i => 2 * B * d i + 2 * B * ((1 - t) / t) * (1 - d i))).
  { unfold K. rewrite sumf_plus, !sumf_scal, sumf_minus, sumf_const. ring. }
  rewrite Ek. split; [|apply sumf_le; intros i Hi; apply S, Hi].
  rewrite <- (Rmult_1_l (sumf n _)), Ropp_mult_distr_l, <- sumf_scal. apply sumf_le. intros i Hi. destruct (S i Hi). lra.
Qed.

Section Treated.
Context {E P : Type}.
Variables (L : learner E row P) (f : E -> row -> R) (g : E -> row -> list R) (mc : machinery E P).

Lemma atte_bounded n dcol bo thr w_ x y d strata w nj store ext smod w' B : let C := irm_ctx L mc n dcol true false bo true thr w_ x y d strata in
  (0 < n)%nat -> 0 < thr < 1 / 2 -> binary n d -> 0 < sumf n d -> (forall r, w_ r = unit_weights) -> soundly_reached C w -> sound_learning L f g mc w ->
  labels_everywhere L g mc w n "ml_g" y (fun j => d j = 0) -> labels_everywhere L g mc w n "ml_g" y (fun j => d j = 1) -> labels_everywhere L g mc w n "ml_m" d everyone ->
  fit C nj store ext smod w = (w', Ok tt) -> within n B y ->
  (forall r fs v, used_prediction L f g mc w n ext r 0 dcol "ml_g0" "ml_g" x y (group_rows n (fun j => d j = 0)) fs v -> within n B v) ->
  exists F sm, fit_done w w' F sm 1 /\ forall r, (r < length sm)%nat ->
    let K := 2 * B + 2 * B * ((1 - thr) / thr) * ((INR n - sumf n d) / sumf n d) in
    - K <= at_ (fw_all_thetas F) [0%nat; r] <= K.
Proof.
  intros C Hn Ht Hd Hp Hw Sr Sl L0 L1 Lm Hf Hy B0.
  destruct (irm_atte_fit L f g mc n dcol false bo true thr w_ x y d strata w nj store ext smod w' Hn Hd Sr Sl L0 L1 Lm Hf) as (F & sm & Fd & H).
  exists F, sm. split; [exact Fd|]. intros r Hr K. destruct (nth_error sm r) as [fs|] eqn:Er; [|apply nth_error_None in Er; lia].
  destruct (H r fs Er) as (g0 & g1 & m0 & m & U0 & _ & _ & Cl & Q). cbv zeta in Q. rewrite Hw in Q. cbn [unit_weights wg ps_adjust] in Q.
  assert (Hm : forall i, (i < n)%nat -> thr <= m i <= 1 - thr) by (intros i Hi; rewrite (Cl i Hi); apply clip_range, Ht).
  assert (Sd : sumf n (fun i => 1 * d i) = sumf n d) by (apply sumf_ext; intros; ring). rewrite Sd in Q.
  destruct Q as (T & _); [lra|intros i Hi; specialize (Hm i Hi); lra|]. rewrite T.
  pose proof (treated_sum n B thr y d g0 m Ht Hd Hy (B0 _ _ _ U0) Hm) as S. cbv zeta in S.
  assert (Ek : K = (2 * B * sumf n d + 2 * B * ((1 - thr) / thr) * (INR n - sumf n d)) / sumf n d) by (unfold K; field; lra).
  assert (I : 0 < / sumf n d) by (apply Rinv_0_lt_compat, Hp). rewrite Ek. unfold Rdiv at 1 5. split; [rewrite Ropp_mult_distr_l|]; apply Rmult_le_compat_r; try lra; unfold Rdiv in *; lra.
Qed.
End Treated.

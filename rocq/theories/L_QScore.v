(** Lemmas on the scores of the quantile models. *)
From Verif Require Import S_Quantile L_Sum L_Scores L_Quantile L_Weights L_Order.
From Coq Require Import Lra Lia.
Local Open Scope R_scope.

Lemma check_quantile_iff v : check_quantile v = Ok tt <-> exists q, v = PFloat q /\ 0 < q < 1.
Proof.
  destruct v; cbn; try (split; [discriminate|intros (q & E & _); discriminate]). unfold require.
  destruct (rleb x 0) eqn:A; destruct (rleb 1 x) eqn:B; cbn; split; intros H; try discriminate;
    try (destruct H as (q & E & H); injection E as <-);
    repeat match goal with H : rleb _ _ = true |- _ => apply rleb_true in H | H : rleb _ _ = false |- _ => apply rleb_false in H end;
    try lra; try reflexivity. exists x. split; [reflexivity|lra].
Qed.

Lemma arm_cases t d i : (d i = level t /\ arm t d i = 1) \/ (d i <> level t /\ arm t d i = 0).
Proof. unfold arm, b2r, reqb. destruct (Req_EM_T (d i) (level t)); auto. Qed.
Lemma arm_treated n d i : binary n d -> (i < n)%nat -> arm true d i = d i.
Proof. intros B H. destruct (arm_cases true d i) as [[E ->]|[E ->]]; unfold level in E; [lra|]. destruct (B i H); lra. Qed.
Lemma arm_control n d i : binary n d -> (i < n)%nat -> arm false d i = 1 - d i.
Proof. intros B H. destruct (arm_cases false d i) as [[E ->]|[E ->]]; unfold level in E; [lra|]. destruct (B i H); lra. Qed.
Lemma trimm_inside n thr m : 0 < thr < 1 / 2 -> inside n (trimm true thr m).
Proof. intros T i _. pose proof (trimm_range thr m i T). lra. Qed.

Lemma adj_pos n t norm thr d m i : binary n d -> 0 < thr < 1 / 2 -> (i < n)%nat -> in_arm t d i -> 0 < pq_adjust n t norm thr d m i.
Proof.
  intros B T Hi A. pose proof (trimm_inside n thr m T) as IN. pose proof (IN i Hi) as Ii.
  unfold pq_adjust, in_arm in *. set (mt := trimm true thr m) in *. destruct t; unfold level in A; destruct norm; try lra.
  - unfold normalize_ipw. rewrite A. assert (0 < meanf n (fun i => d i / mt i)) by (apply mean_ipw_pos; [auto..|exists i; auto]).
    assert (0 < mt i * meanf n (fun i0 => d i0 / mt i0)) by (apply Rmult_lt_0_compat; lra). lra.
  - unfold normalize_ipw. rewrite A.
    assert (0 < meanf n (fun i => (1 - d i) / (1 - mt i))).
    { apply (mean_ipw_pos n (compl d) (compl mt)); [apply compl_binary|apply compl_inside|exists i; split; [|unfold compl; rewrite A]]; auto; lra. }
    assert (0 < (1 - mt i) * meanf n (fun i0 => (1 - d i0) / (1 - mt i0))) by (apply Rmult_lt_0_compat; lra). lra.
Qed.
Lemma weight_nonneg n t norm thr d m i : binary n d -> 0 < thr < 1 / 2 -> (i < n)%nat -> 0 <= arm_weight n t norm thr d m i.
Proof.
  intros B T Hi. unfold arm_weight. destruct (arm_cases t d i) as [[A ->]|[_ ->]].
  - left. apply div_pos_pos; [lra|apply adj_pos; auto].
  - unfold Rdiv. lra.
Qed.
Lemma weight_out n t norm thr d m i : ~ in_arm t d i -> arm_weight n t norm thr d m i = 0.
Proof. intros A. unfold arm_weight. destruct (arm_cases t d i) as [[E _]|[_ ->]]; [contradiction|]. unfold Rdiv. lra. Qed.
Lemma weight_in n t norm thr d m i : binary n d -> 0 < thr < 1 / 2 -> (i < n)%nat -> in_arm t d i -> 0 < arm_weight n t norm thr d m i.
Proof. intros B T Hi A. unfold arm_weight. destruct (arm_cases t d i) as [[_ ->]|[E _]]; [|contradiction]. apply div_pos_pos; [lra|apply adj_pos; auto]. Qed.
Lemma weight_mean n t thr d m : binary n d -> 0 < thr < 1 / 2 -> some_row n (in_arm t d) -> meanf n (arm_weight n t true thr d m) = 1.
Proof.
  intros B T S. pose proof (trimm_inside n thr m T) as IN. destruct t.
  - erewrite meanf_ext; [apply (normalize_treated n (trimm true thr m) d B IN S)|].
    intros i Hi. unfold arm_weight, pq_adjust. rewrite (arm_treated n) by auto. reflexivity.
  - erewrite meanf_ext; [apply (normalize_control n (trimm true thr m) d B IN S)|].
    intros i Hi. unfold arm_weight, pq_adjust. rewrite (arm_control n) by auto. reflexivity.
Qed.

Lemma ind_le_mono a b c : b <= c -> b2r (rleb a b) <= b2r (rleb a c).
Proof. intros H. unfold rleb. destruct (Rle_dec a b), (Rle_dec a c); cbn; lra. Qed.
Lemma pq_row q ia g m y c i : pq_score q ia g m y c i = ia i / m i * b2r (rleb (y i) c) + (g i - ia i / m i * g i) - q.
Proof. unfold pq_score. unfold Rdiv. ring. Qed.

Lemma pq_decomp n t norm thr q y d g m c : (0 < n)%nat ->
  pq_moment n t norm thr q y d g m c =
  wshare n (arm_weight n t norm thr d m) (fun i => rleb (y i) c) +
  meanf n (fun i => (1 - arm_weight n t norm thr d m i) * g i) - q.
Proof.
  intros N. unfold pq_moment, wshare.
  erewrite meanf_ext. 2:{ intros i _. rewrite pq_row. reflexivity. }
  rewrite meanf_minus, meanf_const by auto. rewrite meanf_plus. f_equal. f_equal.
  apply meanf_ext. intros i _. unfold arm_weight. ring.
Qed.
Lemma ipw_decomp n t norm thr q y d m c : (0 < n)%nat ->
  ipw_moment n t norm thr q y d m c = wshare n (arm_weight n t norm thr d m) (fun i => rleb (y i) c) - q.
Proof. intros N. unfold ipw_moment, ipw_score, wshare. rewrite meanf_minus, meanf_const by auto. reflexivity. Qed.

Lemma wshare_le n w p p' : (0 < n)%nat -> (forall i, (i < n)%nat -> 0 <= w i) -> (forall i, (i < n)%nat -> w i <> 0 -> p i = true -> p' i = true) -> wshare n w p <= wshare n w p'.
Proof.
  intros N W H. apply meanf_le; auto. intros i Hi. specialize (W i Hi). specialize (H i Hi).
  destruct (Req_EM_T (w i) 0) as [->|NZ]; [lra|]. apply Rmult_le_compat_l; auto. destruct (p i); [rewrite H; auto; cbn; lra|]. destruct (p' i); cbn; lra.
Qed.
Lemma wshare_ext n w p p' : (forall i, (i < n)%nat -> w i <> 0 -> p i = p' i) -> wshare n w p = wshare n w p'.
Proof. intros H. apply meanf_ext. intros i Hi. destruct (Req_EM_T (w i) 0) as [->|NZ]; [lra|]. rewrite H; auto. Qed.
Lemma wshare_all n w p : (forall i, (i < n)%nat -> w i <> 0 -> p i = true) -> wshare n w p = meanf n w.
Proof. intros H. apply meanf_ext. intros i Hi. destruct (Req_EM_T (w i) 0) as [->|NZ]; [lra|]. rewrite H; auto. cbn. lra. Qed.
Lemma wshare_none n w p : (forall i, (i < n)%nat -> w i <> 0 -> p i = false) -> wshare n w p = 0.
Proof. intros H. apply meanf_zero. intros i Hi. destruct (Req_EM_T (w i) 0) as [->|NZ]; [lra|]. rewrite H; auto. cbn. lra. Qed.

Lemma pq_step n t norm thr q y d g m c c' : (0 < n)%nat -> c <= c' ->
  pq_moment n t norm thr q y d g m c' - pq_moment n t norm thr q y d g m c =
  wshare n (arm_weight n t norm thr d m) (fun i => rltb c (y i) && rleb (y i) c').
Proof.
  intros N L. rewrite !pq_decomp by auto.
  replace (wshare n (arm_weight n t norm thr d m) (fun i => rleb (y i) c')) with
    (wshare n (arm_weight n t norm thr d m) (fun i => rleb (y i) c) + wshare n (arm_weight n t norm thr d m) (fun i => rltb c (y i) && rleb (y i) c')); [lra|].
  unfold wshare. rewrite <- meanf_plus. apply meanf_ext. intros i _.
  unfold rltb, rleb. destruct (Rle_dec (y i) c), (Rlt_dec c (y i)), (Rle_dec (y i) c'); cbn; lra.
Qed.
Lemma pq_monotone n t norm thr q y d g m c c' : binary n d -> 0 < thr < 1 / 2 -> (0 < n)%nat -> c <= c' ->
  pq_moment n t norm thr q y d g m c <= pq_moment n t norm thr q y d g m c'.
Proof.
  intros B T N L. pose proof (pq_step n t norm thr q y d g m c c' N L) as E.
  assert (0 <= wshare n (arm_weight n t norm thr d m) (fun i => rltb c (y i) && rleb (y i) c')).
  { apply meanf_nonneg; auto. intros i Hi. pose proof (weight_nonneg n t norm thr d m i B T Hi). destruct (_ && _); cbn; lra. }
  lra.
Qed.
Lemma arm_of_weight n t norm thr d m i : arm_weight n t norm thr d m i <> 0 -> in_arm t d i.
Proof. intros H. unfold in_arm. destruct (Req_EM_T (d i) (level t)); auto. exfalso. apply H. apply weight_out. auto. Qed.

Lemma share_below n t norm thr d m y c : below n t d y c -> wshare n (arm_weight n t norm thr d m) (fun i => rleb (y i) c) = 0.
Proof. intros H. apply wshare_none. intros i Hi W. apply rleb_false. apply H; auto. apply arm_of_weight in W. auto. Qed.
Lemma share_above n t norm thr d m y c : above n t d y c -> wshare n (arm_weight n t norm thr d m) (fun i => rleb (y i) c) = meanf n (arm_weight n t norm thr d m).
Proof. intros H. apply wshare_all. intros i Hi W. apply rleb_true. apply H; auto. apply arm_of_weight in W. auto. Qed.

Lemma ipw_ends n t thr q y d m c : binary n d -> 0 < thr < 1 / 2 -> some_row n (in_arm t d) ->
  (below n t d y c -> ipw_moment n t true thr q y d m c = - q) /\
  (above n t d y c -> ipw_moment n t true thr q y d m c = 1 - q).
Proof.
  intros B T S. assert (N : (0 < n)%nat) by (destruct S as (i & ? & _); lia). split; intros H; rewrite ipw_decomp by auto.
  - rewrite share_below by auto. lra.
  - rewrite share_above, weight_mean by auto. lra.
Qed.
Lemma pq_ends n t thr q y d g m c g0 : binary n d -> 0 < thr < 1 / 2 -> some_row n (in_arm t d) -> (forall i, (i < n)%nat -> g i = g0) ->
  (below n t d y c -> pq_moment n t true thr q y d g m c = - q) /\
  (above n t d y c -> pq_moment n t true thr q y d g m c = 1 - q).
Proof.
  intros B T S G. assert (N : (0 < n)%nat) by (destruct S as (i & ? & _); lia).
  assert (Z : meanf n (fun i => (1 - arm_weight n t true thr d m i) * g i) = 0).
  { erewrite meanf_ext. 2:{ intros i Hi. rewrite G by auto. reflexivity. } rewrite meanf_scal_r, meanf_minus, meanf_const, weight_mean by auto. lra. }
  split; intros H; rewrite pq_decomp, Z by auto.
  - rewrite share_below by auto. lra.
  - rewrite share_above, weight_mean by auto. lra.
Qed.

(** Extreme rows. *)
Lemma some_dec n (P : nat -> Prop) : (forall i, P i \/ ~ P i) -> some_row n P \/ ~ some_row n P.
Proof.
  intros D. induction n as [|n [(i & ? & ?)|IH]]; [right; intros (i & ? & _); lia|left; exists i; split; auto; lia|].
  destruct (D n) as [H|H]; [left; exists n; auto|right]. intros (i & Hi & Pi). destruct (Nat.eq_dec i n) as [->|]; auto. apply IH. exists i. split; auto. lia.
Qed.
Lemma max_row n (P : nat -> Prop) (f : vec) : (forall i, P i \/ ~ P i) -> some_row n P -> exists i, (i < n)%nat /\ P i /\ forall j, (j < n)%nat -> P j -> f j <= f i.
Proof.
  intros D. induction n as [|n IH]; intros S; [destruct S as (i & ? & _); lia|].
  destruct (some_dec n P D) as [S'|S'].
  - destruct (IH S') as (i & Hi & Pi & M). destruct (D n) as [Pn|Pn].
    + destruct (Rle_dec (f n) (f i)) as [L|L].
      * exists i. repeat split; auto. intros j Hj Pj. destruct (Nat.eq_dec j n) as [->|]; auto. apply M; auto; lia.
      * exists n. repeat split; auto. intros j Hj Pj. destruct (Nat.eq_dec j n) as [->|]; [lra|]. assert (f j <= f i) by (apply M; auto; lia). lra.
    + exists i. repeat split; auto. intros j Hj Pj. destruct (Nat.eq_dec j n) as [->|]; [contradiction|]. apply M; auto; lia.
  - destruct S as (i & Hi & Pi). assert (i = n) as -> by (destruct (Nat.eq_dec i n); auto; exfalso; apply S'; exists i; split; auto; lia).
    exists n. repeat split; auto. intros j Hj Pj. destruct (Nat.eq_dec j n) as [->|]; [lra|]. exfalso. apply S'. exists j. split; auto. lia.
Qed.
Lemma ipw_root n t thr q y d m : binary n d -> 0 < thr < 1 / 2 -> some_row n (in_arm t d) -> 0 < q < 1 ->
  exists i, (i < n)%nat /\ in_arm t d i /\ weighted_quantile n (arm_weight n t true thr d m) y q (y i) /\
    (forall theta, theta < y i -> ipw_moment n t true thr q y d m theta < 0) /\
    (forall theta, y i <= theta -> 0 <= ipw_moment n t true thr q y d m theta).
Proof.
  intros B T S Q. assert (N : (0 < n)%nat) by (destruct S as (i & ? & _); lia).
  set (w := arm_weight n t true thr d m). set (Sh := fun c => wshare n w (fun i => rleb (y i) c)).
  assert (W : forall i, (i < n)%nat -> 0 <= w i) by (intros; apply weight_nonneg; auto).
  assert (DA : forall i, in_arm t d i \/ ~ in_arm t d i) by (intros i; unfold in_arm; destruct (Req_EM_T (d i) (level t)); auto).
  assert (MONO : forall a b, a <= b -> Sh a <= Sh b).
  { intros a b L. apply wshare_le; auto. intros i _ _ H. apply rleb_true in H. apply rleb_true. lra. }
  destruct (max_row n (in_arm t d) y DA S) as (top & Ht & At & Mt).
  assert (ST : Sh (y top) = 1). { unfold Sh, w. rewrite share_above, weight_mean; auto. }
  destruct (max_row n (fun i => in_arm t d i /\ q <= Sh (y i)) (fun i => - y i)) as (i & Hi & (Ai & Qi) & Mi).
  { intros i. destruct (DA i); [|right; tauto]. destruct (Rle_dec q (Sh (y i))); [left; auto|right; tauto]. }
  { exists top. repeat split; auto. lra. }
  exists i. split; [auto|]. split; [auto|].
  assert (BELOW : forall theta, theta < y i -> Sh theta < q).
  { intros theta L. destruct (some_dec n (fun k => in_arm t d k /\ y k <= theta)) as [Sb|Sb].
    { intros k. destruct (DA k); [|right; tauto]. destruct (Rle_dec (y k) theta); [left; auto|right; tauto]. }
    - destruct (max_row n (fun k => in_arm t d k /\ y k <= theta) y) as (k & Hk & (Ak & Lk) & Mk); auto.
      { intros k. destruct (DA k); [|right; tauto]. destruct (Rle_dec (y k) theta); [left; auto|right; tauto]. }
      assert (E : Sh theta = Sh (y k)).
      { apply wshare_ext. intros j Hj Wj. apply arm_of_weight in Wj.
        destruct (rleb (y j) theta) eqn:A; symmetry; [apply rleb_true in A; apply rleb_true; apply Mk; auto|apply rleb_false in A; apply rleb_false; lra]. }
      rewrite E. destruct (Rlt_dec (Sh (y k)) q) as [|F]; auto. exfalso. assert (- y k <= - y i) by (apply Mi; auto; split; auto; lra). lra.
    - assert (E : Sh theta = 0).
      { apply wshare_none. intros j Hj Wj. apply arm_of_weight in Wj. apply rleb_false. destruct (Rlt_dec theta (y j)) as [|F]; auto. exfalso. apply Sb. exists j. repeat split; auto. lra. }
      rewrite E. lra. }
  split; [|split].
  - unfold weighted_quantile. split; [|exact Qi].
    destruct (some_dec n (fun k => in_arm t d k /\ y k < y i)) as [Sb|Sb].
    { intros k. destruct (DA k); [|right; tauto]. destruct (Rlt_dec (y k) (y i)); [left; auto|right; tauto]. }
    + destruct (max_row n (fun k => in_arm t d k /\ y k < y i) y) as (k & Hk & (Ak & Lk) & Mk); auto.
      { intros k. destruct (DA k); [|right; tauto]. destruct (Rlt_dec (y k) (y i)); [left; auto|right; tauto]. }
      left. apply Rle_lt_trans with (Sh (y k)); [|apply BELOW; auto].
      apply wshare_le; auto. intros j Hj Wj H. apply arm_of_weight in Wj. apply rltb_true in H. apply rleb_true. apply Mk; auto.
    + rewrite wshare_none; [lra|]. intros j Hj Wj. apply arm_of_weight in Wj. apply rltb_false.
      destruct (Rle_dec (y i) (y j)) as [|F]; auto. exfalso. apply Sb. exists j. repeat split; auto. lra.
  - intros theta L. rewrite ipw_decomp by auto. specialize (BELOW theta L). unfold Sh, w in BELOW. lra.
  - intros theta L. rewrite ipw_decomp by auto. specialize (MONO _ _ L). unfold Sh, w in *. lra.
Qed.

(** ** CVaR *)
Lemma cvar_target_eq q theta y i : q < 1 -> cvar_target q theta y i = theta + Rmax 0 (y i - theta) / (1 - q).
Proof.
  intros Q. unfold cvar_target. replace ((y i - q * theta) / (1 - q)) with (theta + (y i - theta) / (1 - q)) by (field; lra).
  assert (I : 0 < / (1 - q)) by (apply Rinv_0_lt_compat; lra). unfold Rdiv.
  destruct (Rle_dec 0 (y i - theta)) as [L|L].
  - rewrite (Rmax_right 0) by auto. apply Rmax_right. assert (0 <= (y i - theta) * / (1 - q)) by (apply Rmult_le_pos; lra). lra.
  - rewrite (Rmax_left 0) by lra. rewrite Rmax_left; [lra|]. assert (0 <= (theta - y i) * / (1 - q)) by (apply Rmult_le_pos; lra). lra.
Qed.
Lemma cvar_target_ge q theta y i : 0 < q < 1 -> theta <= cvar_target q theta y i /\ y i <= cvar_target q theta y i.
Proof.
  intros Q. split; [apply Rmax_l|]. rewrite cvar_target_eq by lra.
  assert (I : 1 <= / (1 - q)). { rewrite <- Rinv_1. apply Rinv_le_contravar; lra. } unfold Rdiv.
  pose proof (Rmax_l 0 (y i - theta)). pose proof (Rmax_r 0 (y i - theta)).
  assert (Rmax 0 (y i - theta) * 1 <= Rmax 0 (y i - theta) * / (1 - q)) by (apply Rmult_le_compat_l; auto). lra.
Qed.
Lemma cvar_est n t norm thr q y d g m pq : (0 < n)%nat ->
  estimate n (cvar_score t q y d g (pq_adjust n t norm thr d m) pq) =
  tail_mean n (arm_weight n t norm thr d m) y q pq + meanf n (fun i => (1 - arm_weight n t norm thr d m i) * g i).
Proof.
  intros N. unfold cvar_score. rewrite est_minus_one by auto. unfold tail_mean. rewrite <- meanf_plus. apply meanf_ext. intros i _.
  unfold arm_weight, Rdiv. ring.
Qed.
Lemma cvar_est_const n t thr q y d g m pq g0 : binary n d -> 0 < thr < 1 / 2 -> some_row n (in_arm t d) -> (forall i, (i < n)%nat -> g i = g0) ->
  estimate n (cvar_score t q y d g (pq_adjust n t true thr d m) pq) = tail_mean n (arm_weight n t true thr d m) y q pq.
Proof.
  intros B T S G. assert (N : (0 < n)%nat) by (destruct S as (i & ? & _); lia). rewrite cvar_est by auto.
  erewrite (meanf_ext n (fun i => (1 - arm_weight n t true thr d m i) * g i)). 2:{ intros i Hi. rewrite G by auto. reflexivity. }
  rewrite meanf_scal_r, meanf_minus, meanf_const, weight_mean by auto. lra.
Qed.
Lemma tail_mean_ge n w y q theta : (0 < n)%nat -> (forall i, (i < n)%nat -> 0 <= w i) -> meanf n w = 1 -> 0 < q < 1 ->
  theta <= tail_mean n w y q theta /\ meanf n (fun i => w i * y i) <= tail_mean n w y q theta.
Proof.
  intros N W M Q. split.
  - replace theta with (meanf n (fun i => w i * theta)) at 1 by (rewrite meanf_scal_r, M; lra).
    apply meanf_le; auto. intros i Hi. apply Rmult_le_compat_l; auto. apply cvar_target_ge; auto.
  - apply meanf_le; auto. intros i Hi. apply Rmult_le_compat_l; auto. apply cvar_target_ge; auto.
Qed.
Lemma cvar_dominates n t thr q y d g m pq g0 : binary n d -> 0 < thr < 1 / 2 -> some_row n (in_arm t d) -> 0 < q < 1 -> (forall i, (i < n)%nat -> g i = g0) ->
  pq <= estimate n (cvar_score t q y d g (pq_adjust n t true thr d m) pq) /\
  meanf n (fun i => arm_weight n t true thr d m i * y i) <= estimate n (cvar_score t q y d g (pq_adjust n t true thr d m) pq).
Proof.
  intros B T S Q G. assert (N : (0 < n)%nat) by (destruct S as (i & ? & _); lia). rewrite (cvar_est_const n t thr q y d g m pq g0) by auto.
  apply tail_mean_ge; auto. intros; apply weight_nonneg; auto. apply weight_mean; auto.
Qed.
Lemma tail_minimal n w y q t theta : (0 < n)%nat -> (forall i, (i < n)%nat -> 0 <= w i) -> meanf n w = 1 -> 0 < q < 1 -> weighted_quantile n w y q t ->
  tail_mean n w y q t <= tail_mean n w y q theta.
Proof.
  intros N W M Q (L1 & L2). assert (I : 0 < / (1 - q)) by (apply Rinv_0_lt_compat; lra).
  destruct (Rle_dec t theta) as [L|L].
  - assert (H : meanf n (fun i => (theta - t) * (w i - (w i - w i * b2r (rleb (y i) t)) * / (1 - q))) <= tail_mean n w y q theta - tail_mean n w y q t).
    { unfold tail_mean. rewrite <- meanf_minus. apply meanf_le; auto. intros i Hi. rewrite !cvar_target_eq by lra. specialize (W i Hi).
      replace (w i * (theta + Rmax 0 (y i - theta) / (1 - q)) - w i * (t + Rmax 0 (y i - t) / (1 - q))) with
        (w i * ((theta - t) + (Rmax 0 (y i - theta) - Rmax 0 (y i - t)) * / (1 - q))) by (unfold Rdiv; ring).
      replace ((theta - t) * (w i - (w i - w i * b2r (rleb (y i) t)) * / (1 - q))) with
        (w i * ((theta - t) + (- (theta - t) * (1 - b2r (rleb (y i) t))) * / (1 - q))) by ring.
      apply Rmult_le_compat_l; auto. apply Rplus_le_compat_l. apply Rmult_le_compat_r; [lra|].
      unfold rleb, b2r, Rmax. destruct (Rle_dec (y i) t), (Rle_dec 0 (y i - theta)), (Rle_dec 0 (y i - t)); lra. }
    rewrite meanf_scal, meanf_minus, meanf_scal_r, meanf_minus, M in H. fold (wshare n w (fun i => rleb (y i) t)) in H.
    set (s := wshare n w (fun i => rleb (y i) t)) in *.
    assert ((1 - s) * / (1 - q) <= 1). { apply Rle_trans with ((1 - q) * / (1 - q)); [apply Rmult_le_compat_r; lra|rewrite Rinv_r; lra]. }
    assert (0 <= (theta - t) * (1 - (1 - s) * / (1 - q))) by (apply Rmult_le_pos; lra). lra.
  - assert (H : meanf n (fun i => (t - theta) * ((w i - w i * b2r (rltb (y i) t)) * / (1 - q) - w i)) <= tail_mean n w y q theta - tail_mean n w y q t).
    { unfold tail_mean. rewrite <- meanf_minus. apply meanf_le; auto. intros i Hi. rewrite !cvar_target_eq by lra. specialize (W i Hi).
      replace (w i * (theta + Rmax 0 (y i - theta) / (1 - q)) - w i * (t + Rmax 0 (y i - t) / (1 - q))) with
        (w i * ((theta - t) + (Rmax 0 (y i - theta) - Rmax 0 (y i - t)) * / (1 - q))) by (unfold Rdiv; ring).
      replace ((t - theta) * ((w i - w i * b2r (rltb (y i) t)) * / (1 - q) - w i)) with
        (w i * ((theta - t) + ((t - theta) * (1 - b2r (rltb (y i) t))) * / (1 - q))) by ring.
      apply Rmult_le_compat_l; auto. apply Rplus_le_compat_l. apply Rmult_le_compat_r; [lra|].
      unfold rltb, b2r, Rmax. destruct (Rlt_dec (y i) t), (Rle_dec 0 (y i - theta)), (Rle_dec 0 (y i - t)); lra. }
    rewrite meanf_scal, meanf_minus, meanf_scal_r, meanf_minus, M in H. fold (wshare n w (fun i => rltb (y i) t)) in H.
    set (s := wshare n w (fun i => rltb (y i) t)) in *.
    assert (1 <= (1 - s) * / (1 - q)). { apply Rle_trans with ((1 - q) * / (1 - q)); [rewrite Rinv_r; lra|apply Rmult_le_compat_r; lra]. }
    assert (0 <= (t - theta) * ((1 - s) * / (1 - q) - 1)) by (apply Rmult_le_pos; lra). lra.
Qed.
Lemma tail_shortfall n w y q t : (0 < n)%nat -> meanf n w = 1 -> 0 < q < 1 -> wshare n w (fun i => rleb (y i) t) = q ->
  tail_mean n w y q t = meanf n (fun i => w i * b2r (rltb t (y i)) * y i) / wshare n w (fun i => rltb t (y i)).
Proof.
  intros N M Q E.
  assert (E' : wshare n w (fun i => rltb t (y i)) = 1 - q).
  { rewrite <- E, <- M. unfold wshare. rewrite <- meanf_minus. apply meanf_ext. intros i _. unfold rltb, rleb, b2r. destruct (Rlt_dec t (y i)), (Rle_dec (y i) t); lra. }
  rewrite E'. unfold tail_mean.
  erewrite meanf_ext. 2:{ intros i _. rewrite cvar_target_eq by lra.
    replace (w i * (t + Rmax 0 (y i - t) / (1 - q))) with (w i * t + (w i * b2r (rltb t (y i)) * y i / (1 - q) - t / (1 - q) * (w i * b2r (rltb t (y i))))).
    reflexivity. unfold Rmax, rltb, b2r. destruct (Rle_dec 0 (y i - t)), (Rlt_dec t (y i)); try lra; try (field; lra).
    replace (y i) with t by lra. field. lra. }
  rewrite meanf_plus, meanf_scal_r, meanf_minus, meanf_scal, meanf_div, M. fold (wshare n w (fun i => rltb t (y i))). rewrite E'. field. lra.
Qed.

(** ** Local potential quantiles *)
Lemma lpq_full n (t : bool) norm thr q y d (g0 g1 m : vec) coef i : binary n d -> (i < n)%nat -> (forall j, (j < n)%nat -> (if t then g0 j else g1 j) = 0) ->
  lpq_score t q (arm t d) (lpq_adjust n norm thr d m) g0 g1 y d 1 coef i =
  pq_score q (arm t d) (if t then g1 else g0) (pq_adjust n t norm thr d m) y coef i.
Proof.
  intros B Hi Z. specialize (Z i Hi). unfold lpq_score, pq_score, lpq_adjust, pq_adjust, lpq_sign. destruct t; cbn [level].
  - rewrite (arm_treated n) by auto. rewrite Z. destruct (B i Hi) as [-> | ->]; unfold Rdiv; rewrite Rinv_1; ring.
  - rewrite (arm_control n) by auto. rewrite Z. destruct (B i Hi) as [-> | ->]; unfold Rdiv; rewrite Rinv_1; ring.
Qed.
Lemma lpq_comp_full n norm thr d m : binary n d -> (0 < n)%nat -> lpq_comp n d d (lpq_adjust n norm thr d m) (fun _ => 0) (fun _ => 1) = 1.
Proof.
  intros B N. unfold lpq_comp. erewrite meanf_ext; [apply (meanf_const n 1 N)|]. intros i Hi. destruct (B i Hi) as [-> | ->]; unfold Rdiv; ring.
Qed.
Lemma lpq_comp_signal n d z m md0 md1 : lpq_comp n d z m md0 md1 = meanf n (dr_signal d z md0 md1 m).
Proof.
  unfold lpq_comp. apply meanf_ext. intros i _. unfold dr_signal, dr_level, compl, Rdiv. ring.
Qed.
Lemma lpq_moment_signal n (t : bool) q y d z g0 g1 m comp c : (0 < n)%nat ->
  meanf n (lpq_score t q (arm t d) m g0 g1 y z comp c) =
  (if t then 1 else -1) * meanf n (dr_signal (fun i => arm t d i * b2r (rleb (y i) c)) z g0 g1 m) / comp - q.
Proof.
  intros N. transitivity (meanf n (fun i => (if t then 1 else -1) * dr_signal (fun i => arm t d i * b2r (rleb (y i) c)) z g0 g1 m i / comp - q)).
  - apply meanf_ext. intros i _. unfold lpq_score, lpq_sign, level, dr_signal, dr_level, compl, Rdiv. destruct t; ring.
  - rewrite meanf_minus, meanf_const, meanf_div, meanf_scal by exact N. reflexivity.
Qed.
Lemma lpq_ipw_moment n (t : bool) q y d z m comp theta : (0 < n)%nat ->
  meanf n (lpq_ipw_score t q theta d y m z comp) =
  (if t then 1 else -1) * meanf n (dr_signal (fun i => arm t d i * b2r (rleb (y i) theta)) z (fun _ => 0) (fun _ => 0) m) / comp - q.
Proof.
  intros N. transitivity (meanf n (fun i => (if t then 1 else -1) * dr_signal (fun i => arm t d i * b2r (rleb (y i) theta)) z (fun _ => 0) (fun _ => 0) m i / comp - q)).
  - apply meanf_ext. intros i _. unfold lpq_ipw_score, lpq_sign, level, dr_signal, dr_level, compl, Rdiv. destruct t; ring.
  - rewrite meanf_minus, meanf_const, meanf_div, meanf_scal by exact N. reflexivity.
Qed.
Lemma lpq_ipw_full n t norm thr q y d m theta i : binary n d -> (i < n)%nat ->
  lpq_ipw_score t q theta d y (lpq_adjust n norm thr d m) d 1 i = ipw_score t q theta d y (pq_adjust n t norm thr d m) i.
Proof.
  intros B Hi. unfold lpq_ipw_score, ipw_score, lpq_adjust, pq_adjust, lpq_sign. destruct t; cbn [level].
  - rewrite (arm_treated n) by auto. destruct (B i Hi) as [-> | ->]; unfold Rdiv; rewrite Rinv_1; ring.
  - rewrite (arm_control n) by auto. destruct (B i Hi) as [-> | ->]; unfold Rdiv; rewrite Rinv_1; ring.
Qed.
(** The score is linear in the indicator: relabelling the treatment and the
    instrument together gives the score of the other level. *)
Lemma arm_compl n t d i : binary n d -> (i < n)%nat -> arm t (compl d) i = arm (negb t) d i.
Proof.
  intros B Hi. pose proof (compl_binary n d B) as B'. destruct t; cbn.
  - rewrite (arm_treated n), (arm_control n); auto.
  - rewrite (arm_treated n), (arm_control n) by auto. unfold compl. lra.
Qed.
Lemma lpq_swap n t q y d z g0 g1 m comp coef i : binary n d -> (i < n)%nat ->
  lpq_score t q (arm t d) m g0 g1 y z comp coef i =
  lpq_score (negb t) q (arm (negb t) (compl d)) (compl m) g1 g0 y (compl z) comp coef i.
Proof.
  intros B Hi. unfold lpq_score. rewrite (arm_compl n (negb t)) by auto. rewrite Bool.negb_involutive. unfold lpq_sign, compl, Rdiv.
  replace (1 - (1 - z i)) with (z i) by ring. replace (1 - (1 - m i)) with (m i) by ring. destruct t; cbn [negb level]; ring.
Qed.
Lemma trimm_compl thr m : 0 < thr < 1 / 2 -> trimm true thr (compl m) = compl (trimm true thr m).
Proof. intros T. apply FunctionalExtensionality.functional_extensionality. intros i. rewrite trimm_sym by auto. reflexivity. Qed.
Lemma pq_swap n t norm thr d m i : binary n d -> 0 < thr < 1 / 2 -> pq_adjust n (negb t) norm thr (compl d) (compl m) i = pq_adjust n t norm thr d m i.
Proof.
  intros B T. unfold pq_adjust. rewrite trimm_compl by auto. destruct norm; [rewrite normalize_compl|]; destruct t; unfold compl; cbn; lra.
Qed.
Lemma pq_label_swap n t norm thr q y d g m theta : binary n d -> 0 < thr < 1 / 2 ->
  pq_moment n (negb t) norm thr q y (compl d) g (compl m) theta = pq_moment n t norm thr q y d g m theta.
Proof.
  intros B T. unfold pq_moment. apply meanf_ext. intros i Hi. unfold pq_score. rewrite (arm_compl n) by auto. rewrite Bool.negb_involutive, (pq_swap n) by auto. reflexivity.
Qed.
Lemma normalised_weights n t thr d m : binary n d -> 0 < thr < 1 / 2 -> some_row n (in_arm t d) ->
  (forall i, (i < n)%nat -> in_arm t d i -> 0 < arm_weight n t true thr d m i) /\ meanf n (arm_weight n t true thr d m) = 1.
Proof. intros B T S. split; [intros; apply weight_in; auto|apply weight_mean; auto]. Qed.
Lemma cvar_target_facts q theta y i : 0 < q < 1 ->
  cvar_target q theta y i = theta + Rmax 0 (y i - theta) / (1 - q) /\ theta <= cvar_target q theta y i /\ y i <= cvar_target q theta y i.
Proof. intros Q. split; [apply cvar_target_eq; lra|apply cvar_target_ge; auto]. Qed.

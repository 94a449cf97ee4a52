(** Score algebra. *)
From Verif Require Export S_Scores L_Estimation.
From Coq Require Import FunctionalExtensionality Lra.
Local Open Scope R_scope.

Lemma est_eq n e : estimate n e = - meanf n (el_b e) / meanf n (el_a e).
Proof. reflexivity. Qed.
Lemma meanf_norm n f : meanf n f <> 0 -> meanf n (fun i => f i / meanf n f) = 1.
Proof. intro H. rewrite meanf_div. field. exact H. Qed.
Lemma meanf_zero n f : (forall i, (i < n)%nat -> f i = 0) -> meanf n f = 0.
Proof. intro H. unfold meanf. rewrite (sumf_zero n f H). unfold Rdiv. ring. Qed.
Lemma binary_sq n d i : binary n d -> (i < n)%nat -> d i * d i = d i.
Proof. intros H Hi. destruct (H i Hi) as [-> | ->]; ring. Qed.
Lemma binary_nonneg n d i : binary n d -> (i < n)%nat -> 0 <= d i.
Proof. intros H Hi. destruct (H i Hi) as [-> | ->]; lra. Qed.
Lemma compl_binary n d : binary n d -> binary n (compl d).
Proof. intros H i Hi. unfold compl. destruct (H i Hi) as [-> | ->]; lra. Qed.
Lemma compl_inside n m : inside n m -> inside n (compl m).
Proof. intros H i Hi. unfold compl. specialize (H i Hi). lra. Qed.
Lemma div_pos_pos a b : 0 < a -> 0 < b -> 0 < a / b.
Proof. intros. unfold Rdiv. apply Rmult_lt_0_compat; [assumption|now apply Rinv_0_lt_compat]. Qed.
Lemma mean_arm_pos n d (w : vec) : binary n d -> (forall i, (i < n)%nat -> 0 < w i) -> some_row n (fun i => d i = 1) ->
  0 < meanf n (fun i => d i * w i).
Proof.
  intros B W (i & Hi & E). apply meanf_pos.
  - intros j Hj. pose proof (W j Hj). destruct (B j Hj) as [-> | ->]; lra.
  - exists i. split; [exact Hi|]. rewrite E. pose proof (W i Hi). lra.
Qed.
Lemma mean_ipw_pos n d m : binary n d -> inside n m -> some_row n (fun i => d i = 1) -> 0 < meanf n (fun i => d i / m i).
Proof.
  intros B W H. rewrite (meanf_ext n (fun i => d i / m i) (fun i => d i * / m i)) by reflexivity.
  apply mean_arm_pos; try assumption. intros i Hi. apply Rinv_0_lt_compat. apply W. exact Hi.
Qed.
Lemma mean_pos n d : binary n d -> some_row n (fun i => d i = 1) -> 0 < meanf n d.
Proof.
  intros B H. rewrite (meanf_ext n d (fun i => d i * 1)) by (intros; ring). apply mean_arm_pos; try assumption. intros. lra.
Qed.

(** ** Trimming *)
Lemma check_trimming_iff rule thr : check_trimming rule thr = Ok tt <-> rule = true /\ exists t, thr = PFloat t /\ 0 < t < 1 / 2.
Proof.
  unfold check_trimming, require. destruct rule; [|split; [discriminate|intros (A & _); discriminate]].
  destruct thr as [t| | | | | | ]; try (split; [discriminate|intros (_ & t & A & _); discriminate]).
  unfold rleb. destruct (Rle_dec t 0) as [a|a]; [|destruct (Rle_dec (1 / 2) t) as [b|b]]; cbn [negb orb].
  - split; [discriminate|]. intros (_ & t' & E & H). injection E as <-. lra.
  - split; [discriminate|]. intros (_ & t' & E & H). injection E as <-. lra.
  - split; [|reflexivity]. intros _. split; [reflexivity|]. exists t. split; [reflexivity|lra].
Qed.
Ltac clip := unfold trimm, rclip, compl, Rmin, Rmax in *; repeat match goal with |- context [Rle_dec ?a ?b] => destruct (Rle_dec a b) | H : context [Rle_dec ?a ?b] |- _ => destruct (Rle_dec a b) end.
Lemma trimm_range t m i : 0 < t < 1 / 2 -> t <= trimm true t m i <= 1 - t.
Proof. intros. clip; lra. Qed.
Lemma trimm_id t m i : t <= m i <= 1 - t -> trimm true t m i = m i.
Proof. intros. clip; lra. Qed.
Lemma trimm_idem t m i : 0 < t < 1 / 2 -> trimm true t (trimm true t m) i = trimm true t m i.
Proof. intros. apply trimm_id. apply trimm_range. assumption. Qed.
Lemma trimm_mono t m m' i : m i <= m' i -> trimm true t m i <= trimm true t m' i.
Proof. intros. clip; lra. Qed.
Lemma trimm_sym t m i : 0 < t < 1 / 2 -> trimm true t (compl m) i = 1 - trimm true t m i.
Proof. intros. clip; lra. Qed.
Lemma trimm_nearest t m i x : 0 < t < 1 / 2 -> t <= x <= 1 - t -> Rabs (trimm true t m i - m i) <= Rabs (x - m i).
Proof. intros. clip; unfold Rabs; repeat destruct Rcase_abs; lra. Qed.
Lemma trimm_weights t m (d : vec) i : 0 < t < 1 / 2 -> (d i = 0 \/ d i = 1) ->
  0 <= d i / trimm true t m i <= 1 / t /\ 0 <= (1 - d i) / (1 - trimm true t m i) <= 1 / t.
Proof.
  intros H D. pose proof (trimm_range t m i H) as R. set (x := trimm true t m i) in *.
  assert (A : 0 < / x) by (apply Rinv_0_lt_compat; lra). assert (B : 0 < / (1 - x)) by (apply Rinv_0_lt_compat; lra).
  assert (C : / x <= / t) by (apply Rinv_le_contravar; lra). assert (E : / (1 - x) <= / t) by (apply Rinv_le_contravar; lra).
  assert (F : 0 < / t) by (apply Rinv_0_lt_compat; lra).
  unfold Rdiv. destruct D as [-> | ->]; lra.
Qed.

(** ** Normalised weights *)
Lemma normalize_treated n m d : binary n d -> inside n m -> some_row n (fun i => d i = 1) ->
  meanf n (fun i => d i / normalize_ipw n m d i) = 1.
Proof.
  intros B W H. pose proof (mean_ipw_pos n d m B W H) as P. set (A := meanf n (fun i => d i / m i)) in *.
  rewrite <- (meanf_norm n (fun i => d i / m i)) by (fold A; lra). apply meanf_ext. intros i Hi. fold A. unfold normalize_ipw. fold A.
  specialize (W i Hi). destruct (B i Hi) as [E | E]; rewrite E; [unfold Rdiv; ring|].
  match goal with |- 1 / ?x = _ => replace x with (m i * A) by ring end. field. split; lra.
Qed.
Lemma compl_compl d : compl (compl d) = d.
Proof. apply functional_extensionality. intro. unfold compl. ring. Qed.
Lemma normalize_compl n m d : normalize_ipw n (compl m) (compl d) = compl (normalize_ipw n m d).
Proof.
  apply functional_extensionality. intro i. unfold normalize_ipw. 
  rewrite (meanf_ext n (fun i => compl d i / compl m i) (fun i => (1 - d i) / (1 - m i))) by reflexivity.
  rewrite (meanf_ext n (fun i => (1 - compl d i) / (1 - compl m i)) (fun i => d i / m i)) by (intros; unfold compl; f_equal; [|f_equal]; ring).
  unfold compl. ring.
Qed.
Lemma normalize_control n m d : binary n d -> inside n m -> some_row n (fun i => d i = 0) ->
  meanf n (fun i => (1 - d i) / (1 - normalize_ipw n m d i)) = 1.
Proof.
  intros B W (i & Hi & E). pose proof (normalize_treated n (compl m) (compl d) (compl_binary n d B) (compl_inside n m W)) as H.
  rewrite normalize_compl in H. apply H. exists i. split; [exact Hi|]. unfold compl. lra.
Qed.
Lemma adjust_compl n m d norm : ps_adjust n (compl m) (compl d) norm = compl (ps_adjust n m d norm).
Proof. destruct norm; [apply normalize_compl|reflexivity]. Qed.

(** ** Weights of the outcome in the scores *)
Lemma irm_ow n norm y d g0 g1 m i : outcome_weight (fun y => irm_score n false norm unit_weights y d g0 g1 m) y i =
  d i / ps_adjust n m d norm i - (1 - d i) / (1 - ps_adjust n m d norm i).
Proof. unfold outcome_weight, irm_score, irm_weights, unit_weights. cbn [el_b fst snd wg wg_bar]. unfold Rdiv. ring. Qed.
Lemma apo_ow n norm y d g1 m i : outcome_weight (fun y => apo_score n norm unit_weights y d g1 m) y i = d i / ps_adjust n m d norm i.
Proof. unfold outcome_weight, apo_score, apo_weights, unit_weights. cbn [el_b fst snd wg wg_bar]. unfold Rdiv. ring. Qed.
Lemma iivm_ow n norm y z d g0 g1 m r0 r1 i : outcome_weight (fun y => iivm_score n norm y z d g0 g1 m r0 r1) y i =
  z i / iivm_adjust n norm d m i - (1 - z i) / (1 - iivm_adjust n norm d m i).
Proof. unfold outcome_weight, iivm_score. cbn [el_b]. unfold Rdiv. ring. Qed.
Lemma ssm_ow n norm y d s g1 g0 pi m i : outcome_weight (fun y => ssm_score n norm y d s g1 g0 pi m) y i =
  ssm_weight_treat n norm d s pi m * (d i * s i / (m i * pi i)) - ssm_weight_control n norm d s pi m * ((1 - d i) * s i / ((1 - m i) * pi i)).
Proof. unfold outcome_weight, ssm_score. cbn [el_b]. unfold Rdiv. ring. Qed.

Lemma irm_norm_weights n y d g0 g1 m : binary n d -> inside n m -> some_row n (fun i => d i = 1) -> some_row n (fun i => d i = 0) ->
  let w := outcome_weight (fun y => irm_score n false true unit_weights y d g0 g1 m) y in
  arm_mean n d w = 1 /\ arm_mean n (compl d) w = -1.
Proof.
  intros B W H1 H0 w. unfold arm_mean, w. split.
  - rewrite <- (normalize_treated n m d B W H1). apply meanf_ext. intros i Hi. rewrite irm_ow. cbn [ps_adjust]. unfold Rdiv. destruct (B i Hi) as [-> | ->]; ring.
  - replace (-1) with (Ropp 1) by ring. rewrite <- (normalize_control n m d B W H0). rewrite <- meanf_opp. apply meanf_ext. intros i Hi. rewrite irm_ow. cbn [ps_adjust]. unfold compl, Rdiv. destruct (B i Hi) as [-> | ->]; ring.
Qed.
Lemma apo_norm_weights n y tr g1 m : binary n tr -> inside n m -> some_row n (fun i => tr i = 1) ->
  let w := outcome_weight (fun y => apo_score n true unit_weights y tr g1 m) y in arm_mean n tr w = 1 /\ arm_mean n (compl tr) w = 0.
Proof.
  intros B W H1 w. unfold arm_mean, w. split.
  - rewrite <- (normalize_treated n m tr B W H1). apply meanf_ext. intros i Hi. rewrite apo_ow. cbn [ps_adjust]. unfold Rdiv. destruct (B i Hi) as [-> | ->]; ring.
  - apply meanf_zero. intros i Hi. rewrite apo_ow. unfold compl, Rdiv. destruct (B i Hi) as [-> | ->]; ring.
Qed.
Lemma iivm_norm_weights n y d g0 g1 m r0 r1 : binary n d -> inside n m -> some_row n (fun i => d i = 1) -> some_row n (fun i => d i = 0) ->
  let w := outcome_weight (fun y => iivm_score n true y d d g0 g1 m r0 r1) y in
  arm_mean n d w = 1 /\ arm_mean n (compl d) w = -1.
Proof.
  intros B W H1 H0 w. unfold arm_mean, w. split.
  - rewrite <- (normalize_treated n m d B W H1). apply meanf_ext. intros i Hi. rewrite iivm_ow. cbn [iivm_adjust]. unfold Rdiv. destruct (B i Hi) as [-> | ->]; ring.
  - replace (-1) with (Ropp 1) by ring. rewrite <- (normalize_control n m d B W H0). rewrite <- meanf_opp. apply meanf_ext. intros i Hi. rewrite iivm_ow. cbn [iivm_adjust]. unfold compl, Rdiv. destruct (B i Hi) as [-> | ->]; ring.
Qed.
(** In the sample selection model the normalised weights average to the share of the arm. *)
Lemma ssm_norm_weights n y d s g1 g0 pi m : binary n d -> binary n s -> inside n m -> inside n pi ->
  some_row n (fun i => d i = 1 /\ s i = 1) -> some_row n (fun i => d i = 0 /\ s i = 1) ->
  let w := outcome_weight (fun y => ssm_score n true y d s g1 g0 pi m) y in
  arm_mean n d w = meanf n d /\ arm_mean n (compl d) w = - meanf n (compl d).
Proof.
  intros B S W V H1 H0 w. unfold arm_mean, w. split.
  - assert (P : 0 < sumf n (fun i => d i * s i / (pi i * m i))).
    { apply sumf_pos.
      - intros j Hj. specialize (W j Hj). specialize (V j Hj). assert (0 < / (pi j * m j)) by (apply Rinv_0_lt_compat, Rmult_lt_0_compat; lra).
        unfold Rdiv. destruct (B j Hj) as [-> | ->], (S j Hj) as [-> | ->]; lra.
      - destruct H1 as (i & Hi & E1 & E2). exists i. split; [exact Hi|]. rewrite E1, E2. specialize (W i Hi). specialize (V i Hi).
        assert (0 < / (pi i * m i)) by (apply Rinv_0_lt_compat, Rmult_lt_0_compat; lra). unfold Rdiv. lra. }
    transitivity (meanf n (fun i => ssm_weight_treat n true d s pi m * (d i * s i / (pi i * m i)))).
    { apply meanf_ext. intros i Hi. rewrite ssm_ow. rewrite (Rmult_comm (m i)). unfold Rdiv. destruct (B i Hi) as [-> | ->]; ring. }
    rewrite meanf_scal. cbn [ssm_weight_treat]. unfold meanf. set (q := sumf n (fun i => d i * s i / (pi i * m i))) in *. field.
    split; [|lra]. apply INR_neq0. destruct H1 as (i & Hi & _). lia.
  - assert (P : 0 < sumf n (fun i => (1 - d i) * s i / (pi i * (1 - m i)))).
    { apply sumf_pos.
      - intros j Hj. specialize (W j Hj). specialize (V j Hj). assert (0 < / (pi j * (1 - m j))) by (apply Rinv_0_lt_compat, Rmult_lt_0_compat; lra).
        unfold Rdiv. destruct (B j Hj) as [-> | ->], (S j Hj) as [-> | ->]; lra.
      - destruct H0 as (i & Hi & E1 & E2). exists i. split; [exact Hi|]. rewrite E1, E2. specialize (W i Hi). specialize (V i Hi).
        assert (0 < / (pi i * (1 - m i))) by (apply Rinv_0_lt_compat, Rmult_lt_0_compat; lra). unfold Rdiv. lra. }
    transitivity (meanf n (fun i => - ssm_weight_control n true d s pi m * ((1 - d i) * s i / (pi i * (1 - m i))))).
    { apply meanf_ext. intros i Hi. rewrite ssm_ow. rewrite (Rmult_comm (1 - m i)). unfold compl, Rdiv. destruct (B i Hi) as [-> | ->]; ring. }
    rewrite meanf_scal. cbn [ssm_weight_control]. unfold meanf. set (q := sumf n (fun i => (1 - d i) * s i / (pi i * (1 - m i)))) in *.
    change (sumf n (compl d)) with (sumf n (fun i => 1 - d i)). field. split; [|lra]. apply INR_neq0. destruct H0 as (i & Hi & _). lia.
Qed.

(** ** Estimates *)
Lemma est_minus_one n b a : (0 < n)%nat -> (forall i, (i < n)%nat -> a i = -1) -> estimate n {| el_a := a; el_b := b |} = meanf n b.
Proof. intros Hn H. rewrite est_eq. cbn. rewrite (meanf_ext n a (fun _ => -1)) by exact H. rewrite meanf_const by exact Hn. field. Qed.
Lemma est_mean_minus_one n b a : meanf n a = -1 -> estimate n {| el_a := a; el_b := b |} = meanf n b.
Proof. intros H. rewrite est_eq. cbn. rewrite H. field. Qed.
Lemma weights_deriv n (w : vec) : meanf n w <> 0 -> meanf n (fun i => -1 * (w i / meanf n w)) = -1.
Proof. intro H. rewrite (meanf_ext n _ (fun i => - (w i / meanf n w))) by (intros; ring). rewrite meanf_opp, meanf_norm by exact H. reflexivity. Qed.
Lemma mean_one n : (0 < n)%nat -> meanf n (fun _ => 1) = 1.
Proof. apply meanf_const. Qed.
Lemma irm_est_weighted n norm w y d g0 g1 m : meanf n (wg w) <> 0 -> wg_bar w = None ->
  estimate n (irm_score n false norm w y d g0 g1 m) = meanf n (fun i => wg w i * dr_signal y d g0 g1 (ps_adjust n m d norm) i).
Proof.
  intros H E. unfold irm_score, irm_weights. rewrite E. cbn [fst snd]. rewrite est_mean_minus_one by (apply weights_deriv; exact H).
  apply meanf_ext. intros i _. unfold dr_signal, dr_level, compl. unfold Rdiv. ring.
Qed.
Lemma irm_est n norm y d g0 g1 m : (0 < n)%nat ->
  estimate n (irm_score n false norm unit_weights y d g0 g1 m) = meanf n (dr_signal y d g0 g1 (ps_adjust n m d norm)).
Proof.
  intro Hn. rewrite irm_est_weighted; [|cbn [unit_weights wg]; rewrite mean_one by exact Hn; lra|reflexivity].
  apply meanf_ext. intros. cbn [unit_weights wg]. ring.
Qed.
Lemma apo_est n norm y tr g m : (0 < n)%nat -> estimate n (apo_score n norm unit_weights y tr g m) = meanf n (dr_level y tr g (ps_adjust n m tr norm)).
Proof.
  intro Hn. unfold apo_score, apo_weights, unit_weights. cbn [fst snd wg wg_bar].
  rewrite est_mean_minus_one by (apply (weights_deriv n (fun _ => 1)); rewrite mean_one by exact Hn; lra).
  apply meanf_ext. intros i _. unfold dr_level. ring.
Qed.
Lemma irm_apo_difference n norm y d g0 g1 m : (0 < n)%nat ->
  estimate n (irm_score n false norm unit_weights y d g0 g1 m) =
  estimate n (apo_score n norm unit_weights y d g1 m) - estimate n (apo_score n norm unit_weights y (compl d) g0 (compl m)).
Proof.
  intro Hn. rewrite irm_est, !apo_est by exact Hn. rewrite adjust_compl. unfold dr_signal. rewrite meanf_minus. reflexivity.
Qed.
Lemma irm_swap n norm y d g0 g1 m : (0 < n)%nat ->
  estimate n (irm_score n false norm unit_weights y (compl d) g1 g0 (compl m)) = - estimate n (irm_score n false norm unit_weights y d g0 g1 m).
Proof.
  intro Hn. rewrite !irm_est by exact Hn. rewrite adjust_compl. unfold dr_signal. rewrite !compl_compl. rewrite <- meanf_opp. apply meanf_ext. intros. ring.
Qed.
Lemma irm_subgroup n norm G y d g0 g1 m : (0 < n)%nat -> sumf n G <> 0 ->
  estimate n (irm_score n false norm {| wg := fun i => G i / meanf n G; wg_bar := None |} y d g0 g1 m) =
  group_mean n G (dr_signal y d g0 g1 (ps_adjust n m d norm)).
Proof.
  intros Hn H. assert (P : meanf n G <> 0).
  { unfold meanf, Rdiv. apply Rmult_integral_contrapositive_currified; [exact H|]. apply Rinv_neq_0_compat, INR_neq0, Hn. }
  rewrite irm_est_weighted; [|cbn [wg]; rewrite meanf_norm by exact P; lra|reflexivity]. cbn [wg]. unfold group_mean.
  rewrite (meanf_ext n _ (fun i => / meanf n G * (G i * dr_signal y d g0 g1 (ps_adjust n m d norm) i))) by (intros; unfold Rdiv; ring).
  rewrite meanf_scal. unfold meanf. field. split; [exact H|apply INR_neq0, Hn].
Qed.
Lemma irm_atte n norm w y d g0 g1 m : (0 < n)%nat -> binary n d -> (forall i, (i < n)%nat -> d i = 1 -> ps_adjust n m d norm i <> 0) ->
  sumf n (fun i => wg w i * d i) <> 0 ->
  estimate n (irm_score n true norm w y d g0 g1 m) =
  sumf n (fun i => wg w i * (d i * (y i - g0 i) - (1 - d i) * (ps_adjust n m d norm i / (1 - ps_adjust n m d norm i)) * (y i - g0 i)))
  / sumf n (fun i => wg w i * d i).
Proof.
  intros Hn B M H. set (ma := ps_adjust n m d norm) in *. assert (P : meanf n (fun i => wg w i * d i) <> 0).
  { unfold meanf, Rdiv. apply Rmult_integral_contrapositive_currified; [exact H|]. apply Rinv_neq_0_compat, INR_neq0, Hn. }
  unfold irm_score, irm_weights. fold ma. cbn [fst snd]. rewrite est_mean_minus_one.
  2: { apply (weights_deriv n (fun i => wg w i * d i / meanf n (fun i0 => wg w i0 * d i0))). rewrite (meanf_norm n (fun i => wg w i * d i)) by exact P. lra. }
  set (p := meanf n (fun i => wg w i * d i)) in *.
  rewrite (meanf_ext n _ (fun i => / p * (wg w i * (d i * (y i - g0 i) - (1 - d i) * (ma i / (1 - ma i)) * (y i - g0 i))))).
  - rewrite meanf_scal. unfold p, meanf. field. split; [exact H|apply INR_neq0, Hn].
  - intros i Hi. destruct (B i Hi) as [E | E]; rewrite E; unfold Rdiv; [ring|]. specialize (M i Hi E). generalize (/ (1 - ma i)). intro q. field. split; [exact P|exact M].
Qed.

(** ** Partially linear models *)
Lemma pliv_is_plr iv y d l m g : pliv_score iv y d d l m m g = plr_score iv y d l m g.
Proof. destruct iv; reflexivity. Qed.
Lemma plr_exact n iv y d l m g theta : (forall i, (i < n)%nat -> y i = theta * d i + g i) ->
  (forall i, (i < n)%nat -> l i = theta * m i + g i) ->
  meanf n (el_a (plr_score iv y d l m g)) <> 0 ->
  estimate n (plr_score iv y d l m g) = theta /\ variance n (plr_score iv y d l m g) = Ok (0, INR n).
Proof.
  intros Hy Hl Ha. assert (E : forall i, (i < n)%nat -> el_b (plr_score iv y d l m g) i = - theta * el_a (plr_score iv y d l m g) i).
  { intros i Hi. destruct iv; cbn [plr_score el_a el_b]; rewrite (Hy i Hi); [ring|rewrite (Hl i Hi); ring]. }
  assert (T : estimate n (plr_score iv y d l m g) = theta).
  { rewrite est_eq. rewrite (meanf_ext n _ _ E), meanf_scal. field. exact Ha. }
  split; [exact T|]. unfold variance. rewrite T. unfold var_est. f_equal. apply pair_equal_spec. split; [|reflexivity].
  match goal with |- _ * ?x = 0 => replace x with 0; [ring|] end. symmetry. apply meanf_zero. intros i Hi. unfold lin_score. rewrite (E i Hi). ring.
Qed.
Lemma plr_theta_is_partialling_out n y d l m g : plr_theta_initial n y d l m = estimate n (plr_score false y d l m g).
Proof. reflexivity. Qed.

(** ** Interactive IV *)
Lemma iivm_irm n norm y d g0 g1 m : (0 < n)%nat -> binary n d ->
  estimate n (iivm_score n norm y d d g0 g1 m (fun _ => 0) (fun _ => 1)) = estimate n (irm_score n false norm unit_weights y d g0 g1 m) /\
  meanf n (fun i => - el_a (iivm_score n norm y d d g0 g1 m (fun _ => 0) (fun _ => 1)) i) = 1.
Proof.
  intros Hn B. assert (A : forall i, (i < n)%nat -> el_a (iivm_score n norm y d d g0 g1 m (fun _ => 0) (fun _ => 1)) i = -1).
  { intros i Hi. cbn [iivm_score el_a]. unfold Rdiv. destruct (B i Hi) as [-> | ->]; ring. }
  split.
  - rewrite irm_est by exact Hn. unfold iivm_score in *. cbn [el_a] in A. rewrite est_minus_one by assumption.
    apply meanf_ext. intros i _. unfold dr_signal, dr_level, compl. change (ps_adjust n m d norm) with (iivm_adjust n norm d m). unfold Rdiv. ring.
  - rewrite (meanf_ext n _ (fun _ => 1)); [apply mean_one, Hn|]. intros i Hi. rewrite (A i Hi). ring.
Qed.
Lemma pliv_same n iv y d l m g cl : let a := pliv_score iv y d d l m m g in let b := plr_score iv y d l m g in
  lin_est_coef n (el_a a) (el_b a) cl = lin_est_coef n (el_a b) (el_b b) cl /\
  forall theta, var_est n (lin_score (el_a a) (el_b a) theta) (el_a a) cl = var_est n (lin_score (el_a b) (el_b b) theta) (el_a b) cl.
Proof. intros a b. unfold a, b. rewrite pliv_is_plr. split; reflexivity. Qed.

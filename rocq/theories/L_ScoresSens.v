(** Sensitivity elements. *)
From Verif Require Export L_ScoresDid.
From Coq Require Import FunctionalExtensionality Lra.
Local Open Scope R_scope.

Lemma mean_centred n f : (0 < n)%nat -> meanf n (fun i => f i - meanf n f) = 0.
Proof. intro Hn. rewrite meanf_minus, meanf_const by exact Hn. ring. Qed.
Lemma centred_ok n s2 nu rr : (0 < n)%nat -> centred_elems n (centred n s2 nu rr).
Proof. intro Hn. split; cbn; apply mean_centred; exact Hn. Qed.
Lemma irm_centred n atte norm w y d g0 g1 m : (0 < n)%nat -> centred_elems n (irm_sens n atte norm w y d g0 g1 m).
Proof. intro Hn. apply centred_ok, Hn. Qed.
Lemma apo_centred n norm w y tr g0 g1 m : (0 < n)%nat -> centred_elems n (apo_sens n norm w y tr g0 g1 m).
Proof. intro Hn. apply centred_ok, Hn. Qed.
Lemma did_centred n obs norm y d g0 g1 m : (0 < n)%nat -> centred_elems n (did_sens n obs norm y d g0 g1 m).
Proof. intro Hn. apply centred_ok, Hn. Qed.
Lemma cs_centred n obs norm y d t g00 g01 g10 g11 m : (0 < n)%nat -> centred_elems n (cs_sens n obs norm y d t g00 g01 g10 g11 m).
Proof. intro Hn. apply centred_ok, Hn. Qed.

(** ** Partially linear regression *)
Lemma plr_consistent n iv y d l m g theta : (0 < n)%nat -> meanf n (fun i => (d i - m i) ^ 2) <> 0 ->
  let s := plr_sens n iv y d l m g theta in
  sigma2_is n s (fun i => if iv then y i - g i - theta * d i else y i - l i - theta * (d i - m i)) /\ nu2_is_riesz n s /\ centred_elems n s.
Proof.
  intros Hn H s. unfold s, plr_sens, sigma2_is, nu2_is_riesz, centred_elems. cbn [sl_sigma2 sl_nu2 sl_rr sl_psi_sigma2 sl_psi_nu2]. set (q := meanf n (fun i => (d i - m i) ^ 2)) in *. repeat split.
  - apply meanf_ext. intros. destruct iv; reflexivity.
  - rewrite (meanf_ext n _ (fun i => (1 / q) ^ 2 * (d i - m i) ^ 2)) by (intros; ring). rewrite meanf_scal. fold q. field. exact H.
  - apply mean_centred. exact Hn.
  - rewrite meanf_minus, meanf_const by exact Hn. rewrite meanf_scal_r. fold q. field. exact H.
Qed.
Lemma mean_sq_nonneg n f : (0 < n)%nat -> 0 <= meanf n (fun i => (f i) ^ 2).
Proof. intro Hn. apply meanf_nonneg; [exact Hn|]. intros. apply pow2_ge_0. Qed.
Lemma bias_geometric n s : centred_elems n s -> 0 <= sl_sigma2 s -> 0 <= sl_nu2 s ->
  0 <= fst (sens_bias s) /\ (fst (sens_bias s)) ^ 2 = sl_sigma2 s * sl_nu2 s /\ meanf n (snd (sens_bias s)) = 0.
Proof.
  intros (A & B) H1 H2. cbn [sens_bias fst snd]. split; [apply sqrt_pos|]. split; [apply pow2_sqrt; apply Rmult_le_pos; assumption|].
  rewrite meanf_div, meanf_plus, !meanf_scal, A, B. unfold Rdiv. ring.
Qed.
Lemma plr_bias n iv y d l m g theta : (0 < n)%nat -> meanf n (fun i => (d i - m i) ^ 2) <> 0 ->
  let s := plr_sens n iv y d l m g theta in
  0 <= fst (sens_bias s) /\ (fst (sens_bias s)) ^ 2 = sl_sigma2 s * sl_nu2 s /\ meanf n (snd (sens_bias s)) = 0.
Proof.
  intros Hn H s. destruct (plr_consistent n iv y d l m g theta Hn H) as (A & B & C). apply bias_geometric; [exact C| |].
  - fold s in A. rewrite A. apply mean_sq_nonneg, Hn.
  - fold s in B. rewrite B. apply mean_sq_nonneg, Hn.
Qed.

(** ** Riesz representer and score *)
Lemma plr_riesz n y d l m g theta : meanf n (fun i => (d i - m i) ^ 2) <> 0 ->
  riesz_is_outcome_weight n (fun y => plr_score false y d l m g) y (plr_sens n false y d l m g theta).
Proof.
  intros H i Hi. unfold outcome_weight. cbn [plr_score el_a el_b plr_sens sl_rr].
  rewrite (meanf_ext n (fun i => - ((d i - m i) * (d i - m i))) (fun i => - (d i - m i) ^ 2)) by (intros; ring). rewrite meanf_opp. field. exact H.
Qed.
Lemma irm_riesz n atte norm w y d g0 g1 m : meanf n (fst (irm_weights n atte w d (ps_adjust n m d norm))) <> 0 ->
  riesz_is_outcome_weight n (fun y => irm_score n atte norm w y d g0 g1 m) y (irm_sens n atte norm w y d g0 g1 m).
Proof.
  intros H i Hi. unfold outcome_weight. cbn [irm_score irm_sens centred el_a el_b sl_rr]. rewrite weights_deriv by exact H. unfold Rdiv. ring.
Qed.
Lemma apo_riesz n norm w y tr g0 g1 m : meanf n (wg w) <> 0 ->
  riesz_is_outcome_weight n (fun y => apo_score n norm w y tr g1 m) y (apo_sens n norm w y tr g0 g1 m).
Proof.
  intros H i Hi. unfold outcome_weight. cbn [apo_score apo_sens apo_weights centred el_a el_b sl_rr fst snd]. rewrite weights_deriv by exact H. unfold Rdiv. ring.
Qed.
Lemma mean_compl n d : (0 < n)%nat -> meanf n (fun j => 1 - d j) = 1 - meanf n d.
Proof. intro Hn. rewrite meanf_minus, mean_one by exact Hn. reflexivity. Qed.
Lemma mean_neg_scaled n w : meanf n w = 1 -> meanf n (fun i => -1 * w i) = -1.
Proof. intro H. rewrite meanf_scal, H. ring. Qed.
(** Shares used in the score equal to the sample shares (always so with in-sample
    normalisation; otherwise when every training part has the sample share). *)
Lemma did_riesz n obs norm y d g0 g1 m p : binary n d -> inside n m -> some_row n (fun i => d i = 1) -> some_row n (fun i => d i = 0) ->
  (forall i, (i < n)%nat -> p i = meanf n d) ->
  riesz_is_outcome_weight n (fun y => did_score n obs norm y d g0 g1 m p) y (did_sens n obs norm y d g0 g1 m).
Proof.
  intros B W H1 H0 Hp i Hi. pose proof (did_n n d H1) as N. pose proof (did_p n d B H1) as P. pose proof (did_q n d B H0) as Q. pose proof (did_o n d m B W H0) as O.
  pose proof (W i Hi) as Wi. rewrite (mean_compl n d N) in Q.
  assert (A : - meanf n (el_a (did_score n obs norm y d g0 g1 m p)) = 1).
  { destruct obs, norm; cbn [did_score did_weights el_a]; rewrite ?(mean_compl n d N).
    - rewrite mean_neg_scaled; [ring|]. apply meanf_norm, P.
    - rewrite (meanf_ext n _ (fun i => -1 * (d i / meanf n d))) by (intros j Hj; rewrite (Hp j Hj); reflexivity). rewrite mean_neg_scaled; [ring|]. apply meanf_norm, P.
    - rewrite mean_neg_scaled; [ring|]. apply mean_one, N.
    - rewrite mean_neg_scaled; [ring|]. apply mean_one, N. }
  rewrite A, Rmult_1_l. unfold outcome_weight. destruct obs, norm; cbn [did_score did_weights did_sens centred el_b sl_rr fst snd].
  - unfold Rdiv. ring.
  - rewrite (Hp i Hi). field. split; [lra|exact P].
  - rewrite (mean_compl n d N). field. split; assumption.
  - rewrite (Hp i Hi). field. split; assumption.
Qed.
Lemma cs_riesz n obs norm y d t g00 g01 g10 g11 m p lam : (obs && negb norm)%bool = false -> binary n d -> binary n t -> inside n m ->
  some_row n (fun i => both d t i = 1) -> some_row n (fun i => both d (compl t) i = 1) ->
  some_row n (fun i => both (compl d) t i = 1) -> some_row n (fun i => both (compl d) (compl t) i = 1) ->
  (forall i, (i < n)%nat -> p i = meanf n d /\ lam i = meanf n t) ->
  riesz_is_outcome_weight n (fun y => cs_score n obs norm y d t g00 g01 g10 g11 m p lam) y (cs_sens n obs norm y d t g00 g01 g10 g11 m).
Proof.
  intros ON B T W H11 H10 H01 H00 Hp i Hi. pose proof (cs_n n d t H11) as N.
  assert (P : meanf n d <> 0).
  { assert (0 < meanf n d); [|lra]. apply mean_pos; [exact B|]. destruct H11 as (j & Hj & E). exists j. split; [exact Hj|]. unfold both in E. destruct (B j Hj) as [E1 | E1]; rewrite E1 in *; lra. }
  assert (A : - meanf n (el_a (cs_score n obs norm y d t g00 g01 g10 g11 m p lam)) = 1).
  { unfold cs_score. destruct (cs_resid_weights n obs norm d t m p lam) as [[[r11 r10] r01] r00]. cbn [el_a]. unfold cs_weight_a. destruct obs, norm; try discriminate.
    - rewrite mean_neg_scaled; [ring|]. apply meanf_norm, P.
    - rewrite mean_neg_scaled; [ring|]. apply mean_one, N.
    - rewrite mean_neg_scaled; [ring|]. apply mean_one, N. }
  rewrite A, Rmult_1_l. destruct (Hp i Hi) as (Hp1 & Hp2). unfold outcome_weight. destruct obs, norm; try discriminate; cbn [cs_score cs_resid_weights cs_sens centred el_b sl_rr fst snd].
  - unfold Rdiv. ring.
  - unfold Rdiv. ring.
  - rewrite Hp1, Hp2. unfold Rdiv. ring.
Qed.

(** ** Experimental designs: nu2 is the mean squared Riesz representer *)
Lemma mean_const_twice n c rr : (0 < n)%nat -> meanf n (fun i => (rr i) ^ 2) = c -> meanf n (fun i => 2 * c - (rr i) ^ 2) = meanf n (fun i => (rr i) ^ 2).
Proof. intros Hn H. rewrite meanf_minus, meanf_const, H by exact Hn. ring. Qed.
Lemma did_exp_nu2 n norm y d g0 g1 m : binary n d -> some_row n (fun i => d i = 1) -> some_row n (fun i => d i = 0) ->
  nu2_is_riesz n (did_sens n false norm y d g0 g1 m).
Proof.
  intros B H1 H0. pose proof (did_n n d H1) as N. pose proof (did_p n d B H1) as P. pose proof (did_q n d B H0) as Q. rewrite (mean_compl n d N) in Q.
  unfold nu2_is_riesz. cbn [did_sens centred sl_nu2 sl_rr fst snd]. set (p := meanf n d) in *. apply mean_const_twice; [exact N|].
  rewrite (meanf_ext n _ (fun i => / p ^ 2 * d i + / (1 - p) ^ 2 * (1 - d i))).
  - rewrite meanf_plus, !meanf_scal, mean_compl by exact N. fold p. field. split; [exact Q|exact P].
  - intros i Hi. destruct (B i Hi) as [-> | ->]; field; split; assumption.
Qed.
Lemma cs_exp_nu2 n y d t g00 g01 g10 g11 m : binary n d -> binary n t ->
  some_row n (fun i => both d t i = 1) -> some_row n (fun i => both d (compl t) i = 1) ->
  some_row n (fun i => both (compl d) t i = 1) -> some_row n (fun i => both (compl d) (compl t) i = 1) ->
  nu2_is_riesz n (cs_sens n false true y d t g00 g01 g10 g11 m).
Proof.
  intros B T H11 H10 H01 H00. pose proof (cs_n n d t H11) as N. pose proof (compl_binary n d B) as BC. pose proof (compl_binary n t T) as TC.
  pose proof (cs_pos n d t B T H11) as P11. pose proof (cs_pos n d (compl t) B TC H10) as P10. pose proof (cs_pos n (compl d) t BC T H01) as P01. pose proof (cs_pos n (compl d) (compl t) BC TC H00) as P00.
  unfold compl in P10, P01, P00.
  unfold nu2_is_riesz. cbn [cs_sens centred sl_nu2 sl_rr fst snd].
  set (a := meanf n (fun i => d i * t i)) in *. set (b := meanf n (fun i => d i * (1 - t i))) in *. set (c := meanf n (fun i => (1 - d i) * t i)) in *. set (e := meanf n (fun i => (1 - d i) * (1 - t i))) in *.
  apply (mean_const_twice n (1 / a + 1 / b + 1 / c + 1 / e)); [exact N|].
  rewrite (meanf_ext n _ (fun i => (/ a ^ 2 * (d i * t i) + / b ^ 2 * (d i * (1 - t i))) + (/ c ^ 2 * ((1 - d i) * t i) + / e ^ 2 * ((1 - d i) * (1 - t i))))).
  - rewrite (meanf_plus n (fun i => / a ^ 2 * (d i * t i) + / b ^ 2 * (d i * (1 - t i)))), !meanf_plus, !meanf_scal. fold a b c e. field. repeat split; assumption.
  - intros i Hi. destruct (B i Hi) as [-> | ->], (T i Hi) as [-> | ->]; field; repeat split; assumption.
Qed.

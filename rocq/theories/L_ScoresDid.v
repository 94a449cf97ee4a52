(** Difference-in-differences weights and sensitivity elements. *)
From Verif Require Export L_Scores.
From Coq Require Import FunctionalExtensionality Lra.
Local Open Scope R_scope.

Lemma mean_norm_ext n f c : meanf n f <> 0 -> meanf n (fun i => c * (f i / meanf n f)) = c.
Proof. intro H. rewrite meanf_scal, meanf_norm by exact H. ring. Qed.
Lemma odds_pos n m i : inside n m -> (i < n)%nat -> 0 < m i / (1 - m i).
Proof. intros W Hi. specialize (W i Hi). apply div_pos_pos; lra. Qed.
Lemma both_binary n d t : binary n d -> binary n t -> binary n (both d t).
Proof. intros B C i Hi. unfold both. destruct (B i Hi) as [-> | ->], (C i Hi) as [-> | ->]; lra. Qed.
Lemma mean_odds_pos n d m : binary n d -> inside n m -> some_row n (fun i => d i = 1) -> 0 < meanf n (fun i => d i * (m i / (1 - m i))).
Proof. intros B W H. apply mean_arm_pos; try assumption. intros i Hi. eapply odds_pos; eassumption. Qed.
Lemma some_compl n d : some_row n (fun i => d i = 0) -> some_row n (fun i => compl d i = 1).
Proof. intros (i & Hi & E). exists i. split; [exact Hi|]. unfold compl. lra. Qed.

Lemma meanf_add0 n f g : meanf n g = 0 -> meanf n (fun i => f i + g i) = meanf n f.
Proof. intro H. rewrite meanf_plus, H. ring. Qed.
Lemma meanf_lin3 n (a b c : vec) x y z : meanf n (fun i => x * a i + (y * b i + z * c i)) = x * meanf n a + y * meanf n b + z * meanf n c.
Proof. rewrite (meanf_plus n (fun i => x * a i)), (meanf_plus n (fun i => y * b i)), !meanf_scal. ring. Qed.

(** ** Panel data *)
Section did.
Variables (n : nat) (obs : bool) (d m p : vec).
Hypothesis (B : binary n d) (W : inside n m) (H1 : some_row n (fun i => d i = 1)) (H0 : some_row n (fun i => d i = 0)).
Lemma did_n : (0 < n)%nat. Proof. destruct H1 as (i & Hi & _). lia. Qed.
Lemma did_p : meanf n d <> 0. Proof. pose proof (mean_pos n d B H1). lra. Qed.
Lemma did_q : meanf n (fun j => 1 - d j) <> 0.
Proof. pose proof (mean_pos n (compl d) (compl_binary n d B) (some_compl n d H0)) as Q. unfold compl in Q. lra. Qed.
Lemma did_o : meanf n (fun i => (1 - d i) * (m i / (1 - m i))) <> 0.
Proof. pose proof (mean_odds_pos n (compl d) m (compl_binary n d B) W (some_compl n d H0)) as Q. unfold compl in Q. lra. Qed.

Definition did_wr : vec := snd (did_weights n obs true d m p).
Lemma did_wr_arms : arm_mean n d did_wr = 1 /\ arm_mean n (compl d) did_wr = -1.
Proof.
  pose proof did_p as P. pose proof did_q as Q. pose proof did_o as O. unfold arm_mean, did_wr. destruct obs; cbn [did_weights snd]; split.
  - transitivity (meanf n (fun i => d i / meanf n d)); [|apply meanf_norm; exact P]. apply meanf_ext. intros i Hi. unfold Rdiv. destruct (B i Hi) as [-> | ->]; ring.
  - transitivity (- meanf n (fun i => (1 - d i) * (m i / (1 - m i)) / meanf n (fun i => (1 - d i) * (m i / (1 - m i))))); [|rewrite (meanf_norm n (fun i => (1 - d i) * (m i / (1 - m i))) O); ring]. rewrite <- meanf_opp. apply meanf_ext. intros i Hi. unfold compl, Rdiv. destruct (B i Hi) as [-> | ->]; ring.
  - transitivity (meanf n (fun i => d i / meanf n d)); [|apply meanf_norm; exact P]. apply meanf_ext. intros i Hi. unfold Rdiv. destruct (B i Hi) as [-> | ->]; ring.
  - transitivity (- meanf n (fun i => (1 - d i) / meanf n (fun i => 1 - d i))); [|rewrite (meanf_norm n (fun i => 1 - d i) Q); ring]. rewrite <- meanf_opp. apply meanf_ext. intros i Hi. unfold compl, Rdiv. destruct (B i Hi) as [-> | ->]; ring.
Qed.
Lemma did_wr_mean : meanf n did_wr = 0.
Proof.
  destruct did_wr_arms as (A & C). unfold arm_mean in *. rewrite (meanf_ext n _ (fun i => d i * did_wr i + compl d i * did_wr i)) by (intros; unfold compl; ring).
  rewrite meanf_plus, A, C. lra.
Qed.
Lemma did_ow y g0 g1 i : outcome_weight (fun y => did_score n obs true y d g0 g1 m p) y i = did_wr i.
Proof.
  unfold outcome_weight, did_score, did_wr. destruct (did_weights n obs true d m p) as [[[wa w0] w1] wr]. cbn [el_b snd]. ring.
Qed.
Lemma did_g_means : meanf n (snd (fst (did_weights n obs true d m p))) = 0 /\ meanf n (snd (fst (fst (did_weights n obs true d m p)))) = 0.
Proof.
  pose proof did_p as P. pose proof did_n as N. destruct obs; cbn [did_weights snd fst]; split; try (apply meanf_zero; reflexivity).
  - rewrite meanf_minus, meanf_norm, mean_one by assumption. ring.
  - rewrite meanf_minus, meanf_norm, mean_one by assumption. ring.
Qed.
(** Levels of the outcome and of the outcome predictions do not matter. *)
Lemma did_shift y g0 g1 c c0 c1 :
  estimate n (did_score n obs true (fun i => y i + c) d (fun i => g0 i + c0) (fun i => g1 i + c1) m p) = estimate n (did_score n obs true y d g0 g1 m p).
Proof.
  rewrite !est_eq. pose proof did_wr_mean as WM. destruct did_g_means as (G1 & G0). unfold did_wr in WM. unfold did_score.
  destruct (did_weights n obs true d m p) as [[[wa w0] w1] wr]. cbn [el_a el_b snd fst] in *. f_equal. f_equal.
  rewrite (meanf_ext n _ (fun i => (w0 i * g0 i + w1 i * g1 i + wr i * (y i - g0 i)) + (c0 * w0 i + (c1 * w1 i + (c - c0) * wr i)))) by (intros; ring).
  apply meanf_add0. rewrite meanf_lin3, WM, G1, G0. ring.
Qed.
End did.

(** ** Repeated cross-sections *)
Section cs.
Variables (n : nat) (obs : bool) (d t m p lam : vec).
Hypothesis (B : binary n d) (T : binary n t) (W : inside n m).
Hypothesis (H11 : some_row n (fun i => both d t i = 1)) (H10 : some_row n (fun i => both d (compl t) i = 1))
           (H01 : some_row n (fun i => both (compl d) t i = 1)) (H00 : some_row n (fun i => both (compl d) (compl t) i = 1)).
Definition cs_r11 : vec := fst (fst (fst (cs_resid_weights n obs true d t m p lam))).
Definition cs_r10 : vec := snd (fst (fst (cs_resid_weights n obs true d t m p lam))).
Definition cs_r01 : vec := snd (fst (cs_resid_weights n obs true d t m p lam)).
Definition cs_r00 : vec := snd (cs_resid_weights n obs true d t m p lam).
Lemma cs_pos (a b : vec) : binary n a -> binary n b -> some_row n (fun i => both a b i = 1) -> meanf n (fun i => a i * b i) <> 0.
Proof. intros A C H. pose proof (mean_pos n (both a b) (both_binary n a b A C) H) as Q. unfold both in Q. lra. Qed.
Lemma cs_opos (a b : vec) : binary n a -> binary n b -> some_row n (fun i => both a b i = 1) -> meanf n (fun i => a i * b i * (m i / (1 - m i))) <> 0.
Proof. intros A C H. pose proof (mean_odds_pos n (both a b) m (both_binary n a b A C) W H) as Q. unfold both in Q. lra. Qed.
Let BC := compl_binary n d B. Let TC := compl_binary n t T.
Lemma mean_neg_norm (f : vec) : meanf n f <> 0 -> meanf n (fun i => -1 * (f i / meanf n f)) = -1.
Proof. intro H. apply mean_norm_ext. exact H. Qed.
Lemma cs_means : meanf n cs_r11 = 1 /\ meanf n cs_r10 = -1 /\ meanf n cs_r01 = -1 /\ meanf n cs_r00 = 1.
Proof.
  pose proof (cs_pos d t B T H11) as P11. pose proof (cs_pos d (compl t) B TC H10) as P10. 
  unfold cs_r11, cs_r10, cs_r01, cs_r00, cs_resid_weights. destruct obs; cbn [fst snd].
  - split; [apply meanf_norm; exact P11|]. split; [apply mean_neg_norm; exact P10|].
    split; [apply mean_neg_norm; exact (cs_opos (compl d) t BC T H01)|apply meanf_norm; exact (cs_opos (compl d) (compl t) BC TC H00)].
  - split; [apply meanf_norm; exact P11|]. split; [apply mean_neg_norm; exact P10|].
    split; [apply mean_neg_norm; exact (cs_pos (compl d) t BC T H01)|apply meanf_norm; exact (cs_pos (compl d) (compl t) BC TC H00)].
Qed.
Lemma cs_n : (0 < n)%nat. Proof. destruct H11 as (i & Hi & _). lia. Qed.
Lemma cs_wa : meanf n (cs_weight_a n obs true d p) = 1.
Proof.
  unfold cs_weight_a. destruct obs; [|apply mean_one, cs_n]. apply meanf_norm.
  assert (0 < meanf n d); [|lra]. apply mean_pos; [exact B|]. destruct H11 as (i & Hi & E). exists i. split; [exact Hi|]. unfold both in E. destruct (B i Hi) as [E1 | E1]; rewrite E1 in *; lra.
Qed.
Lemma cs_ow y g00 g01 g10 g11 i : outcome_weight (fun y => cs_score n obs true y d t g00 g01 g10 g11 m p lam) y i = cs_r11 i + cs_r10 i + cs_r01 i + cs_r00 i.
Proof.
  unfold outcome_weight, cs_score, cs_r11, cs_r10, cs_r01, cs_r00. destruct (cs_resid_weights n obs true d t m p lam) as [[[r11 r10] r01] r00]. cbn [el_b fst snd]. ring.
Qed.
(** Each residual weight vanishes outside its own cell. *)
Lemma cs_cells i : (i < n)%nat -> cs_r11 i = both d t i * cs_r11 i /\ cs_r10 i = both d (compl t) i * cs_r10 i /\
  cs_r01 i = both (compl d) t i * cs_r01 i /\ cs_r00 i = both (compl d) (compl t) i * cs_r00 i.
Proof.
  intro Hi. unfold cs_r11, cs_r10, cs_r01, cs_r00, cs_resid_weights, both, compl. destruct obs; cbn [fst snd]; unfold Rdiv;
  destruct (B i Hi) as [-> | ->], (T i Hi) as [-> | ->]; repeat split; ring.
Qed.
Lemma cs_arms y g00 g01 g10 g11 : let w := outcome_weight (fun y => cs_score n obs true y d t g00 g01 g10 g11 m p lam) y in
  arm_mean n (both d t) w = 1 /\ arm_mean n (both d (compl t)) w = -1 /\ arm_mean n (both (compl d) t) w = -1 /\ arm_mean n (both (compl d) (compl t)) w = 1.
Proof.
  intro w. destruct cs_means as (A & C & D & E). unfold arm_mean, w.
  assert (Z : forall i, (i < n)%nat -> let '(a, b, c, e) := (both d t i, both d (compl t) i, both (compl d) t i, both (compl d) (compl t) i) in
     a * a = a /\ b * b = b /\ c * c = c /\ e * e = e /\ a * b = 0 /\ a * c = 0 /\ a * e = 0 /\ b * c = 0 /\ b * e = 0 /\ c * e = 0).
  { intros i Hi. unfold both, compl. destruct (B i Hi) as [-> | ->], (T i Hi) as [-> | ->]; repeat split; ring. }
  repeat split.
  - rewrite <- A. apply meanf_ext. intros i Hi. rewrite cs_ow. destruct (cs_cells i Hi) as (-> & -> & -> & ->). specialize (Z i Hi). cbv beta iota in Z. destruct Z as (z1 & z2 & z3 & z4 & z5 & z6 & z7 & _).
    rewrite !Rmult_plus_distr_l, <- !Rmult_assoc, z1, z5, z6, z7. ring.
  - rewrite <- C. apply meanf_ext. intros i Hi. rewrite cs_ow. destruct (cs_cells i Hi) as (-> & -> & -> & ->). specialize (Z i Hi). cbv beta iota in Z. destruct Z as (z1 & z2 & z3 & z4 & z5 & z6 & z7 & z8 & z9 & z10).
    rewrite !Rmult_plus_distr_l, <- !Rmult_assoc, z2, z8, z9, (Rmult_comm (both d (compl t) i) (both d t i)), z5. ring.
  - rewrite <- D. apply meanf_ext. intros i Hi. rewrite cs_ow. destruct (cs_cells i Hi) as (-> & -> & -> & ->). specialize (Z i Hi). cbv beta iota in Z. destruct Z as (z1 & z2 & z3 & z4 & z5 & z6 & z7 & z8 & z9 & z10).
    rewrite !Rmult_plus_distr_l, <- !Rmult_assoc, z3, z10, (Rmult_comm (both (compl d) t i) (both d t i)), (Rmult_comm (both (compl d) t i) (both d (compl t) i)), z6, z8. ring.
  - rewrite <- E. apply meanf_ext. intros i Hi. rewrite cs_ow. destruct (cs_cells i Hi) as (-> & -> & -> & ->). specialize (Z i Hi). cbv beta iota in Z. destruct Z as (z1 & z2 & z3 & z4 & z5 & z6 & z7 & z8 & z9 & z10).
    rewrite !Rmult_plus_distr_l, <- !Rmult_assoc, z4, (Rmult_comm (both (compl d) (compl t) i) (both d t i)), (Rmult_comm (both (compl d) (compl t) i) (both d (compl t) i)), (Rmult_comm (both (compl d) (compl t) i) (both (compl d) t i)), z7, z9, z10. ring.
Qed.
Lemma cs_shift y g00 g01 g10 g11 c c00 c01 c10 c11 :
  estimate n (cs_score n obs true (fun i => y i + c) d t (fun i => g00 i + c00) (fun i => g01 i + c01) (fun i => g10 i + c10) (fun i => g11 i + c11) m p lam)
  = estimate n (cs_score n obs true y d t g00 g01 g10 g11 m p lam).
Proof.
  rewrite !est_eq. destruct cs_means as (A & C & D & E). pose proof cs_wa as F. unfold cs_r11, cs_r10, cs_r01, cs_r00 in *. unfold cs_score.
  destruct (cs_resid_weights n obs true d t m p lam) as [[[r11 r10] r01] r00]. cbn [el_a el_b fst snd] in *. set (wa := cs_weight_a n obs true d p) in *. f_equal. f_equal.
  rewrite (meanf_ext n _ (fun i => ((wa i * g11 i + -1 * wa i * g10 i + wa i * g00 i + -1 * wa i * g01 i)
       + (r11 i * (y i - g11 i) + r10 i * (y i - g10 i) + r00 i * (y i - g00 i) + r01 i * (y i - g01 i)))
       + ((c11 - c10 + c00 - c01) * wa i + ((c - c11) * r11 i + ((c - c10) * r10 i + ((c - c00) * r00 i + (c - c01) * r01 i)))))) by (intros; ring).
  apply meanf_add0. rewrite (meanf_plus n (fun i => (c11 - c10 + c00 - c01) * wa i)), (meanf_plus n (fun i => (c - c11) * r11 i)), meanf_lin3, !meanf_scal, A, C, D, E, F. ring.
Qed.
End cs.
Lemma did_arms n obs d m p : binary n d -> inside n m -> some_row n (fun i => d i = 1) -> some_row n (fun i => d i = 0) -> forall y g0 g1,
  let w := outcome_weight (fun y => did_score n obs true y d g0 g1 m p) y in arm_mean n d w = 1 /\ arm_mean n (compl d) w = -1.
Proof.
  intros B W H1 H0 y g0 g1 w. destruct (did_wr_arms n obs d m p B W H1 H0) as (A & C). rewrite <- A, <- C. unfold arm_mean, w.
  split; apply meanf_ext; intros i Hi; rewrite did_ow; reflexivity.
Qed.

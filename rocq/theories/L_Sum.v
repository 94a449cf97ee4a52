(** Lemmas on finite sums and means. *)
From Verif Require Export BaseR.
From Coq Require Export Lra Permutation.
Local Open Scope R_scope.

Lemma Rsum_app l1 l2 : Rsum (l1 ++ l2) = Rsum l1 + Rsum l2.
Proof. induction l1; cbn; lra. Qed.
Lemma Rsum_perm l l' : Permutation l l' -> Rsum l = Rsum l'.
Proof. induction 1; cbn; lra. Qed.

Lemma sumf_0 f : sumf 0 f = 0. Proof. reflexivity. Qed.
Lemma sumf_S n f : sumf (S n) f = sumf n f + f n.
Proof. unfold sumf. rewrite seq_S, map_app, Rsum_app. cbn. lra. Qed.

Lemma sumf_ext n f g : (forall i, (i < n)%nat -> f i = g i) -> sumf n f = sumf n g.
Proof.
  induction n; intro H; [reflexivity|]. rewrite !sumf_S, IHn, H by (intros; auto; apply H; lia).
  reflexivity.
Qed.
Lemma sumf_plus n f g : sumf n (fun i => f i + g i) = sumf n f + sumf n g.
Proof. induction n; [cbn; lra|]. rewrite !sumf_S, IHn. lra. Qed.
Lemma sumf_minus n f g : sumf n (fun i => f i - g i) = sumf n f - sumf n g.
Proof. induction n; [cbn; lra|]. rewrite !sumf_S, IHn. lra. Qed.
Lemma sumf_opp n f : sumf n (fun i => - f i) = - sumf n f.
Proof. induction n; [cbn; lra|]. rewrite !sumf_S, IHn. lra. Qed.
Lemma sumf_scal n c f : sumf n (fun i => c * f i) = c * sumf n f.
Proof. induction n; [cbn; lra|]. rewrite !sumf_S, IHn. lra. Qed.
Lemma sumf_scal_r n c f : sumf n (fun i => f i * c) = sumf n f * c.
Proof. induction n; [cbn; lra|]. rewrite !sumf_S, IHn. lra. Qed.
Lemma sumf_div n c f : sumf n (fun i => f i / c) = sumf n f / c.
Proof. unfold Rdiv. apply sumf_scal_r. Qed.
Lemma sumf_const n c : sumf n (fun _ => c) = INR n * c.
Proof. induction n; [cbn; lra|]. rewrite sumf_S, IHn, S_INR. lra. Qed.
Lemma sumf_zero n f : (forall i, (i < n)%nat -> f i = 0) -> sumf n f = 0.
Proof. intro H. rewrite (sumf_ext n f (fun _ => 0)) by exact H. rewrite sumf_const. lra. Qed.
Lemma sumf_le n f g : (forall i, (i < n)%nat -> f i <= g i) -> sumf n f <= sumf n g.
Proof.
  induction n; intro H; [cbn; lra|]. rewrite !sumf_S.
  assert (f n <= g n) by (apply H; lia).
  assert (sumf n f <= sumf n g) by (apply IHn; intros; apply H; lia). lra.
Qed.
Lemma sumf_nonneg n f : (forall i, (i < n)%nat -> 0 <= f i) -> 0 <= sumf n f.
Proof.
  intro H. assert (sumf n (fun _ => 0) <= sumf n f) by (apply sumf_le; exact H).
  rewrite sumf_const in H0. lra.
Qed.
Lemma sumf_pos n f : (forall i, (i < n)%nat -> 0 <= f i) -> (exists i, (i < n)%nat /\ 0 < f i) -> 0 < sumf n f.
Proof.
  induction n; intros H [i [Hi Hp]]; [lia|]. rewrite sumf_S.
  assert (Hn : 0 <= f n) by (apply H; lia).
  assert (Hs : 0 <= sumf n f) by (apply sumf_nonneg; intros; apply H; lia).
  destruct (Nat.eq_dec i n) as [->|Hne]; [lra|].
  assert (0 < sumf n f). { apply IHn; [intros; apply H; lia|]. exists i. split; [lia|exact Hp]. }
  lra.
Qed.
Lemma sumf_swap n m f : sumf n (fun i => sumf m (fun j => f i j)) = sumf m (fun j => sumf n (fun i => f i j)).
Proof.
  induction n.
  - cbn. symmetry. apply sumf_zero. reflexivity.
  - rewrite sumf_S, IHn, <- sumf_plus. apply sumf_ext. intros. rewrite sumf_S. reflexivity.
Qed.

(** Sums over lists. *)
Lemma Rsum_map_ext {A} (f g : A -> R) l : (forall x, In x l -> f x = g x) -> Rsum (map f l) = Rsum (map g l).
Proof. induction l; cbn; intro H; [lra|]. rewrite H, IHl; auto. Qed.
Lemma Rsum_map_plus {A} (f g : A -> R) l : Rsum (map (fun x => f x + g x) l) = Rsum (map f l) + Rsum (map g l).
Proof. induction l; cbn; lra. Qed.
Lemma Rsum_map_scal {A} c (f : A -> R) l : Rsum (map (fun x => c * f x) l) = c * Rsum (map f l).
Proof. induction l; cbn; lra. Qed.
Lemma Rsum_map_opp {A} (f : A -> R) l : Rsum (map (fun x => - f x) l) = - Rsum (map f l).
Proof. induction l; cbn; lra. Qed.
Lemma Rsum_map_nonneg {A} (f : A -> R) l : (forall x, In x l -> 0 <= f x) -> 0 <= Rsum (map f l).
Proof.
  induction l; cbn; intro H; [lra|].
  assert (0 <= f a) by (apply H; auto). assert (0 <= Rsum (map f l)) by (apply IHl; auto). lra.
Qed.
Lemma Rsum_map_const {A} c (l : list A) : Rsum (map (fun _ => c) l) = INR (length l) * c.
Proof. induction l; [cbn; lra|]. cbn [map Rsum length]. rewrite IHl, S_INR. lra. Qed.

Lemma meanf_ext n f g : (forall i, (i < n)%nat -> f i = g i) -> meanf n f = meanf n g.
Proof. intro H. unfold meanf. rewrite (sumf_ext n f g H). reflexivity. Qed.
Lemma meanf_plus n f g : meanf n (fun i => f i + g i) = meanf n f + meanf n g.
Proof. unfold meanf. rewrite sumf_plus. lra. Qed.
Lemma meanf_minus n f g : meanf n (fun i => f i - g i) = meanf n f - meanf n g.
Proof. unfold meanf. rewrite sumf_minus. lra. Qed.
Lemma meanf_opp n f : meanf n (fun i => - f i) = - meanf n f.
Proof. unfold meanf. rewrite sumf_opp. lra. Qed.
Lemma meanf_scal n c f : meanf n (fun i => c * f i) = c * meanf n f.
Proof. unfold meanf. rewrite sumf_scal. unfold Rdiv. ring. Qed.
Lemma meanf_scal_r n c f : meanf n (fun i => f i * c) = meanf n f * c.
Proof. unfold meanf. rewrite sumf_scal_r. unfold Rdiv. ring. Qed.
Lemma meanf_div n c f : meanf n (fun i => f i / c) = meanf n f / c.
Proof. unfold meanf. rewrite sumf_div. unfold Rdiv. ring. Qed.
Lemma INR_pos n : (0 < n)%nat -> 0 < INR n.
Proof. intro. apply lt_0_INR. assumption. Qed.
Lemma INR_neq0 n : (0 < n)%nat -> INR n <> 0.
Proof. intro H. apply INR_pos in H. lra. Qed.
Lemma meanf_const n c : (0 < n)%nat -> meanf n (fun _ => c) = c.
Proof. intro H. unfold meanf. rewrite sumf_const. field. apply INR_neq0. exact H. Qed.
Lemma meanf_nonneg n f : (0 < n)%nat -> (forall i, (i < n)%nat -> 0 <= f i) -> 0 <= meanf n f.
Proof.
  intros Hn H. unfold meanf. apply Rmult_le_pos; [apply sumf_nonneg; exact H|].
  left. apply Rinv_0_lt_compat. apply INR_pos. exact Hn.
Qed.
Lemma meanf_pos n f : (forall i, (i < n)%nat -> 0 <= f i) -> (exists i, (i < n)%nat /\ 0 < f i) -> 0 < meanf n f.
Proof.
  intros H [i [Hi Hp]]. unfold meanf. apply Rmult_lt_0_compat; [apply sumf_pos; eauto|].
  apply Rinv_0_lt_compat. apply INR_pos. lia.
Qed.
Lemma meanf_le n f g : (0 < n)%nat -> (forall i, (i < n)%nat -> f i <= g i) -> meanf n f <= meanf n g.
Proof.
  intros Hn H. unfold meanf. apply Rmult_le_compat_r; [left; apply Rinv_0_lt_compat, INR_pos; exact Hn|].
  apply sumf_le; exact H.
Qed.
Lemma sumf_meanf n f : (0 < n)%nat -> sumf n f = INR n * meanf n f.
Proof. intro H. unfold meanf. field. apply INR_neq0; exact H. Qed.

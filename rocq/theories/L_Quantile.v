(** Order statistics, quantiles, maxima, counting. *)
From Verif Require Export L_Order.
Local Open Scope R_scope.

Lemma rleb_true x y : rleb x y = true <-> x <= y.
Proof. unfold rleb. destruct (Rle_dec x y); split; intro; try assumption; try reflexivity; try discriminate; contradiction. Qed.
Lemma rleb_false x y : rleb x y = false <-> y < x.
Proof. unfold rleb. destruct (Rle_dec x y); split; intro; try discriminate; try reflexivity; lra. Qed.
Lemma rltb_true x y : rltb x y = true <-> x < y.
Proof. unfold rltb. destruct (Rlt_dec x y); split; intro; try assumption; try reflexivity; try discriminate; contradiction. Qed.
Lemma rltb_false x y : rltb x y = false <-> y <= x.
Proof. unfold rltb. destruct (Rlt_dec x y); split; intro; try discriminate; try reflexivity; lra. Qed.

(** ** Sorted lists *)
Lemma sorted_nth l : StronglySorted Rle l -> forall i j, (i <= j)%nat -> (j < length l)%nat -> nth i l 0 <= nth j l 0.
Proof.
  induction 1 as [|a l Hs IH Ha]; intros i j Hij Hj; cbn in Hj; [lia|].
  destruct i, j; cbn; try lia; [lra| |apply IH; lia].
  rewrite Forall_forall in Ha. apply Ha. apply nth_In. lia.
Qed.
Lemma rsort_nth l i j : (i <= j)%nat -> (j < length l)%nat -> nth i (rsort l) 0 <= nth j (rsort l) 0.
Proof. intros. apply sorted_nth; [apply rsort_sorted|assumption|rewrite rsort_length; assumption]. Qed.

(** ** Counting *)
Lemma rcount_perm {A} (p : A -> bool) l l' : Permutation l l' -> rcount p l = rcount p l'.
Proof.
  unfold rcount. induction 1; cbn; auto.
  - destruct (p x); cbn; lia.
  - destruct (p x), (p y); cbn; lia.
  - lia.
Qed.
Lemma rcount_mono {A} (p q : A -> bool) l : (forall x, In x l -> p x = true -> q x = true) -> (rcount p l <= rcount q l)%nat.
Proof.
  unfold rcount. induction l as [|a l IH]; intro H; cbn; [lia|].
  assert (length (filter p l) <= length (filter q l))%nat by (apply IH; intros; apply H; [right|]; assumption).
  destruct (p a) eqn:E; [rewrite (H a (or_introl eq_refl) E); cbn; lia|destruct (q a); cbn; lia].
Qed.
Lemma rcount_le {A} (p : A -> bool) l : (rcount p l <= length l)%nat.
Proof. unfold rcount. induction l as [|a l IH]; cbn; [lia|]. destruct (p a); cbn; lia. Qed.
Lemma rcount_app {A} (p : A -> bool) l l' : rcount p (l ++ l') = (rcount p l + rcount p l')%nat.
Proof. unfold rcount. rewrite filter_app, app_length. reflexivity. Qed.
Lemma rcount_all {A} (p : A -> bool) l : (forall x, In x l -> p x = true) -> rcount p l = length l.
Proof.
  unfold rcount. induction l as [|a l IH]; intro H; cbn; [reflexivity|].
  rewrite (H a (or_introl eq_refl)). cbn. rewrite IH; auto. intros; apply H; right; assumption.
Qed.
Lemma rcount_map {A B} (f : A -> B) p l : rcount p (map f l) = rcount (fun x => p (f x)) l.
Proof. unfold rcount. induction l as [|a l IH]; cbn; [reflexivity|]. destruct (p (f a)); cbn; lia. Qed.
Lemma rshare_range {A} (p : A -> bool) l : 0 <= rshare p l <= 1.
Proof.
  unfold rshare. destruct l as [|a l]; [cbn; unfold Rdiv; lra|].
  set (L := a :: l). assert (Hl : 0 < INR (length L)) by (apply lt_0_INR; cbn; lia).
  split.
  - apply Rmult_le_pos; [apply pos_INR|]. left. apply Rinv_0_lt_compat. exact Hl.
  - apply (Rmult_le_reg_r (INR (length L))); [exact Hl|]. unfold Rdiv. rewrite Rmult_assoc, Rinv_l by lra.
    rewrite Rmult_1_r, Rmult_1_l. apply le_INR, rcount_le.
Qed.
Lemma rshare_mono {A} (p q : A -> bool) l : (forall x, In x l -> p x = true -> q x = true) -> rshare p l <= rshare q l.
Proof.
  intro H. unfold rshare. destruct l as [|a l]; [cbn; unfold Rdiv; lra|]. apply Rmult_le_compat_r.
  - left. apply Rinv_0_lt_compat, lt_0_INR. cbn; lia.
  - apply le_INR, rcount_mono, H.
Qed.
Lemma rcount_ext {A} (p q : A -> bool) l : (forall x, In x l -> p x = q x) -> rcount p l = rcount q l.
Proof. intro H. unfold rcount. f_equal. apply filter_ext_in. exact H. Qed.
Lemma rshare_ext {A} (p q : A -> bool) l : (forall x, In x l -> p x = q x) -> rshare p l = rshare q l.
Proof. intro H. unfold rshare. rewrite (rcount_ext p q l H). reflexivity. Qed.

Lemma firstn_In_nth (l : list R) k x : (k <= length l)%nat -> In x (firstn k l) -> exists i, (i < k)%nat /\ nth i l 0 = x.
Proof.
  revert k. induction l as [|a l IH]; intros [|k] Hk H; cbn in *; try lia; try contradiction.
  destruct H as [<-|H]; [exists 0%nat; split; [lia|reflexivity]|].
  destruct (IH k) as (i & Hi & E); [lia|exact H|]. exists (S i). split; [lia|exact E].
Qed.
Lemma skipn_In_nth (l : list R) k x : In x (skipn k l) -> exists i, (k <= i)%nat /\ (i < length l)%nat /\ nth i l 0 = x.
Proof.
  revert k. induction l as [|a l IH]; intros [|k] H; cbn in *; try contradiction.
  - destruct H as [<-|H]; [exists 0%nat; repeat split; lia|].
    apply In_nth with (d := 0) in H. destruct H as (i & Hi & E). exists (S i). repeat split; try lia. exact E.
  - destruct (IH k H) as (i & A & B & C). exists (S i). repeat split; try lia. exact C.
Qed.

(** If the k-th order statistic is below c, at least k+1 elements are. *)
Lemma count_le_nth l k c : (k < length l)%nat -> nth k (rsort l) 0 <= c -> (k + 1 <= rcount (fun x => rleb x c) l)%nat.
Proof.
  intros Hk Hc. rewrite <- (rcount_perm _ _ _ (rsort_perm l)).
  rewrite <- (firstn_skipn (k + 1) (rsort l)), rcount_app.
  rewrite (rcount_all _ (firstn (k + 1) (rsort l))).
  - rewrite firstn_length, rsort_length. lia.
  - intros x Hx. apply firstn_In_nth in Hx; [|rewrite rsort_length; lia]. destruct Hx as (i & Hi & <-). apply rleb_true.
    apply Rle_trans with (nth k (rsort l) 0); [apply rsort_nth; lia|exact Hc].
Qed.
Lemma count_ge_nth l k c : c <= nth k (rsort l) 0 -> (length l - k <= rcount (fun x => rleb c x) l)%nat.
Proof.
  intros Hc. rewrite <- (rcount_perm _ _ _ (rsort_perm l)).
  rewrite <- (firstn_skipn k (rsort l)), rcount_app.
  rewrite (rcount_all _ (skipn k (rsort l))).
  - rewrite skipn_length, rsort_length. lia.
  - intros x Hx. apply skipn_In_nth in Hx. destruct Hx as (i & Hi & Hl & <-). apply rleb_true.
    rewrite rsort_length in Hl. apply Rle_trans with (nth k (rsort l) 0); [exact Hc|apply rsort_nth; lia].
Qed.

(** ** Quantiles *)
Definition qk (n : nat) (q : R) : nat := Z.to_nat (Int_part (q * INR (n - 1))).
Lemma qk_spec n q : 0 <= q -> INR (qk n q) <= q * INR (n - 1) < INR (qk n q) + 1.
Proof.
  intro Hq. unfold qk. set (h := q * INR (n - 1)).
  assert (Hh : 0 <= h) by (apply Rmult_le_pos; [exact Hq|apply pos_INR]).
  destruct (base_Int_part h) as [A B].
  assert (Hz : (0 <= Int_part h)%Z).
  { apply le_IZR. apply Rnot_lt_le. intro H. assert (IZR (Int_part h) <= -1).
    { apply IZR_le. apply lt_IZR in H. lia. } lra. }
  rewrite INR_IZR_INZ, Z2Nat.id by exact Hz. lra.
Qed.
Lemma qk_lt n q : (0 < n)%nat -> 0 <= q < 1 -> (qk n q < n)%nat.
Proof.
  intros Hn [Hq Hq1]. destruct (qk_spec n q Hq) as [A _].
  apply INR_lt. apply Rle_lt_trans with (q * INR (n - 1)); [exact A|].
  apply Rle_lt_trans with (INR (n - 1)); [|apply lt_INR; lia].
  rewrite <- (Rmult_1_l (INR (n - 1))) at 2. apply Rmult_le_compat_r; [apply pos_INR|lra].
Qed.
Lemma quantile_eq l q : quantile l q = nth (qk (length l) q) (rsort l) 0 +
   (q * INR (length l - 1) - INR (qk (length l) q)) *
   (nth (Nat.min (S (qk (length l) q)) (length l - 1)) (rsort l) 0 - nth (qk (length l) q) (rsort l) 0).
Proof. reflexivity. Qed.
Lemma quantile_between l q : l <> [] -> 0 <= q < 1 ->
  nth (qk (length l) q) (rsort l) 0 <= quantile l q <= nth (Nat.min (S (qk (length l) q)) (length l - 1)) (rsort l) 0.
Proof.
  intros Hl Hq. apply nonempty_len in Hl. rewrite quantile_eq. set (k := qk (length l) q).
  assert (Hk : (k < length l)%nat) by (apply qk_lt; assumption).
  destruct (qk_spec (length l) q) as [A B]; [lra|]. fold k in A, B.
  assert (M : nth k (rsort l) 0 <= nth (Nat.min (S k) (length l - 1)) (rsort l) 0) by (apply rsort_nth; lia).
  set (a := nth k (rsort l) 0) in *. set (b := nth (Nat.min (S k) (length l - 1)) (rsort l) 0) in *.
  set (x := q * INR (length l - 1) - INR k). assert (0 <= x <= 1) by (unfold x; lra). nra.
Qed.
Lemma quantile_mono_list l l' q : 0 <= q < 1 -> l <> [] -> Forall2 Rle l l' -> quantile l q <= quantile l' q.
Proof.
  intros Hq Hn H. rewrite !quantile_eq. rewrite <- (Forall2_len _ _ _ H). apply rsort_mono in H.
  set (k := qk (length l) q). set (m := Nat.min (S k) (length l - 1)).
  pose proof (Forall2_nth_le _ _ k H). pose proof (Forall2_nth_le _ _ m H).
  destruct (qk_spec (length l) q) as [A B]; [lra|]. fold k in A, B.
  set (x := q * INR (length l - 1) - INR k). assert (0 <= x <= 1) by (unfold x; lra). nra.
Qed.
Lemma quantile_mono_q l q1 q2 : l <> [] -> 0 <= q1 -> q1 <= q2 -> q2 < 1 -> quantile l q1 <= quantile l q2.
Proof.
  intros Hl H1 H12 H2. assert (Hn := nonempty_len l Hl).
  assert (Hk : (qk (length l) q1 <= qk (length l) q2)%nat).
  { destruct (qk_spec (length l) q1) as [A _]; [lra|]. destruct (qk_spec (length l) q2) as [_ B]; [lra|].
    assert (q1 * INR (length l - 1) <= q2 * INR (length l - 1)) by (apply Rmult_le_compat_r; [apply pos_INR|exact H12]).
    apply Nat.lt_succ_r. apply INR_lt. rewrite S_INR. lra. }
  assert (Hk2 : (qk (length l) q2 < length l)%nat) by (apply qk_lt; [exact Hn|lra]).
  destruct (Nat.eq_dec (qk (length l) q1) (qk (length l) q2)) as [E|E].
  - rewrite !quantile_eq, E. set (k := qk (length l) q2).
    assert (M : nth k (rsort l) 0 <= nth (Nat.min (S k) (length l - 1)) (rsort l) 0) by (apply rsort_nth; lia).
    assert (q1 * INR (length l - 1) <= q2 * INR (length l - 1)) by (apply Rmult_le_compat_r; [apply pos_INR|exact H12]). nra.
  - apply Rle_trans with (nth (Nat.min (S (qk (length l) q1)) (length l - 1)) (rsort l) 0).
    + apply quantile_between; [exact Hl|lra].
    + apply Rle_trans with (nth (qk (length l) q2) (rsort l) 0); [apply rsort_nth; lia|apply quantile_between; [exact Hl|lra]].
Qed.
Lemma quantile_nonneg l q : l <> [] -> 0 <= q < 1 -> (forall x, In x l -> 0 <= x) -> 0 <= quantile l q.
Proof.
  intros Hl Hq H. apply Rle_trans with (nth (qk (length l) q) (rsort l) 0); [|apply quantile_between; assumption].
  apply H. apply (Permutation_in _ (rsort_perm l)). apply nth_In. rewrite rsort_length. apply qk_lt; [apply nonempty_len|]; assumption.
Qed.
(** Two-sided counting characterisation of the interpolated quantile. *)
Lemma quantile_count_le l q : l <> [] -> 0 <= q < 1 ->
  q * INR (length l - 1) < INR (rcount (fun x => rleb x (quantile l q)) l).
Proof.
  intros Hl Hq. destruct (qk_spec (length l) q) as [_ B]; [lra|].
  eapply Rlt_le_trans; [exact B|]. rewrite <- S_INR. apply le_INR.
  rewrite <- Nat.add_1_r. apply count_le_nth; [apply qk_lt; [apply nonempty_len|]; assumption|apply quantile_between; assumption].
Qed.
Lemma quantile_count_ge l q : l <> [] -> 0 <= q < 1 ->
  (1 - q) * INR (length l - 1) <= INR (rcount (fun x => rleb (quantile l q) x) l).
Proof.
  intros Hl Hq. assert (Hn := nonempty_len l Hl). destruct (qk_spec (length l) q) as [A _]; [lra|].
  set (k := qk (length l) q) in *. assert (Hk : (k < length l)%nat) by (apply qk_lt; assumption).
  assert (C := count_ge_nth l (Nat.min (S k) (length l - 1)) (quantile l q) (proj2 (quantile_between l q Hl Hq))).
  apply Rle_trans with (INR (length l - 1) - INR k); [lra|].
  apply Rle_trans with (INR (length l - Nat.min (S k) (length l - 1))); [|apply le_INR; exact C].
  rewrite <- minus_INR by lia. apply le_INR. lia.
Qed.

(** ** Maxima *)
Lemma rmax_list_ge l : forall x, x <= rmax_list x l /\ forall y, In y l -> y <= rmax_list x l.
Proof.
  unfold rmax_list. induction l as [|a l IH]; intro x; cbn; [split; [lra|intros ? []]|].
  destruct (IH (Rmax x a)) as [A B]. pose proof (Rmax_l x a). pose proof (Rmax_r x a).
  split; [lra|]. intros y [<-|Hy]; [lra|auto].
Qed.
Lemma rmax_list_in l : forall x, rmax_list x l = x \/ In (rmax_list x l) l.
Proof.
  unfold rmax_list. induction l as [|a l IH]; intro x; cbn; [auto|].
  destruct (IH (Rmax x a)) as [E|E]; [|auto]. rewrite E. unfold Rmax. destruct (Rle_dec x a); auto.
Qed.
Lemma maxf_ge n f i : (i < n)%nat -> f i <= maxf n f.
Proof.
  intro H. unfold maxf. destruct n; [lia|]. cbn [seq map].
  destruct (rmax_list_ge (map f (seq 1 n)) (f 0%nat)) as [A B]. destruct i; [exact A|].
  apply B. apply in_map. apply in_seq. lia.
Qed.
Lemma maxf_in n f : (0 < n)%nat -> exists i, (i < n)%nat /\ maxf n f = f i.
Proof.
  intro H. unfold maxf. destruct n; [lia|]. cbn [seq map].
  destruct (rmax_list_in (map f (seq 1 n)) (f 0%nat)) as [E|E]; [exists 0%nat; split; [lia|exact E]|].
  apply in_map_iff in E. destruct E as (i & E & Hi). apply in_seq in Hi. exists i. split; [lia|congruence].
Qed.
Lemma maxf_le n f c : (0 < n)%nat -> (maxf n f <= c <-> forall i, (i < n)%nat -> f i <= c).
Proof.
  intro Hn. split.
  - intros H i Hi. apply Rle_trans with (maxf n f); [apply maxf_ge; exact Hi|exact H].
  - intro H. destruct (maxf_in n f Hn) as (i & Hi & ->). apply H; exact Hi.
Qed.
Lemma lmax_ge l x : In x l -> x <= match l with [] => 0 | y :: r => rmax_list y r end.
Proof.
  destruct l as [|y r]; intros []; destruct (rmax_list_ge r y) as [A B]; [subst; exact A|auto].
Qed.
Lemma lmax_in l : l <> [] -> In (match l with [] => 0 | y :: r => rmax_list y r end) l.
Proof.
  destruct l as [|y r]; [congruence|]. intros _. destruct (rmax_list_in r y) as [->|H]; [left; reflexivity|right; exact H].
Qed.

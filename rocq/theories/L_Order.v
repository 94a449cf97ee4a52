(** Lemmas on sorting, medians, quantiles, maxima. *)
From Verif Require Export L_Sum.
From Coq Require Export Sorted.
Local Open Scope R_scope.

Lemma rinsert_length x l : length (rinsert x l) = S (length l).
Proof. induction l as [|y r IH]; cbn; [reflexivity|]. destruct (Rle_dec x y); cbn; lia. Qed.
Lemma rsort_length l : length (rsort l) = length l.
Proof. induction l; cbn; [reflexivity|]. rewrite rinsert_length. lia. Qed.
Lemma rinsert_perm x l : Permutation (rinsert x l) (x :: l).
Proof.
  induction l as [|y r IH]; cbn; [apply Permutation_refl|].
  destruct (Rle_dec x y); [apply Permutation_refl|].
  eapply Permutation_trans; [apply perm_skip; exact IH|]. apply perm_swap.
Qed.
Lemma rsort_perm l : Permutation (rsort l) l.
Proof.
  induction l; cbn; [apply Permutation_refl|].
  eapply Permutation_trans; [apply rinsert_perm|]. apply perm_skip; assumption.
Qed.
Lemma rinsert_sorted x l : StronglySorted Rle l -> StronglySorted Rle (rinsert x l).
Proof.
  induction l as [|y r IH]; cbn; intro H.
  - constructor; [constructor|constructor].
  - destruct (Rle_dec x y) as [Hxy|Hxy].
    + constructor; [assumption|]. inversion H; subst. constructor; [assumption|].
      eapply Forall_impl; [|eassumption]. intros; lra.
    + inversion H; subst. constructor; [auto|].
      rewrite Forall_forall in *. intros z Hz.
      apply (Permutation_in _ (rinsert_perm x r)) in Hz. cbn in Hz. destruct Hz as [<-|Hz]; [lra|auto].
Qed.
Lemma rsort_sorted l : StronglySorted Rle (rsort l).
Proof. induction l; cbn; [constructor|]. apply rinsert_sorted; assumption. Qed.

Lemma sorted_perm_unique l l' :
  StronglySorted Rle l -> StronglySorted Rle l' -> Permutation l l' -> l = l'.
Proof.
  revert l'. induction l as [|x l IH]; intros l' Hs Hs' Hp.
  - apply Permutation_nil in Hp. congruence.
  - destruct l' as [|y l']; [apply Permutation_sym, Permutation_nil in Hp; discriminate|].
    inversion Hs; inversion Hs'; subst. rewrite Forall_forall in *.
    assert (x = y).
    { assert (Hx : In x (y :: l')) by (eapply Permutation_in; [exact Hp|left; reflexivity]).
      assert (Hy : In y (x :: l)) by (eapply Permutation_in; [apply Permutation_sym; exact Hp|left; reflexivity]).
      destruct Hx as [<-|Hx]; [reflexivity|]. destruct Hy as [->|Hy]; [reflexivity|].
      assert (y <= x) by auto. assert (x <= y) by auto. lra. }
    subst y. f_equal. apply IH; auto. eapply Permutation_cons_inv; exact Hp.
Qed.
Lemma rsort_perm_eq l l' : Permutation l l' -> rsort l = rsort l'.
Proof.
  intro H. apply sorted_perm_unique; try apply rsort_sorted.
  eapply Permutation_trans; [apply rsort_perm|]. eapply Permutation_trans; [exact H|].
  apply Permutation_sym, rsort_perm.
Qed.
Lemma rsort_id l : StronglySorted Rle l -> rsort l = l.
Proof. intro H. apply sorted_perm_unique; auto using rsort_sorted, rsort_perm. Qed.

Lemma median_perm l l' : Permutation l l' -> median l = median l'.
Proof.
  intro H. unfold median. rewrite (rsort_perm_eq l l' H), (Permutation_length H). reflexivity.
Qed.

(** Monotonicity *)
Lemma rinsert_mono_list x l l' : StronglySorted Rle l' -> Forall2 Rle l l' -> Forall2 Rle (rinsert x l) (rinsert x l').
Proof.
  intros Hs H. revert Hs.
  induction H as [|a b l l' Hab Hl IH]; intro Hs; cbn; [constructor; [lra|constructor]|].
  inversion Hs as [|? ? Hs' Hb]; subst. specialize (IH Hs').
  destruct (Rle_dec x a), (Rle_dec x b); try (exfalso; lra).
  - constructor; [lra|constructor; assumption].
  - constructor; [lra|].
    replace (b :: l') with (rinsert b l').
    2:{ destruct l' as [|c l']; cbn; [reflexivity|]. inversion Hb; subst. destruct (Rle_dec b c); [reflexivity|lra]. }
    clear Hab Hs. assert (Hxb : x <= b) by lra. clear - IH Hxb Hb Hs'.
    enough (Hm : Forall2 Rle (rinsert x l') (rinsert b l')).
    { clear Hb Hs' Hxb. revert IH Hm. generalize (rinsert x l), (rinsert x l'), (rinsert b l').
      intros l1 l2 l3 H. revert l3. induction H; intros l3 H3; inversion H3; subst; constructor; [lra|auto]. }
    destruct l' as [|c l']; cbn; [constructor; [lra|constructor]|].
    inversion Hb; subst. destruct (Rle_dec x c), (Rle_dec b c); try (exfalso; lra).
    constructor; [lra|]. clear. constructor; [lra|]. induction l'; constructor; auto; lra.
  - constructor; [lra|exact IH].
Qed.
Lemma rinsert_mono_elt x y l : x <= y -> StronglySorted Rle l -> Forall2 Rle (rinsert x l) (rinsert y l).
Proof.
  intros Hxy Hs. revert x Hxy. induction Hs as [|a l Hs IH Ha]; intros x Hxy; cbn.
  - constructor; [lra|constructor].
  - destruct (Rle_dec x a), (Rle_dec y a); try (exfalso; lra).
    + constructor; [lra|]. clear. constructor; [lra|]. induction l; constructor; auto; lra.
    + constructor; [lra|].
      assert (Hid : forall z, z <= a -> rinsert z l = z :: l).
      { intros z Hz. destruct l as [|b l]; cbn; [reflexivity|].
        inversion Ha; subst. destruct (Rle_dec z b); [reflexivity|lra]. }
      rewrite <- (Hid a (Rle_refl a)). apply IH. lra.
    + constructor; [lra|]. apply IH; assumption.
Qed.
Lemma Forall2_Rle_trans l1 l2 l3 : Forall2 Rle l1 l2 -> Forall2 Rle l2 l3 -> Forall2 Rle l1 l3.
Proof.
  intro H. revert l3. induction H; intros l3 H3; inversion H3; subst; constructor; [lra|auto].
Qed.
Lemma rsort_mono l l' : Forall2 Rle l l' -> Forall2 Rle (rsort l) (rsort l').
Proof.
  induction 1 as [|a b l l' Hab Hl IH]; cbn; [constructor|].
  eapply Forall2_Rle_trans; [apply rinsert_mono_list; [apply rsort_sorted|exact IH]|].
  apply rinsert_mono_elt; [exact Hab|apply rsort_sorted].
Qed.
Lemma Forall2_nth_le l l' k : Forall2 Rle l l' -> nth k l 0 <= nth k l' 0.
Proof.
  intro H. revert k. induction H; intros [|k]; cbn; try lra. apply IHForall2.
Qed.
Lemma Forall2_len {A B} (P : A -> B -> Prop) l l' : Forall2 P l l' -> length l = length l'.
Proof. induction 1; cbn; congruence. Qed.
Lemma median_mono l l' : Forall2 Rle l l' -> median l <= median l'.
Proof.
  intro H. unfold median. rewrite <- (Forall2_len _ _ _ H).
  pose proof (rsort_mono _ _ H) as Hs.
  destruct (Nat.even (length l)).
  - pose proof (Forall2_nth_le _ _ (length l / 2 - 1) Hs).
    pose proof (Forall2_nth_le _ _ (length l / 2) Hs). lra.
  - apply Forall2_nth_le; assumption.
Qed.

Lemma rsort_map_mono (f : R -> R) l :
  (forall x y, x <= y -> f x <= f y) -> rsort (map f l) = map f (rsort l).
Proof.
  intro Hf. apply sorted_perm_unique; [apply rsort_sorted| |].
  - pose proof (rsort_sorted l) as Hs. induction Hs; cbn; constructor; [assumption|].
    rewrite Forall_forall in *. intros z Hz. apply in_map_iff in Hz. destruct Hz as [w [<- Hw]]. auto.
  - eapply Permutation_trans; [apply rsort_perm|]. apply Permutation_map, Permutation_sym, rsort_perm.
Qed.
Lemma half_lt n : (0 < n)%nat -> (n / 2 < n)%nat.
Proof. intro. apply Nat.div_lt; lia. Qed.
Lemma nth_map_in (f : R -> R) l k : (k < length l)%nat -> nth k (map f l) 0 = f (nth k l 0).
Proof.
  intro H. rewrite (nth_indep (map f l) 0 (f 0)) by (rewrite map_length; exact H). apply map_nth.
Qed.
Lemma nonempty_len {A} (l : list A) : l <> [] -> (0 < length l)%nat.
Proof. destruct l; [congruence|cbn; lia]. Qed.

Lemma median_shift c l : l <> [] -> median (map (fun x => x + c) l) = median l + c.
Proof.
  intro Hl. apply nonempty_len in Hl. unfold median. rewrite map_length, rsort_map_mono by (intros; lra).
  pose proof (half_lt _ Hl).
  destruct (Nat.even (length l)); rewrite !nth_map_in by (rewrite rsort_length; lia); lra.
Qed.
Lemma median_scale a l : 0 <= a -> l <> [] -> median (map (fun x => a * x) l) = a * median l.
Proof.
  intros Ha Hl. apply nonempty_len in Hl. unfold median. rewrite map_length, rsort_map_mono
    by (intros; apply Rmult_le_compat_l; assumption).
  pose proof (half_lt _ Hl).
  destruct (Nat.even (length l)); rewrite !nth_map_in by (rewrite rsort_length; lia); lra.
Qed.
Lemma sorted_app_inv_last l x : StronglySorted Rle l -> (forall y, In y l -> y <= x) -> StronglySorted Rle (l ++ [x]).
Proof.
  induction 1 as [|a l Hs IH Ha]; intro Hx; cbn; [constructor; constructor|].
  constructor; [apply IH; intros; apply Hx; right; assumption|].
  rewrite Forall_forall in *. intros z Hz. apply in_app_or in Hz. destruct Hz as [Hz|[<-|[]]]; [auto|].
  apply Hx. left; reflexivity.
Qed.
Lemma rsort_opp l : rsort (map Ropp l) = rev (map Ropp (rsort l)).
Proof.
  apply sorted_perm_unique; [apply rsort_sorted| |].
  - pose proof (rsort_sorted l) as Hs. induction Hs; cbn; [constructor|].
    apply sorted_app_inv_last; [assumption|]. intros y Hy. apply in_rev in Hy.
    apply in_map_iff in Hy. destruct Hy as [w [<- Hw]]. rewrite Forall_forall in *.
    specialize (H _ Hw). lra.
  - eapply Permutation_trans; [apply rsort_perm|]. eapply Permutation_trans; [|apply Permutation_rev].
    apply Permutation_map, Permutation_sym, rsort_perm.
Qed.
Lemma median_opp l : l <> [] -> median (map Ropp l) = - median l.
Proof.
  intro Hl. apply nonempty_len in Hl. unfold median. rewrite map_length, rsort_opp.
  pose proof (half_lt _ Hl) as Hh.
  destruct (Nat.even (length l)) eqn:He.
  - apply Nat.even_spec in He. destruct He as [k Hk].
    assert (Hd : (length l / 2 = k)%nat) by (rewrite Hk, Nat.mul_comm; apply Nat.div_mul; lia).
    rewrite !rev_nth by (rewrite map_length, rsort_length; lia).
    rewrite map_length, rsort_length, Hd.
    rewrite !nth_map_in by (rewrite rsort_length; lia).
    replace (length l - S (k - 1))%nat with k by lia.
    replace (length l - S k)%nat with (k - 1)%nat by lia. lra.
  - assert (Ho : Nat.odd (length l) = true) by (unfold Nat.odd; rewrite He; reflexivity).
    apply Nat.odd_spec in Ho. destruct Ho as [k Hk].
    assert (Hd : (length l / 2 = k)%nat).
    { rewrite Hk. rewrite Nat.add_comm, Nat.mul_comm. rewrite Nat.div_add by lia. reflexivity. }
    rewrite rev_nth by (rewrite map_length, rsort_length; lia).
    rewrite map_length, rsort_length, Hd.
    replace (length l - S k)%nat with k by lia.
    apply nth_map_in. rewrite rsort_length. lia.
Qed.
Lemma median_single x : median [x] = x.
Proof. reflexivity. Qed.
Lemma rsort_repeat c n : rsort (repeat c n) = repeat c n.
Proof.
  apply rsort_id. induction n; cbn; constructor; [assumption|].
  rewrite Forall_forall. intros y Hy. apply repeat_spec in Hy. lra.
Qed.
Lemma nth_repeat_R c n k : (k < n)%nat -> nth k (repeat c n) 0 = c.
Proof. revert k. induction n; intros [|k] H; cbn; try lia; [reflexivity|apply IHn; lia]. Qed.
Lemma median_repeat c n : (0 < n)%nat -> median (repeat c n) = c.
Proof.
  intro Hn. unfold median. rewrite repeat_length, rsort_repeat.
  pose proof (half_lt _ Hn).
  destruct (Nat.even n); rewrite !nth_repeat_R by lia; lra.
Qed.
Lemma Forall2_repeat_l c l : (forall x, In x l -> c <= x) -> Forall2 Rle (repeat c (length l)) l.
Proof. induction l; cbn; intro H; constructor; auto. Qed.
Lemma Forall2_repeat_r c l : (forall x, In x l -> x <= c) -> Forall2 Rle l (repeat c (length l)).
Proof. induction l; cbn; intro H; constructor; auto. Qed.
Lemma median_ge c l : l <> [] -> (forall x, In x l -> c <= x) -> c <= median l.
Proof.
  intros Hl H. rewrite <- (median_repeat c (length l)) by (apply nonempty_len; exact Hl).
  apply median_mono, Forall2_repeat_l, H.
Qed.
Lemma median_le c l : l <> [] -> (forall x, In x l -> x <= c) -> median l <= c.
Proof.
  intros Hl H. rewrite <- (median_repeat c (length l)) by (apply nonempty_len; exact Hl).
  apply median_mono, Forall2_repeat_r, H.
Qed.

(** Function-indexed versions *)
Lemma map_seq_nonempty {A} (f : nat -> A) n : (0 < n)%nat -> map f (seq 0 n) <> [].
Proof. destruct n; [lia|]. cbn. discriminate. Qed.
Lemma map_seq_Forall2 (f g : nat -> R) n s : (forall i, (s <= i < s + n)%nat -> f i <= g i) ->
  Forall2 Rle (map f (seq s n)) (map g (seq s n)).
Proof.
  revert s. induction n; intros s H; cbn; constructor; [apply H; lia|]. apply IHn. intros; apply H; lia.
Qed.
Lemma medianf_mono n f g : (forall i, (i < n)%nat -> f i <= g i) -> medianf n f <= medianf n g.
Proof. intro H. apply median_mono, map_seq_Forall2. intros; apply H; lia. Qed.
Lemma medianf_ext n f g : (forall i, (i < n)%nat -> f i = g i) -> medianf n f = medianf n g.
Proof.
  intro H. unfold medianf. f_equal. apply map_ext_in. intros i Hi. apply in_seq in Hi. apply H. lia.
Qed.
Lemma medianf_shift n c f : (0 < n)%nat -> medianf n (fun i => f i + c) = medianf n f + c.
Proof.
  intro H. unfold medianf. rewrite <- (median_shift c) by (apply map_seq_nonempty; exact H).
  rewrite map_map. reflexivity.
Qed.
Lemma medianf_scale n a f : (0 < n)%nat -> 0 <= a -> medianf n (fun i => a * f i) = a * medianf n f.
Proof.
  intros H Ha. unfold medianf. rewrite <- (median_scale a) by (auto using map_seq_nonempty).
  rewrite map_map. reflexivity.
Qed.
Lemma medianf_opp n f : (0 < n)%nat -> medianf n (fun i => - f i) = - medianf n f.
Proof.
  intros H. unfold medianf. rewrite <- median_opp by (auto using map_seq_nonempty).
  rewrite map_map. reflexivity.
Qed.
Lemma medianf_ge n c f : (0 < n)%nat -> (forall i, (i < n)%nat -> c <= f i) -> c <= medianf n f.
Proof.
  intros Hn H. apply median_ge; [apply map_seq_nonempty; exact Hn|].
  intros x Hx. apply in_map_iff in Hx. destruct Hx as [i [<- Hi]]. apply in_seq in Hi. apply H. lia.
Qed.
Lemma medianf_le n c f : (0 < n)%nat -> (forall i, (i < n)%nat -> f i <= c) -> medianf n f <= c.
Proof.
  intros Hn H. apply median_le; [apply map_seq_nonempty; exact Hn|].
  intros x Hx. apply in_map_iff in Hx. destruct Hx as [i [<- Hi]]. apply in_seq in Hi. apply H. lia.
Qed.
Lemma medianf_one f : medianf 1 f = f 0%nat.
Proof. reflexivity. Qed.
Lemma medianf_const n c : (0 < n)%nat -> medianf n (fun _ => c) = c.
Proof.
  intro H. apply Rle_antisym; [apply medianf_le|apply medianf_ge]; auto; intros; lra.
Qed.
Lemma medianf_zero n f : (0 < n)%nat -> (forall i, (i < n)%nat -> f i = 0) -> medianf n f = 0.
Proof. intros Hn H. rewrite (medianf_ext n f (fun _ => 0)) by exact H. apply medianf_const, Hn. Qed.

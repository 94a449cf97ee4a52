(** Drawn splits: k-fold, stratified k-fold, cluster cells, subgroups. *)
From Verif Require Export L_Splitting L_Order.
From Coq Require Import Lia FunctionalExtensionality.
Local Open Scope res_scope.

(** ** Lists *)
Lemma seq_sorted a m : Sorted lt (seq a m).
Proof. revert a. induction m as [|m IH]; intro a; cbn; constructor; [apply IH|]. destruct m; cbn; constructor. lia. Qed.
Lemma filter_sorted (P : nat -> bool) l : Sorted lt l -> Sorted lt (filter P l).
Proof.
  intro H. apply StronglySorted_Sorted. apply Sorted_StronglySorted in H; [|intros a b c; lia].
  induction H as [|x l Hs IH Hf]; cbn; [constructor|]. destruct (P x); [|exact IH]. constructor; [exact IH|].
  rewrite Forall_forall in *. intros y Hy. apply filter_In in Hy. apply Hf, Hy.
Qed.
Lemma sorted_lt_nodup l : Sorted lt l -> NoDup l.
Proof.
  intro H. apply Sorted_StronglySorted in H; [|intros a b c; lia]. induction H as [|x l Hs IH Hf]; constructor; [|exact IH].
  rewrite Forall_forall in Hf. intro Hx. specialize (Hf x Hx). lia.
Qed.
Lemma insert_key {A B} (eqb : B -> B -> bool) (Heq : forall a b, eqb a b = true <-> a = b) (x : A) (k : B) (f : B -> list A) keys :
  NoDup keys -> In k keys -> Permutation (flat_map (fun a => if eqb k a then x :: f a else f a) keys) (x :: flat_map f keys).
Proof.
  induction keys as [|a keys IH]; intros Hn Hk; [destruct Hk|]. cbn. inversion Hn as [|? ? Ha Hn']; subst.
  destruct (eqb k a) eqn:E.
  - apply Heq in E. subst a. cbn. apply perm_skip, Permutation_app_head.
    replace (flat_map (fun a => if eqb k a then x :: f a else f a) keys) with (flat_map f keys); [reflexivity|].
    clear - Heq Ha. induction keys as [|b keys IH]; [reflexivity|]. cbn. rewrite IH by (intro; apply Ha; right; assumption).
    destruct (eqb k b) eqn:E; [|reflexivity]. apply Heq in E. subst. destruct Ha. left. reflexivity.
  - destruct Hk as [-> | Hk]; [rewrite (proj2 (Heq k k) eq_refl) in E; discriminate|]. rewrite IH by assumption. rewrite Permutation_middle. reflexivity.
Qed.
(** Grouping a list by a key loses and duplicates nothing. *)
Lemma group_perm {A B} (eqb : B -> B -> bool) (Heq : forall a b, eqb a b = true <-> a = b) (g : A -> B) l keys :
  NoDup keys -> (forall x, In x l -> In (g x) keys) ->
  Permutation (flat_map (fun a => filter (fun x => eqb (g x) a) l) keys) l.
Proof.
  intros Hn. induction l as [|x l IH]; intro H; cbn.
  - induction keys; cbn; [constructor|]. apply IHkeys; [inversion Hn; assumption|intros ? []].
  - rewrite (insert_key eqb Heq x (g x) (fun a => filter (fun x => eqb (g x) a) l) keys Hn (H x (or_introl eq_refl))).
    apply perm_skip, IH. intros; apply H; right; assumption.
Qed.
Lemma flat_map_map' {A B C} (f : B -> list C) (g : A -> B) l : flat_map f (map g l) = flat_map (fun x => f (g x)) l.
Proof. induction l; cbn; congruence. Qed.
Lemma flat_map_len {A B} (f : A -> list B) l : length (flat_map f l) = list_sum (map (fun x => length (f x)) l).
Proof. induction l as [|x l IH]; cbn; [reflexivity|]. rewrite app_length, IH. reflexivity. Qed.
Lemma list_sum_ext {A} (f g : A -> nat) l : (forall x, In x l -> f x = g x) -> list_sum (map f l) = list_sum (map g l).
Proof. intro H. f_equal. apply map_ext_in. exact H. Qed.
Lemma filter_perm {A} (P : A -> bool) a b : Permutation a b -> Permutation (filter P a) (filter P b).
Proof. induction 1 as [|x l l' _ IH|x y l|]; cbn; [constructor| | |eapply perm_trans; eassumption]; repeat match goal with |- context [P ?z] => destruct (P z) end; try reflexivity; try (apply perm_skip; exact IH); try exact IH. apply perm_swap. Qed.
Lemma ncount_perm x a b : Permutation a b -> ncount x a = ncount x b.
Proof. intro H. unfold ncount. apply Permutation_length, filter_perm, H. Qed.
Lemma ncount_app x a b : ncount x (a ++ b) = ncount x a + ncount x b.
Proof. unfold ncount. rewrite filter_app, app_length. reflexivity. Qed.
Lemma filter_map {A B} (g : A -> B) (P : B -> bool) l : filter P (map g l) = map g (filter (fun x => P (g x)) l).
Proof. induction l as [|x l IH]; cbn; [reflexivity|]. destruct (P (g x)); cbn; rewrite IH; reflexivity. Qed.
Lemma filter_filter {A} (P Q : A -> bool) l : filter P (filter Q l) = filter (fun x => Q x && P x) l.
Proof. induction l as [|x l IH]; cbn; [reflexivity|]. destruct (Q x); cbn; [destruct (P x); rewrite IH; reflexivity|exact IH]. Qed.
Lemma nodup_in_perm (l : list nat) n (P : nat -> bool) : NoDup l -> (forall i, In i l <-> i < n /\ P i = true) -> Permutation (filter P (seq 0 n)) l.
Proof.
  intros Hn H. apply NoDup_Permutation; [apply NoDup_filter, seq_NoDup|exact Hn|]. intro i. rewrite filter_In, in_seq, H. intuition lia.
Qed.

(** ** k-fold *)
Lemma take_folds_concat sizes : forall idx, list_sum sizes = length idx -> concat (take_folds sizes idx) = idx.
Proof.
  induction sizes as [|s r IH]; intros idx H.
  - destruct idx; [reflexivity|discriminate].
  - change (list_sum (s :: r)) with (s + list_sum r) in H. cbn [take_folds concat]. rewrite IH; [apply firstn_skipn|]. rewrite skipn_length. lia.
Qed.
Lemma take_folds_len sizes : forall idx, list_sum sizes = length idx -> map (@length nat) (take_folds sizes idx) = sizes.
Proof.
  induction sizes as [|s r IH]; intros idx H; [reflexivity|]. change (list_sum (s :: r)) with (s + list_sum r) in H. cbn [take_folds map]. rewrite IH by (rewrite skipn_length; lia). f_equal. rewrite firstn_length. lia.
Qed.
Lemma fold_sizes_sum n k : 0 < k -> list_sum (fold_sizes n k) = n.
Proof.
  intro Hk. unfold fold_sizes. set (q := n / k). set (m := n mod k).
  assert (G : forall j, list_sum (map (fun i => q + (if Nat.ltb i m then 1 else 0)) (seq 0 j)) = j * q + Nat.min j m).
  { induction j as [|j IH]; [reflexivity|]. rewrite seq_S, map_app, list_sum_app, IH. cbn [map plus]. change (list_sum [?x]) with (x + 0). destruct (Nat.ltb_spec j m); lia. }
  rewrite G. pose proof (Nat.mod_upper_bound n k ltac:(lia)). fold m in H. rewrite Nat.min_r by lia. subst q m.
  pose proof (Nat.div_mod n k ltac:(lia)). lia.
Qed.
Lemma mask_proper n mask : proper_fold n (mask_split n mask).
Proof.
  unfold proper_fold, mask_split. cbn. split; [apply filter_sorted, seq_sorted|]. split; [apply filter_sorted, seq_sorted|].
  intros i. rewrite !filter_In, in_seq. destruct (mask i); cbn; intuition (try discriminate; lia).
Qed.
Lemma kfold_ok_iff n k perm : (exists fs, kfold n k perm = Ok fs) <-> 2 <= k <= n.
Proof.
  unfold kfold. destruct (Nat.leb_spec k 1); [split; [intros [? H']; discriminate|lia]|]. destruct (Nat.ltb_spec n k); [split; [intros [? H']; discriminate|lia]|].
  split; [lia|]. intros _. eexists. reflexivity.
Qed.
Lemma concat_flat {A} (l : list (list A)) : concat l = flat_map (fun x => x) l.
Proof. induction l as [|x l IH]; cbn; [reflexivity|]. rewrite IH. reflexivity. Qed.
Lemma flat_map_perm {A B} (f g : A -> list B) l : (forall x, In x l -> Permutation (f x) (g x)) -> Permutation (flat_map f l) (flat_map g l).
Proof. intro H. induction l as [|x l IH]; cbn; [constructor|]. apply Permutation_app; [apply H; left; reflexivity|apply IH; intros; apply H; right; assumption]. Qed.
Lemma nodup_app_l {A} (a b : list A) : NoDup (a ++ b) -> NoDup a.
Proof. induction a as [|x a IH]; cbn; intro H; constructor; inversion H; subst; [rewrite in_app_iff in *; tauto|auto]. Qed.
Lemma nodup_app_r {A} (a b : list A) : NoDup (a ++ b) -> NoDup b.
Proof. induction a as [|x a IH]; cbn; intro H; [exact H|]. inversion H; auto. Qed.
Lemma concat_sub_nodup {A} (l : list (list A)) x : NoDup (concat l) -> In x l -> NoDup x.
Proof.
  induction l as [|y l IH]; intros H Hx; [destruct Hx|]; cbn in H; destruct Hx as [-> | Hx].
  - apply nodup_app_l in H. exact H.
  - apply IH; [|exact Hx]. apply nodup_app_r in H. exact H.
Qed.
Lemma kfold_spec n k perm fs : Permutation perm (seq 0 n) -> kfold n k perm = Ok fs ->
  length fs = k /\ proper_split n fs /\ (forall f, In f fs -> n / k <= length (snd f) <= n / k + 1).
Proof.
  intros Hp H. unfold kfold in H. destruct (Nat.leb_spec k 1); [discriminate|]. destruct (Nat.ltb_spec n k); [discriminate|]. injection H as <-.
  assert (Len : length perm = n) by (apply Permutation_length in Hp; rewrite seq_length in Hp; exact Hp).
  pose proof (fold_sizes_sum n k ltac:(lia)) as Hs. set (ts := take_folds (fold_sizes n k) perm).
  assert (Hc : concat ts = perm) by (apply take_folds_concat; lia).
  assert (Hnd : NoDup (concat ts)) by (rewrite Hc; apply (Permutation_NoDup (Permutation_sym Hp)), seq_NoDup).
  assert (Hin : forall t i, In t ts -> In i t -> i < n).
  { intros t i Ht Hi. assert (X : In i (concat ts)) by (apply in_concat; exists t; auto). rewrite Hc in X. apply (Permutation_in _ Hp), in_seq in X. lia. }
  assert (Ht : forall t, In t ts -> Permutation (filter (fun i => nmem i t) (seq 0 n)) t).
  { intros t Ht. apply nodup_in_perm; [apply (concat_sub_nodup ts); assumption|]. intro i. rewrite nmem_spec. split; [intro Hi; split; [apply (Hin t); assumption|exact Hi]|intros [_ Hi]; exact Hi]. }
  split; [|split; [split|]].
  - rewrite map_length. rewrite <- (map_length (@length nat) ts). unfold ts. rewrite take_folds_len by lia. unfold fold_sizes. rewrite map_length, seq_length. reflexivity.
  - rewrite flat_map_map'. cbn [mask_split snd]. rewrite (flat_map_perm _ (fun x => x)) by exact Ht. rewrite <- concat_flat, Hc. exact Hp.
  - intros f Hf. apply in_map_iff in Hf. destruct Hf as (t & <- & _). apply mask_proper.
  - intros f Hf. apply in_map_iff in Hf. destruct Hf as (t & <- & Hf). cbn [mask_split snd]. rewrite (Permutation_length (Ht t Hf)).
    assert (X : In (length t) (map (@length nat) ts)) by (apply in_map; exact Hf). unfold ts in X. rewrite take_folds_len in X by lia.
    unfold fold_sizes in X. apply in_map_iff in X. destruct X as (i & <- & _). destruct (Nat.ltb i (n mod k)); lia.
Qed.

(** ** Counting residues in an interval *)
Definition cmod (k i a m : nat) : nat := length (filter (fun p => Nat.eqb (p mod k) i) (seq a m)).
Lemma cmod_app k i a m m' : cmod k i a (m + m') = cmod k i a m + cmod k i (a + m) m'.
Proof. unfold cmod. rewrite seq_app, filter_app, app_length. reflexivity. Qed.
Lemma mod_close k p q : 0 < k -> p mod k = q mod k -> p < q -> p + k <= q.
Proof.
  intros Hk E L. pose proof (Nat.div_mod p k ltac:(lia)) as P. pose proof (Nat.div_mod q k ltac:(lia)) as Q. rewrite <- E in Q.
  assert (p / k < q / k) by nia. nia.
Qed.
Lemma cmod_le1 k i a m : 0 < k -> m <= k -> cmod k i a m <= 1.
Proof.
  intros Hk Hm. unfold cmod. set (l := filter _ _). assert (Hn : NoDup l) by (apply NoDup_filter, seq_NoDup).
  destruct l as [|x [|y r]] eqn:E; cbn; try lia. exfalso.
  assert (Hx : In x l) by (rewrite E; left; reflexivity). assert (Hy : In y l) by (rewrite E; right; left; reflexivity).
  subst l. apply filter_In in Hx, Hy. rewrite in_seq in Hx, Hy. destruct Hx as [Hx Ex], Hy as [Hy Ey]. apply Nat.eqb_eq in Ex, Ey.
  assert (x <> y). { inversion Hn as [|? ? Hi _]; subst. intros ->. apply Hi. left. reflexivity. }
  destruct (Nat.lt_trichotomy x y) as [L|[L|L]]; [pose proof (mod_close k x y Hk ltac:(congruence) L); lia|congruence|pose proof (mod_close k y x Hk ltac:(congruence) L); lia].
Qed.
Lemma cmod_full k i a : i < k -> cmod k i a k = 1.
Proof.
  intro Hi. pose proof (cmod_le1 k i a k ltac:(lia) ltac:(lia)). enough (cmod k i a k <> 0) by lia.
  unfold cmod. set (q := a / k). pose proof (Nat.div_mod a k ltac:(lia)) as D. fold q in D. pose proof (Nat.mod_upper_bound a k ltac:(lia)) as U.
  set (p := if Nat.leb (a mod k) i then k * q + i else k * (q + 1) + i).
  assert (Hp : In p (filter (fun p => Nat.eqb (p mod k) i) (seq a k))).
  { apply filter_In. rewrite in_seq. unfold p. destruct (Nat.leb_spec (a mod k) i).
    - split; [lia|]. apply Nat.eqb_eq. rewrite Nat.mul_comm, Nat.add_comm, Nat.mod_add by lia. apply Nat.mod_small. exact Hi.
    - split; [lia|]. apply Nat.eqb_eq. rewrite Nat.mul_comm, Nat.add_comm, Nat.mod_add by lia. apply Nat.mod_small. exact Hi. }
  intro L. destruct (filter _ _); [destruct Hp|discriminate].
Qed.
Lemma cmod_close k m : forall a i j, i < k -> j < k -> cmod k i a m <= cmod k j a m + 1.
Proof.
  induction m as [m IH] using lt_wf_ind. intros a i j Hi Hj. destruct (Nat.le_gt_cases m k) as [L|L].
  - pose proof (cmod_le1 k i a m ltac:(lia) L). lia.
  - replace m with (k + (m - k)) by lia. rewrite !cmod_app, !cmod_full by assumption. specialize (IH (m - k) ltac:(lia) (a + k) i j Hi Hj). lia.
Qed.

(** ** Stratified k-fold *)
Lemma nins_perm x l : Permutation (nins x l) (x :: l).
Proof. induction l as [|y r IH]; cbn; [reflexivity|]. destruct (Nat.leb x y); [reflexivity|]. rewrite IH. apply perm_swap. Qed.
Lemma nsort_perm l : Permutation (nsort l) l.
Proof. induction l as [|x r IH]; cbn; [constructor|]. rewrite nins_perm. apply perm_skip, IH. Qed.
Lemma nins_sorted x l : Sorted le l -> Sorted le (nins x l).
Proof.
  induction 1 as [|y r Hs IH Hr]; cbn; [repeat constructor|]. destruct (Nat.leb_spec x y) as [H|H].
  - repeat constructor; assumption.
  - constructor; [exact IH|]. destruct r as [|w r]; cbn; [constructor; lia|]. inversion Hr; subst. destruct (Nat.leb x w); constructor; lia.
Qed.
Lemma nsort_sorted l : Sorted le (nsort l).
Proof. induction l as [|x r IH]; cbn; [constructor|]. apply nins_sorted, IH. Qed.
Lemma stride_positions k i l : length (stride k i l) = cmod k i 0 (length l).
Proof. unfold stride, cmod. rewrite map_length. reflexivity. Qed.
Lemma map_nth_seq (l : list nat) : map (fun p => nth p l 0) (seq 0 (length l)) = l.
Proof.
  induction l as [|x l IH]; [reflexivity|]. cbn [length seq map nth]. f_equal. rewrite <- seq_shift, map_map. exact IH.
Qed.
Lemma strides_perm k l : 0 < k -> Permutation (flat_map (fun i => stride k i l) (seq 0 k)) l.
Proof.
  intro Hk. transitivity (map (fun p => nth p l 0) (seq 0 (length l))); [|rewrite map_nth_seq; reflexivity]. unfold stride.
  assert (E : forall keys, flat_map (fun i => map (fun p => nth p l 0) (filter (fun p => Nat.eqb (p mod k) i) (seq 0 (length l)))) keys
              = map (fun p => nth p l 0) (flat_map (fun i => filter (fun p => Nat.eqb (p mod k) i) (seq 0 (length l))) keys)).
  { induction keys as [|a keys IH]; cbn; [reflexivity|]. rewrite map_app, IH. reflexivity. }
  rewrite E. apply Permutation_map. apply group_perm; [intros; apply Nat.eqb_eq|apply seq_NoDup|].
  intros p _. apply in_seq. pose proof (Nat.mod_upper_bound p k ltac:(lia)). lia.
Qed.
Lemma ncount_flat {A} x (f : A -> list nat) l : ncount x (flat_map f l) = list_sum (map (fun a => ncount x (f a)) l).
Proof. induction l as [|a l IH]; [reflexivity|]. cbn [flat_map map]. rewrite ncount_app, IH. reflexivity. Qed.
Lemma ncount_repeat x y m : ncount x (repeat y m) = if Nat.eqb x y then m else 0.
Proof. unfold ncount. induction m as [|m IH]; cbn; [destruct (Nat.eqb x y); reflexivity|]. destruct (Nat.eqb x y); cbn; rewrite IH; reflexivity. Qed.
Lemma ncount_map (g : nat -> nat) c l : ncount c (map g l) = length (filter (fun i => Nat.eqb (g i) c) l).
Proof. unfold ncount. rewrite filter_map, map_length. f_equal. apply filter_ext. intro i. apply Nat.eqb_sym. Qed.
Lemma list_sum_single (g : nat -> nat) i k : i < k -> list_sum (map (fun j => if Nat.eqb i j then g j else 0) (seq 0 k)) = g i.
Proof.
  intro Hi. induction k as [|k IH]; [lia|]. rewrite seq_S, map_app, list_sum_app. cbn [map plus]. change (list_sum [?x]) with (x + 0).
  destruct (Nat.eqb_spec i k) as [-> | N].
  - assert (Z : list_sum (map (fun j => if Nat.eqb k j then g j else 0) (seq 0 k)) = 0).
    { clear. assert (G : forall l, ~ In k l -> list_sum (map (fun j => if Nat.eqb k j then g j else 0) l) = 0).
      { induction l as [|x l IH]; intro H; cbn; [reflexivity|]. destruct (Nat.eqb_spec k x) as [-> | _]; [destruct H; left; reflexivity|]. apply IH. intro; apply H; right; assumption. }
      apply G. rewrite in_seq. lia. }
    lia.
  - rewrite IH by lia. lia.
Qed.
(** Positional assignment: the p-th selected entry gets the p-th value. *)
Lemma assign_map (P : nat -> bool) (L : list nat) n : length (filter P (seq 0 n)) <= length L ->
  map (fun j => nth (length (filter P (seq 0 j))) L 0) (filter P (seq 0 n)) = firstn (length (filter P (seq 0 n))) L.
Proof.
  induction n as [|n IH]; intro H; [reflexivity|]. rewrite seq_S, filter_app in *. cbn [plus filter] in *. destruct (P n) eqn:E.
  - rewrite app_length in *. cbn [length] in *. rewrite map_app, IH by lia. cbn [map].
    revert H. generalize (length (filter P (seq 0 n))) as m. intros m H. clear - H. revert m H. induction L as [|x L IH]; intros m H; cbn in H; [lia|].
    destruct m as [|m]; cbn; [reflexivity|]. f_equal. apply IH. lia.
  - rewrite app_nil_r in *. apply IH. exact H.
Qed.

Section Strat.
  Context (n k : nat) (y : nat -> Z) (shuffle : nat -> list nat -> list nat).
  Hypothesis (Hk : 0 < k) (Hsh : forall c l, Permutation (shuffle c l) l).
  Let enc := y_encoded n y.
  Let yo := nsort (map enc (seq 0 n)).
  Lemma yo_perm : Permutation yo (map enc (seq 0 n)). Proof. apply nsort_perm. Qed.
  Lemma yo_len : length yo = n. Proof. rewrite (Permutation_length yo_perm), map_length, seq_length. reflexivity. Qed.
  Definition class_size (c : nat) : nat := length (filter (fun j => Nat.eqb (enc j) c) (seq 0 n)).
  Lemma folds_len c : length (folds_for_class n k y c) = class_size c.
  Proof.
    unfold folds_for_class. rewrite flat_map_len. rewrite (list_sum_ext _ (fun i => allocation n k y i c)) by (intros; apply repeat_length).
    unfold allocation. fold enc. fold yo. rewrite <- (ncount_flat c (fun i => stride k i yo)). rewrite (ncount_perm c _ _ (strides_perm k yo Hk)).
    rewrite (ncount_perm c _ _ yo_perm). apply ncount_map.
  Qed.
  Lemma folds_count c i : i < k -> ncount i (folds_for_class n k y c) = allocation n k y i c.
  Proof.
    intro Hi. unfold folds_for_class. rewrite ncount_flat. rewrite (list_sum_ext _ (fun j => if Nat.eqb i j then allocation n k y j c else 0)) by (intros; apply ncount_repeat).
    apply (list_sum_single (fun j => allocation n k y j c)). exact Hi.
  Qed.
  Lemma class_assign c : map (test_fold n k y shuffle) (filter (fun j => Nat.eqb (enc j) c) (seq 0 n)) = shuffle c (folds_for_class n k y c).
  Proof.
    set (L := shuffle c (folds_for_class n k y c)). assert (HL : length L = class_size c) by (unfold L; rewrite (Permutation_length (Hsh _ _)); apply folds_len).
    rewrite (map_ext_in _ (fun j => nth (length (filter (fun j' => Nat.eqb (enc j') c) (seq 0 j))) L 0)).
    - rewrite assign_map; fold (class_size c); [|lia]. rewrite <- HL. apply firstn_all.
    - intros j Hj. apply filter_In in Hj. destruct Hj as [_ Hj]. apply Nat.eqb_eq in Hj. unfold test_fold. fold enc. rewrite Hj. reflexivity.
  Qed.
  Lemma test_fold_lt j : j < n -> test_fold n k y shuffle j < k.
  Proof.
    intro Hj. assert (X : In (test_fold n k y shuffle j) (shuffle (enc j) (folds_for_class n k y (enc j)))).
    { rewrite <- class_assign. apply in_map. apply filter_In. rewrite in_seq. split; [lia|apply Nat.eqb_refl]. }
    apply (Permutation_in _ (Hsh _ _)) in X. unfold folds_for_class in X. apply in_flat_map in X. destruct X as (i & Hi & X).
    apply repeat_spec in X. apply in_seq in Hi. lia.
  Qed.
  Let test i := filter (fun j => Nat.eqb (test_fold n k y shuffle j) i) (seq 0 n).
  Lemma class_in_fold c i : i < k -> length (filter (fun j => Nat.eqb (enc j) c) (test i)) = allocation n k y i c.
  Proof.
    intro Hi. unfold test. rewrite filter_filter. rewrite <- (folds_count c i Hi). rewrite <- (ncount_perm i _ _ (Hsh c _)).
    rewrite <- class_assign, ncount_map, filter_filter. f_equal. apply filter_ext. intro j. apply andb_comm.
  Qed.
  Lemma fold_len i : i < k -> length (test i) = cmod k i 0 n.
  Proof.
    intro Hi. rewrite <- yo_len. rewrite <- stride_positions.
    (* group both sides by class *)
    set (m := S (list_max (map enc (seq 0 n)))).
    assert (Hm : forall j, j < n -> enc j < m).
    { intros j Hj. pose proof (proj1 (list_max_le (map enc (seq 0 n)) _) (le_n _)) as F. rewrite Forall_forall in F.
      assert (Hj' : In j (seq 0 n)) by (apply in_seq; lia). specialize (F (enc j) (in_map enc _ _ Hj')). unfold m. lia. }
    assert (K1 : forall j, In j (test i) -> In (enc j) (seq 0 m)).
    { intros j Hj. apply filter_In in Hj. destruct Hj as [Hj _]. apply in_seq in Hj. apply in_seq. specialize (Hm j ltac:(lia)). lia. }
    assert (K2 : forall x, In x (stride k i yo) -> In x (seq 0 m)).
    { intros x Hx. unfold stride in Hx. apply in_map_iff in Hx. destruct Hx as (p & <- & Hp). apply filter_In in Hp. destruct Hp as [Hp _]. apply in_seq in Hp.
      assert (Y : In (nth p yo 0) yo) by (apply nth_In; lia). apply (Permutation_in _ yo_perm), in_map_iff in Y. destruct Y as (j & Ej & Hj). apply in_seq in Hj.
      apply in_seq. specialize (Hm j ltac:(lia)). rewrite Ej in Hm. lia. }
    rewrite <- (Permutation_length (group_perm Nat.eqb Nat.eqb_eq enc (test i) (seq 0 m) (seq_NoDup _ _) K1)).
    rewrite <- (Permutation_length (group_perm Nat.eqb Nat.eqb_eq (fun x => x) (stride k i yo) (seq 0 m) (seq_NoDup _ _) K2)).
    rewrite !flat_map_len. apply list_sum_ext. intros c _. rewrite class_in_fold by exact Hi. unfold allocation. fold enc. fold yo. unfold ncount. f_equal. apply filter_ext. intro x. apply Nat.eqb_sym.
  Qed.
  Lemma test_perm : Permutation (flat_map test (seq 0 k)) (seq 0 n).
  Proof.
    unfold test. apply (group_perm Nat.eqb Nat.eqb_eq); [apply seq_NoDup|]. intros j Hj. apply in_seq in Hj. apply in_seq. pose proof (test_fold_lt j). lia.
  Qed.
  Lemma sorted_block c (l : list nat) : Sorted le l -> exists A m B, l = A ++ repeat c m ++ B /\ ~ In c A /\ ~ In c B.
  Proof.
    intro H. apply Sorted_StronglySorted in H; [|intros a b d; lia]. induction H as [|x l Hs IH Hf].
    - exists [], 0, []. auto.
    - rewrite Forall_forall in Hf. destruct (Nat.lt_trichotomy x c) as [L|[-> | L]].
      + destruct IH as (A & m & B & -> & HA & HB). exists (x :: A), m, B. split; [reflexivity|]. split; [intros [E|X]; [lia|auto]|exact HB].
      + destruct IH as (A & m & B & E & HA & HB). destruct A as [|a A].
        * exists [], (S m), B. subst l. split; [reflexivity|]. auto.
        * destruct m as [|m].
          -- exists [], 1, l. split; [reflexivity|]. split; [auto|]. subst l. cbn. rewrite in_app_iff. intros [X|[X|X]]; [apply HA; left; exact X|apply HA; right; exact X|auto].
          -- exfalso. subst l. (* a precedes c and is at least c, hence equals c *)
             assert (Hs' := Hs). cbn in Hs'. inversion Hs' as [|? ? _ F2]; subst. rewrite Forall_forall in F2.
             specialize (F2 c ltac:(rewrite in_app_iff; right; left; reflexivity)). specialize (Hf a ltac:(left; reflexivity)). apply HA. left. lia.
      + exists [], 0, (x :: l). split; [reflexivity|]. split; [auto|]. intros [E|X]; [lia|]. specialize (Hf c X). lia.
  Qed.
  Lemma count_positions c i l : ncount c (stride k i l) = length (filter (fun p => Nat.eqb (p mod k) i && Nat.eqb (nth p l 0) c) (seq 0 (length l))).
  Proof. unfold stride. rewrite ncount_map, filter_filter. reflexivity. Qed.
  Lemma alloc_close c i j : i < k -> j < k -> allocation n k y i c <= allocation n k y j c + 1.
  Proof.
    intros Hi Hj. unfold allocation. fold enc. fold yo. destruct (sorted_block c yo (nsort_sorted _)) as (A & m & B & E & HA & HB). rewrite E.
    assert (C : forall i, ncount c (stride k i (A ++ repeat c m ++ B)) = cmod k i (length A) m).
    { intro i0. rewrite count_positions, !app_length, repeat_length. rewrite !seq_app, !filter_app, !app_length.
      assert (Z : forall (P : nat -> bool) l, (forall p, In p l -> P p = false) -> length (filter P l) = 0).
      { intros P l. induction l as [|x l IH]; intro H; cbn; [reflexivity|]. rewrite (H x) by (left; reflexivity). apply IH. intros; apply H; right; assumption. }
      rewrite Z, (Z _ (seq (_ + _ + m) _)).
      - unfold cmod. cbn [plus]. rewrite Nat.add_0_r. f_equal. apply filter_ext_in. intros p Hp. apply in_seq in Hp.
        rewrite app_nth2 by lia. rewrite app_nth1 by (rewrite repeat_length; lia). rewrite (nth_indep _ 0 c), nth_repeat by (rewrite repeat_length; lia). rewrite Nat.eqb_refl, andb_true_r. reflexivity.
      - intros p Hp. apply in_seq in Hp. apply andb_false_iff. right. apply Nat.eqb_neq. rewrite app_nth2, app_nth2 by (rewrite ?repeat_length; lia).
        intro X. apply HB. rewrite <- X. apply nth_In. rewrite repeat_length. lia.
      - intros p Hp. apply in_seq in Hp. apply andb_false_iff. right. apply Nat.eqb_neq. rewrite app_nth1 by lia. intro X. apply HA. rewrite <- X. apply nth_In. lia. }
    rewrite !C. apply cmod_close; assumption.
  Qed.
End Strat.
Lemma appearance_in l : forall seen z, In z (appearance l seen) <-> In z l \/ In z seen.
Proof.
  induction l as [|x l IH]; intros seen z; cbn [appearance].
  - rewrite <- in_rev. cbn. tauto.
  - destruct (zmem x seen) eqn:E; rewrite IH; cbn; [|tauto]. apply zmem_spec in E. intuition (subst; auto).
Qed.
Lemma zindex_inj l a b : In a l -> In b l -> zindex a l = zindex b l -> a = b.
Proof.
  induction l as [|x l IH]; intros Ha Hb E; [destruct Ha|]. cbn in E.
  destruct (Z.eqb_spec a x), (Z.eqb_spec b x); try congruence; try discriminate. apply IH; [| |congruence]; [destruct Ha|destruct Hb]; congruence.
Qed.
Lemma enc_label n y j i : j < n -> i < n -> Nat.eqb (y_encoded n y j) (y_encoded n y i) = Z.eqb (y j) (y i).
Proof.
  intros Hj Hi. unfold y_encoded. destruct (Z.eqb_spec (y j) (y i)) as [-> | N]; [apply Nat.eqb_refl|]. apply Nat.eqb_neq. intro E. apply N.
  apply zindex_inj in E; [exact E| |]; apply appearance_in; left; apply in_map, in_seq; lia.
Qed.
Lemma strat_ok_iff n k y sh : (exists fs, stratified_kfold n k y sh = Ok fs) <->
  2 <= k <= n /\ exists i, i < n /\ k <= label_count y (y i) (seq 0 n).
Proof.
  unfold stratified_kfold. destruct (Nat.leb_spec k 1); [split; [intros [? H']; discriminate|lia]|].
  destruct (forallb _ _) eqn:E.
  - split; [intros [? H']; discriminate|]. intros [_ (i & Hi & L)]. exfalso. rewrite forallb_forall in E. specialize (E (y_encoded n y i)).
    assert (X : In (y i) (classes n y)) by (apply appearance_in; left; apply in_map, in_seq; lia).
    assert (Hlt : y_encoded n y i < length (classes n y)).
    { unfold y_encoded. clear - X. induction (classes n y) as [|z l IH]; [destruct X|]. cbn. destruct (Z.eqb_spec (y i) z); [lia|]. destruct X; [congruence|]. specialize (IH H). lia. }
    specialize (E ltac:(apply in_seq; lia)). apply Nat.ltb_lt in E. rewrite ncount_map in E.
    rewrite (filter_ext_in _ (fun j => Z.eqb (y j) (y i))) in E; [unfold label_count in L; lia|]. intros j Hj. apply in_seq in Hj. apply enc_label; lia.
  - destruct (Nat.ltb_spec n k); [split; [intros [? H']; discriminate|lia]|]. split; [|intros _; eexists; reflexivity]. intros _. split; [lia|].
    assert (X : exists c, c < length (classes n y) /\ k <= ncount c (map (y_encoded n y) (seq 0 n))).
    { clear - E. assert (G : forall l, forallb (fun c => Nat.ltb (ncount c (map (y_encoded n y) (seq 0 n))) k) l = false -> exists c, In c l /\ k <= ncount c (map (y_encoded n y) (seq 0 n))).
      { induction l as [|c l IH]; [discriminate|]. cbn [forallb]. destruct (Nat.ltb_spec (ncount c (map (y_encoded n y) (seq 0 n))) k) as [L|L]; cbn [andb]; intro H.
        - destruct (IH H) as (d & D1 & D2). exists d. split; [right; exact D1|exact D2]. - exists c. split; [left; reflexivity|exact L]. }
      destruct (G _ E) as (c & C1 & C2). apply in_seq in C1. exists c. split; [lia|exact C2]. }
    destruct X as (c & Hc & L). rewrite ncount_map in L. destruct (filter (fun i => Nat.eqb (y_encoded n y i) c) (seq 0 n)) as [|i r] eqn:Ef; [cbn in L; lia|].
    assert (Hi : In i (filter (fun i => Nat.eqb (y_encoded n y i) c) (seq 0 n))) by (rewrite Ef; left; reflexivity). apply filter_In in Hi. destruct Hi as [Hi Ei]. apply in_seq in Hi. apply Nat.eqb_eq in Ei. subst c.
    exists i. split; [lia|]. unfold label_count. rewrite <- Ef in L. rewrite (filter_ext_in _ (fun j => Nat.eqb (y_encoded n y j) (y_encoded n y i))); [exact L|]. intros j Hj. apply in_seq in Hj. symmetry. apply enc_label; lia.
Qed.
Lemma strat_spec n k y sh fs : (forall c l, Permutation (sh c l) l) -> stratified_kfold n k y sh = Ok fs ->
  length fs = k /\ proper_split n fs /\ balanced fs /\ label_balanced n y fs.
Proof.
  intros Hsh H. unfold stratified_kfold in H. destruct (Nat.leb_spec k 1); [discriminate|]. destruct (forallb _ _); [discriminate|]. destruct (Nat.ltb_spec n k); [discriminate|].
  injection H as <-. assert (Hk : 0 < k) by lia. split; [rewrite map_length, seq_length; reflexivity|]. split; [split|split].
  - rewrite flat_map_map'. cbn [mask_split snd]. apply test_perm; assumption.
  - intros f Hf. apply in_map_iff in Hf. destruct Hf as (t & <- & _). apply mask_proper.
  - intros f g Hf Hg. apply in_map_iff in Hf, Hg. destruct Hf as (i & <- & Hi), Hg as (j & <- & Hj). apply in_seq in Hi, Hj. cbn [mask_split snd].
    rewrite !fold_len by (assumption || lia). apply cmod_close; lia.
  - intros f g q Hf Hg Hq. apply in_map_iff in Hf, Hg. destruct Hf as (i & <- & Hi), Hg as (j & <- & Hj). apply in_seq in Hi, Hj. cbn [mask_split snd].
    assert (G : forall i, i < k -> label_count y (y q) (filter (fun j => Nat.eqb (test_fold n k y sh j) i) (seq 0 n)) = allocation n k y i (y_encoded n y q)).
    { intros i0 Hi0. rewrite <- (class_in_fold n k y sh Hk Hsh _ _ Hi0). unfold label_count. f_equal. apply filter_ext_in. intros j0 Hj0. apply filter_In in Hj0. destruct Hj0 as [Hj0 _]. apply in_seq in Hj0. symmetry. apply enc_label; lia. }
    rewrite !G by lia. apply alloc_close; lia.
Qed.

(** ** Repetitions *)
Lemma slice_concat {A} (all : list (list A)) k r : (forall l, In l all -> length l = k) -> r < length all ->
  firstn ((r + 1) * k - r * k) (skipn (r * k) (concat all)) = nth r all [].
Proof.
  replace ((r + 1) * k - r * k) with k by lia. revert r. induction all as [|x all IH]; intros r Hl Hr; cbn in Hr; [lia|].
  pose proof (Hl x (or_introl eq_refl)) as Hx. destruct r as [|r]; cbn [concat nth].
  - cbn [mult skipn]. rewrite firstn_app, Hx, Nat.sub_diag, firstn_O, app_nil_r. rewrite <- Hx. apply firstn_all.
  - cbn [mult]. rewrite skipn_app, Hx. rewrite skipn_all2 by lia. cbn [app]. replace (k + r * k - k) with (r * k) by lia. apply IH; [intros; apply Hl; right; assumption|lia].
Qed.
Definition draw_one (n_folds n : nat) (st : option (nat -> Z)) (g : rng) (r : nat) : result (list fold) :=
  match st with None => kfold n n_folds (rng_perm g r (seq 0 n)) | Some y => stratified_kfold n n_folds y (rng_shuffle g r) end.
Lemma draw_one_spec nf n st g r fs : shuffles g -> draw_one nf n st g r = Ok fs ->
  length fs = nf /\ proper_split n fs /\ balanced fs /\ match st with None => True | Some y => label_balanced n y fs end.
Proof.
  intros [H1 H2]. destruct st as [y|]; cbn; intro H.
  - apply strat_spec in H; [|apply H2]. tauto.
  - apply kfold_spec in H; [|apply H1]. destruct H as (A & B & C). split; [exact A|]. split; [exact B|]. split; [|exact I].
    intros f f' Hf Hf'. specialize (C f Hf) as C1. specialize (C f' Hf') as C2. lia.
Qed.
Lemma resampling_inv nf nr n st g sm : shuffles g -> resampling nf nr n st g = Ok sm ->
  2 <= nf /\ Forall2 (fun r fs => draw_one nf n st g r = Ok fs) (seq 0 nr) sm.
Proof.
  intros Hg H. unfold resampling in H. apply require_ok in H. destruct H as [Hf H]. apply Nat.leb_le in Hf. split; [exact Hf|].
  change (fun r => match st with None => kfold n nf (rng_perm g r (seq 0 n)) | Some y => stratified_kfold n nf y (rng_shuffle g r) end) with (draw_one nf n st g) in H.
  destruct (map_res (draw_one nf n st g) (seq 0 nr)) as [all|e] eqn:E; [|discriminate]. cbn [bind] in H.
  apply map_res_iff in E. assert (Hl : forall l, In l all -> length l = nf).
  { clear H. induction E as [|r fs rs all H1 _ IH]; intros l []; [subst; apply draw_one_spec in H1; [apply H1|exact Hg]|apply IH; assumption]. }
  assert (Len : length all = nr). { apply Forall2_len in E. rewrite seq_length in E. congruence. }
  assert (Es : sm = all); [|subst; exact E].
  assert (H' : sm = map (fun r => firstn ((r + 1) * nf - r * nf) (skipn (r * nf) (concat all))) (seq 0 nr)) by congruence.
  rewrite H'. rewrite (map_ext_in _ (fun r => nth r all [])).
  - clear - Len. subst nr. induction all as [|x all IH]; [reflexivity|]. cbn [length seq map nth]. f_equal. rewrite <- seq_shift, map_map. exact IH.
  - intros r Hr. apply in_seq in Hr. apply slice_concat; [exact Hl|lia].
Qed.
Lemma map_res_ok_all {A B} (g : A -> result B) l : (exists r, map_res g l = Ok r) <-> forall x, In x l -> exists y, g x = Ok y.
Proof.
  induction l as [|x l IH]; cbn; [split; [intros _ ? []|eexists; reflexivity]|]. destruct (g x) as [y|e] eqn:E; cbn.
  - destruct (map_res g l) as [r|e] eqn:E2; cbn.
    + split; [|eexists; reflexivity]. intros _ z [<- | Hz]; [eauto|]. apply IH; [eauto|exact Hz].
    + split; [intros [? H]; discriminate|]. intro H. destruct (proj2 IH ltac:(intros; apply H; right; assumption)) as [r Hr]. discriminate.
  - split; [intros [? H]; discriminate|]. intro H. destruct (H x (or_introl eq_refl)) as [y Hy]. congruence.
Qed.
Lemma resampling_defined nf nr n st g : 0 < nr ->
  ((exists sm, resampling nf nr n st g = Ok sm) <->
   2 <= nf <= n /\ match st with None => True | Some y => exists i, i < n /\ nf <= label_count y (y i) (seq 0 n) end).
Proof.
  intro Hr. unfold resampling. destruct (Nat.leb_spec 2 nf) as [H2|H2]; cbn [require]; [|split; [intros [? H]; discriminate|lia]].
  change (fun r => match st with None => kfold n nf (rng_perm g r (seq 0 n)) | Some y => stratified_kfold n nf y (rng_shuffle g r) end) with (draw_one nf n st g).
  assert (E : (exists r, map_res (draw_one nf n st g) (seq 0 nr) = Ok r) <->
     2 <= nf <= n /\ match st with None => True | Some y => exists i, i < n /\ nf <= label_count y (y i) (seq 0 n) end).
  { rewrite map_res_ok_all. split.
    - intro H. specialize (H 0 ltac:(apply in_seq; lia)). destruct st as [y|]; cbn in H; [apply strat_ok_iff in H|apply kfold_ok_iff in H]; tauto.
    - intros H r _. destruct st as [y|]; cbn; [apply strat_ok_iff|apply kfold_ok_iff]; tauto. }
  rewrite <- E. destruct (map_res _ _) as [all|e]; cbn [bind]; (split; intros [? H]; [|]); try discriminate; eexists; reflexivity.
Qed.
Lemma draws nf nr n st g sm : shuffles g -> resampling nf nr n st g = Ok sm ->
  length sm = nr /\ forall fs, In fs sm -> length fs = nf /\ proper_split n fs /\ balanced fs.
Proof.
  intros Hg H. apply resampling_inv in H; [|exact Hg]. destruct H as [_ H]. split; [apply Forall2_len in H; rewrite seq_length in H; congruence|].
  induction H as [|r fs rs sm H1 _ IH]; intros f []; [subst; apply draw_one_spec in H1; [tauto|exact Hg]|apply IH; assumption].
Qed.
Lemma draws_labels nf nr n y g sm : shuffles g -> resampling nf nr n (Some y) g = Ok sm ->
  forall fs, In fs sm -> label_balanced n y fs.
Proof.
  intros Hg H. apply resampling_inv in H; [|exact Hg]. destruct H as [_ H].
  induction H as [|r fs rs sm H1 _ IH]; intros f []; [subst; apply draw_one_spec in H1; [tauto|exact Hg]|apply IH; assumption].
Qed.
Lemma label_count_flat y z (fs : list fold) : label_count y z (flat_map snd fs) = list_sum (map (fun f => label_count y z (snd f)) fs).
Proof.
  unfold label_count. induction fs as [|f fs IH]; [reflexivity|]. cbn [flat_map map]. rewrite filter_app, app_length, IH. reflexivity.
Qed.
Lemma label_count_perm y z a b : Permutation a b -> label_count y z a = label_count y z b.
Proof. intro H. apply Permutation_length, filter_perm, H. Qed.
(** A label with at least two observations is present in every train set. *)
Lemma train_has_label n y fs f i : proper_split n fs -> label_balanced n y fs -> 2 <= length fs -> In f fs -> i < n ->
  2 <= label_count y (y i) (seq 0 n) -> exists j, In j (fst f) /\ y j = y i.
Proof.
  intros [Hp Hf] Hb Hl Hin Hi H2. destruct (Nat.eq_dec (label_count y (y i) (fst f)) 0) as [Z|Z].
  - exfalso. assert (All : label_count y (y i) (snd f) = label_count y (y i) (seq 0 n)).
    { destruct (Hf f Hin) as (S1 & S2 & C). assert (P : Permutation (fst f ++ snd f) (seq 0 n)).
      { assert (Hr : forall j, In j (snd f) -> j < n).
        { intros j Hj. assert (X : In j (flat_map snd fs)) by (apply in_flat_map; eauto). apply (Permutation_in _ Hp), in_seq in X. lia. }
        apply NoDup_Permutation; [|apply seq_NoDup|].
        - apply sorted_lt_nodup in S1, S2. clear - S1 S2 C. assert (D : forall j, In j (fst f) -> ~ In j (snd f)) by (intros j Hj; apply C, Hj). clear C.
          induction (fst f) as [|x l IH]; cbn; [exact S2|]. inversion S1; subst. constructor; [rewrite in_app_iff; intros [X|X]; [auto|apply (D x); [left; reflexivity|exact X]]|].
          apply IH; [assumption|]. intros j Hj. apply D. right. exact Hj.
        - intro j. rewrite in_app_iff, in_seq, C. destruct (in_dec Nat.eq_dec j (snd f)) as [H|H]; [specialize (Hr j H); intuition lia|intuition lia]. }
      rewrite <- (label_count_perm _ _ _ _ P). unfold label_count in *. rewrite filter_app, app_length. lia. }
    pose proof (label_count_perm y (y i) _ _ Hp) as T. rewrite label_count_flat in T.
    apply in_split in Hin. destruct Hin as (l1 & l2 & E). assert (Hg : exists g, In g fs /\ label_count y (y i) (snd g) = 0).
    { rewrite E in T. rewrite map_app, list_sum_app in T. cbn [map] in T. change (list_sum (?a :: ?l)) with (a + list_sum l) in T.
      set (cnt := fun f : fold => label_count y (y i) (snd f)) in *.
      assert (T' : list_sum (map cnt l1) + (label_count y (y i) (snd f) + list_sum (map cnt l2)) = label_count y (y i) (seq 0 n)) by exact T.
      assert (Hz : forall l g, list_sum (map cnt l) = 0 -> In g l -> label_count y (y i) (snd g) = 0).
      { induction l as [|x l IH]; intros g Hz []; cbn [map] in Hz; change (list_sum (?a :: ?l)) with (a + list_sum l) in Hz; [subst; change (cnt g = 0); lia|apply IH; [lia|assumption]]. }
      destruct l1 as [|g l1].
      - destruct l2 as [|g l2]; [rewrite E in Hl; cbn in Hl; lia|]. exists g. split; [rewrite E; right; left; reflexivity|]. apply (Hz (g :: l2)); [lia|left; reflexivity].
      - exists g. split; [rewrite E; left; reflexivity|]. apply (Hz (g :: l1)); [lia|left; reflexivity]. }
    destruct Hg as (g & Hg & Zg). assert (Hin : In f fs) by (rewrite E; apply in_elt). specialize (Hb f g i Hin Hg Hi). lia.
  - unfold label_count in Z. destruct (filter _ (fst f)) as [|j l] eqn:E; [cbn in Z; lia|]. exists j.
    assert (X : In j (filter (fun j => Z.eqb (y j) (y i)) (fst f))) by (rewrite E; left; reflexivity). apply filter_In in X. destruct X as [X1 X2]. apply Z.eqb_eq in X2. auto.
Qed.

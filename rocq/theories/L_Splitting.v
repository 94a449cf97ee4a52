(** User-supplied splits: acceptance. *)
From Verif Require Export S_Splitting.
From Coq Require Import Lia.
Local Open Scope res_scope.

(** ** Sorting *)
Lemma zins_perm x l : Permutation (zins x l) (x :: l).
Proof.
  induction l as [|y r IH]; cbn; [reflexivity|]. destruct (Z.leb x y); [reflexivity|].
  rewrite IH. apply perm_swap.
Qed.
Lemma zsort_perm l : Permutation (zsort l) l.
Proof. induction l as [|x r IH]; cbn; [constructor|]. rewrite zins_perm. apply perm_skip, IH. Qed.
Lemma zins_sorted x l : Sorted Z.le l -> Sorted Z.le (zins x l).
Proof.
  induction 1 as [|y r Hs IH Hr]; cbn; [repeat constructor|]. destruct (Z.leb_spec x y) as [H|H].
  - repeat constructor; assumption.
  - constructor; [exact IH|]. destruct r as [|w r]; cbn; [constructor; lia|]. inversion Hr; subst.
    destruct (Z.leb x w); constructor; lia.
Qed.
Lemma zsort_sorted l : Sorted Z.le (zsort l).
Proof. induction l as [|x r IH]; cbn; [constructor|]. apply zins_sorted, IH. Qed.
Lemma zins_le_head x l : (forall y, In y l -> (x <= y)%Z) -> zins x l = x :: l.
Proof. destruct l as [|y r]; intro H; cbn; [reflexivity|]. specialize (H y (or_introl eq_refl)). apply Z.leb_le in H. rewrite H. reflexivity. Qed.
Lemma sorted_head x l : Sorted Z.le (x :: l) -> forall y, In y l -> (x <= y)%Z.
Proof.
  intro H. apply Sorted_StronglySorted in H; [|intros a b c; lia]. inversion H as [|? ? _ F]; subst.
  rewrite Forall_forall in F. exact F.
Qed.
Lemma zsort_id l : Sorted Z.le l -> zsort l = l.
Proof.
  induction l as [|x r IH]; intro H; cbn; [reflexivity|]. rewrite IH by (inversion H; assumption).
  apply zins_le_head. apply sorted_head. exact H.
Qed.
Lemma zsort_idem l : zsort (zsort l) = zsort l.
Proof. apply zsort_id, zsort_sorted. Qed.
Lemma zsort_perm_eq a b : Permutation a b -> zsort a = zsort b.
Proof.
  induction 1 as [|x l l' _ IH|x y l|l l' l'' _ IH1 _ IH2]; cbn; [reflexivity|rewrite IH; reflexivity| |congruence].
  generalize (zsort l). induction l0 as [|w r IH]; cbn.
  - destruct (Z.leb_spec y x), (Z.leb_spec x y); try lia; try reflexivity. assert (x = y) by lia. subst. reflexivity.
  - destruct (Z.leb_spec x w), (Z.leb_spec y w); cbn;
      repeat match goal with |- context [Z.leb ?a ?b] => destruct (Z.leb_spec a b) end; try lia; try reflexivity;
      try (assert (x = y) by lia; subst; reflexivity). f_equal. exact IH.
Qed.
Lemma zlist_eqb_spec a b : zlist_eqb a b = true <-> a = b.
Proof.
  revert b. induction a as [|x a IH]; intros [|y b]; cbn; try (split; [discriminate|congruence]); [split; auto|].
  rewrite andb_true_iff, Z.eqb_eq, IH. split; [intros [-> ->]; reflexivity|intro H; injection H as -> ->; auto].
Qed.
Lemma zmem_spec z l : zmem z l = true <-> In z l.
Proof. unfold zmem. rewrite existsb_exists. split; [intros (x & H & E); apply Z.eqb_eq in E; subst; exact H|intro H; exists z; split; [exact H|apply Z.eqb_refl]]. Qed.
Lemma nmem_spec i l : nmem i l = true <-> In i l.
Proof. unfold nmem. rewrite existsb_exists. split; [intros (x & H & E); apply Nat.eqb_eq in E; subst; exact H|intro H; exists i; split; [exact H|apply Nat.eqb_refl]]. Qed.
Lemma zuniq_nodup l : length (zuniq l) = length l <-> NoDup l.
Proof.
  unfold zuniq. split; intro H.
  - apply (NoDup_incl_NoDup (NoDup_nodup Z.eq_dec l)); [lia|]. intros x Hx. apply nodup_In in Hx. exact Hx.
  - rewrite nodup_fixed_point by exact H. reflexivity.
Qed.

(** ** Results *)
Lemma map_res_iff {A B} (g : A -> result B) l l' : map_res g l = Ok l' <-> Forall2 (fun x y => g x = Ok y) l l'.
Proof.
  revert l'. induction l as [|x l IH]; intro l'; cbn.
  - split; intro H; [injection H as <-; constructor|inversion H; reflexivity].
  - destruct (g x) as [y|e] eqn:E; cbn.
    + destruct (map_res g l) as [ys|e] eqn:E2; cbn.
      * split; intro H; [injection H as <-; constructor; [exact E|apply IH; reflexivity]|].
        inversion H as [|? y' ? l2 H1 H2]; subst. apply IH in H2. congruence.
      * split; intro H; [discriminate|]. inversion H as [|? y' ? l2 H1 H2]; subst. apply IH in H2. discriminate.
    + split; intro H; [discriminate|]. inversion H; subst. congruence.
Qed.
Lemma map_res_map {A B C} (h : C -> A) (g : A -> result B) l : map_res g (map h l) = map_res (fun x => g (h x)) l.
Proof. induction l as [|x l IH]; cbn; [reflexivity|]. rewrite IH. reflexivity. Qed.
Lemma map_res_fun {A B} (g : A -> result B) (h : A -> B) l : (forall x, In x l -> g x = Ok (h x)) -> map_res g l = Ok (map h l).
Proof. intro H. apply map_res_iff. induction l as [|x l IH]; cbn; constructor; [apply H; left; reflexivity|]. apply IH. intros; apply H; right; assumption. Qed.
Lemma require_ok {A} b e (k : result A) x : require b e k = Ok x <-> b = true /\ k = Ok x.
Proof. destruct b; cbn; split; [auto|intros [_ H]; exact H|discriminate|intros [H _]; discriminate]. Qed.

(** ** One tuple *)
Definition sortf (f : zfold) : zfold := (zsort (fst f), zsort (snd f)).
Definition tpl_ok (n : nat) (ci : bool) (f : zfold) : Prop :=
  (ci = true -> apart (fst f) (snd f)) /\ rows_ok n (fst f) /\ rows_ok n (snd f).
Lemma rows_ok_perm n a b : Permutation a b -> rows_ok n a -> rows_ok n b.
Proof. intros P [H1 H2]. split; [apply (Permutation_NoDup P H1)|]. intros z Hz. apply H2. apply (Permutation_in _ (Permutation_sym P)), Hz. Qed.
Lemma apart_perm {A} (a a' b b' : list A) : Permutation a a' -> Permutation b b' -> apart a b -> apart a' b'.
Proof. intros P Q H z Hz Hb. apply (H z); [apply (Permutation_in _ (Permutation_sym P)), Hz|apply (Permutation_in _ (Permutation_sym Q)), Hb]. Qed.
Lemma in_range_spec n l : in_range n l = true <-> forall z, In z l -> (0 <= z < Z.of_nat n)%Z.
Proof.
  unfold in_range. rewrite forallb_forall. split; intros H z Hz; specialize (H z Hz).
  - apply andb_true_iff in H. destruct H as [H1 H2]. apply Z.leb_le in H1. apply Z.ltb_lt in H2. lia.
  - apply andb_true_iff. split; [apply Z.leb_le|apply Z.ltb_lt]; lia.
Qed.
Lemma zmem_any_spec a b : zmem_any a b = false <-> apart a b.
Proof.
  unfold zmem_any. split; intro H.
  - intros z Ha Hb. assert (existsb (fun x => zmem x b) a = true) by (apply existsb_exists; exists z; split; [exact Ha|apply zmem_spec, Hb]). congruence.
  - destruct (existsb _ a) eqn:E; [|reflexivity]. apply existsb_exists in E. destruct E as (z & Ha & Hb). apply zmem_spec in Hb. destruct (H z Ha Hb).
Qed.
Lemma tpl_ok_sortf n ci f : tpl_ok n ci (sortf f) <-> tpl_ok n ci f.
Proof.
  unfold tpl_ok, sortf. cbn [fst snd]. pose proof (zsort_perm (fst f)) as P. pose proof (zsort_perm (snd f)) as Q.
  split; intros (H1 & H2 & H3).
  - split; [intro E; exact (apart_perm _ _ _ _ P Q (H1 E))|]. split; [exact (rows_ok_perm _ _ _ P H2)|exact (rows_ok_perm _ _ _ Q H3)].
  - split; [intro E; exact (apart_perm _ _ _ _ (Permutation_sym P) (Permutation_sym Q) (H1 E))|].
    split; [exact (rows_ok_perm _ _ _ (Permutation_sym P) H2)|exact (rows_ok_perm _ _ _ (Permutation_sym Q) H3)].
Qed.
Lemma check_tpl_spec n ci a b f : check_tpl n ci a b = Ok f <->
  exists g, a = IxInt (fst g) /\ b = IxInt (snd g) /\ f = sortf g /\ tpl_ok n ci g.
Proof.
  split.
  - destruct a as [tr|]; [|discriminate]. destruct b as [te|]; [|discriminate]. unfold check_tpl. intro H.
    rewrite !require_ok in H. destruct H as (H1 & H2 & H3 & H4 & H5 & H6).
    exists (tr, te). split; [reflexivity|]. split; [reflexivity|]. split; [unfold sortf; cbn [fst snd]; congruence|]. apply tpl_ok_sortf.
    apply Nat.eqb_eq in H2, H3. apply zuniq_nodup in H2, H3. rewrite in_range_spec in H4, H5. unfold tpl_ok, sortf. cbn [fst snd].
    split; [|split; split; assumption]. intro E. subst ci. apply negb_true_iff in H1. cbn [andb] in H1. apply zmem_any_spec in H1. exact H1.
  - intros ([tr te] & -> & -> & -> & H). apply tpl_ok_sortf in H. unfold tpl_ok, sortf in H. cbn [fst snd] in H.
    destruct H as (H1 & [H2 H4] & [H3 H5]). unfold check_tpl. cbn [fst snd]. rewrite !require_ok.
    split; [|split; [apply Nat.eqb_eq, zuniq_nodup; exact H2|split; [apply Nat.eqb_eq, zuniq_nodup; exact H3|split; [apply in_range_spec; exact H4|split; [apply in_range_spec; exact H5|reflexivity]]]]].
    destruct ci; [|reflexivity]. cbn [andb]. apply negb_true_iff, zmem_any_spec, H1. reflexivity.
Qed.
Lemma check_tuple_spec n ci t f : check_tuple n ci t = Ok f <-> exists g, t = as_tuple g /\ f = sortf g /\ tpl_ok n ci g.
Proof.
  unfold check_tuple, as_tuple. split.
  - destruct t as [|a [|b [|c t]]]; try discriminate. intro H. apply check_tpl_spec in H. destruct H as (g & -> & -> & H). exists g. auto.
  - intros (g & -> & H). apply check_tpl_spec. exists g. auto.
Qed.
Lemma check_smpl_split_spec n ci ts sm : check_smpl_split n ci ts = Ok sm <->
  exists fs, ts = map as_tuple fs /\ sm = map sortf fs /\ forall f, In f fs -> tpl_ok n ci f.
Proof.
  unfold check_smpl_split. rewrite map_res_iff. split.
  - induction 1 as [|t f0 ts sm H _ (fs & -> & -> & IH)]; [exists []; split; [reflexivity|]; split; [reflexivity|]; intros f []|].
    apply check_tuple_spec in H. destruct H as (g & -> & -> & H). exists (g :: fs). split; [reflexivity|]. split; [reflexivity|]. intros f [<- | Hf]; [exact H|apply IH; exact Hf].
  - intros (fs & -> & -> & H). induction fs as [|f fs IH]; cbn; constructor; [apply check_tuple_spec; exists f; auto using in_eq|].
    apply IH. intros; apply H; right; assumption.
Qed.
Lemma check_all_smpls_spec n ci tss sms : check_all_smpls n ci tss = Ok sms <->
  exists reps, tss = map (map as_tuple) reps /\ sms = map (map sortf) reps /\ forall r f, In r reps -> In f r -> tpl_ok n ci f.
Proof.
  unfold check_all_smpls. rewrite map_res_iff. split.
  - induction 1 as [|t f0 ts sm H _ (fs & -> & -> & IH)]; [exists []; split; [reflexivity|]; split; [reflexivity|]; intros r f []|].
    apply check_smpl_split_spec in H. destruct H as (g & -> & -> & H). exists (g :: fs). split; [reflexivity|]. split; [reflexivity|]. intros r f [<- | Hr] Hf; [apply H; exact Hf|apply (IH r); assumption].
  - intros (reps & -> & -> & H). induction reps as [|r reps IH]; cbn; constructor.
    + apply check_smpl_split_spec. exists r. split; [reflexivity|]. split; [reflexivity|]. intros f Hf. apply (H r); [left; reflexivity|exact Hf].
    + apply IH. intros r' f Hr Hf. apply (H r'); [right; exact Hr|exact Hf].
Qed.

(** ** Partition check *)
Lemma all_rows_in n z : In z (all_rows n) <-> (0 <= z < Z.of_nat n)%Z.
Proof.
  unfold all_rows. rewrite in_map_iff. split.
  - intros (i & <- & H). apply in_seq in H. lia.
  - intro H. exists (Z.to_nat z). split; [lia|]. apply in_seq. lia.
Qed.
Lemma all_rows_nodup n : NoDup (all_rows n).
Proof. unfold all_rows. apply FinFun.Injective_map_NoDup; [intros a b; lia|apply seq_NoDup]. Qed.
Lemma all_rows_length n : length (all_rows n) = n.
Proof. unfold all_rows. rewrite map_length, seq_length. reflexivity. Qed.
Lemma rows_ok_all n l : Permutation l (all_rows n) -> rows_ok n l.
Proof. intro P. split; [apply (Permutation_NoDup (Permutation_sym P)), all_rows_nodup|]. intros z Hz. apply all_rows_in. apply (Permutation_in _ P), Hz. Qed.
Lemma part_spec n sm : sm <> [] -> (forall f z, In f sm -> In z (snd f) -> (0 <= z < Z.of_nat n)%Z) ->
  exists b, check_is_partition n sm = Ok b /\ (b = true <-> Permutation (flat_map snd sm) (all_rows n)).
Proof.
  intros Hne Hr. unfold check_is_partition. destruct sm as [|f0 sm0] eqn:Esm; [congruence|]. rewrite <- Esm in *. clear Esm f0 sm0 Hne.
  set (test := flat_map snd sm). assert (Ht : forall z, In z test -> (0 <= z < Z.of_nat n)%Z).
  { intros z Hz. apply in_flat_map in Hz. destruct Hz as (f & Hf & Hz). apply (Hr f z Hf Hz). }
  destruct (Nat.eqb_spec (length test) n) as [E|E]; cbn [negb].
  - rewrite (map_res_fun _ Z.to_nat).
    2: { intros z Hz. unfold np_index. specialize (Ht z Hz). replace (Z.leb 0 z && Z.ltb z (Z.of_nat n)) with true; [reflexivity|].
         symmetry. apply andb_true_iff. split; [apply Z.leb_le|apply Z.ltb_lt]; lia. }
    cbn [bind]. eexists. split; [reflexivity|]. rewrite forallb_forall. split.
    + intro H. symmetry. apply NoDup_Permutation_bis; [apply all_rows_nodup|rewrite all_rows_length; lia|].
      intros z Hz. apply all_rows_in in Hz. specialize (H (Z.to_nat z)). rewrite in_seq in H. specialize (H ltac:(lia)).
      change (existsb (Nat.eqb (Z.to_nat z)) ?l) with (nmem (Z.to_nat z) l) in H. apply nmem_spec, in_map_iff in H.
      destruct H as (w & Ew & Hw). specialize (Ht w Hw). assert (w = z) by lia. subst. exact Hw.
    + intros P i Hi. apply in_seq in Hi. change (existsb (Nat.eqb i) ?l) with (nmem i l). apply nmem_spec, in_map_iff.
      exists (Z.of_nat i). split; [lia|]. apply (Permutation_in _ (Permutation_sym P)), all_rows_in. lia.
  - eexists. split; [reflexivity|]. split; [discriminate|]. intro P. apply Permutation_length in P. rewrite all_rows_length in P. congruence.
Qed.
Lemma flat_snd_sortf fs : Permutation (flat_map snd (map sortf fs)) (flat_map snd fs).
Proof. induction fs as [|f fs IH]; cbn; [constructor|]. apply Permutation_app; [apply zsort_perm|exact IH]. Qed.
Lemma part_sortf n fs ci : fs <> [] -> (forall f, In f fs -> tpl_ok n ci f) ->
  exists b, check_is_partition n (map sortf fs) = Ok b /\ (b = true <-> Permutation (flat_map snd fs) (all_rows n)).
Proof.
  intros Hne H. destruct (part_spec n (map sortf fs)) as (b & E & Hb).
  - destruct fs; [congruence|discriminate].
  - intros f z Hf Hz. apply in_map_iff in Hf. destruct Hf as (g & <- & Hg). specialize (H g Hg).
    apply tpl_ok_sortf in H. destruct H as (_ & _ & [_ H]). apply H, Hz.
  - exists b. split; [exact E|]. rewrite Hb. split; intro P; rewrite <- P; [symmetry|]; apply flat_snd_sortf.
Qed.

(** ** Shapes of the argument *)
Lemma as_tuples_spec l ts : as_tuples l = Some ts <-> l = map STup ts.
Proof.
  revert ts. induction l as [|x l IH]; intro ts; cbn.
  - split; intro H; [injection H as <-; reflexivity|destruct ts; [reflexivity|discriminate]].
  - destruct x as [t|t|]; try (split; intro H; [discriminate|destruct ts; discriminate]).
    destruct (as_tuples l) as [r|] eqn:E.
    + split; intro H; [injection H as <-; cbn; f_equal; apply IH; reflexivity|]. destruct ts as [|t' ts]; [discriminate|].
      cbn in H. injection H as -> H. apply IH in H. congruence.
    + split; intro H; [discriminate|]. destruct ts as [|t' ts]; [discriminate|]. cbn in H. injection H as -> H. apply IH in H. discriminate.
Qed.
Lemma as_lists_spec l ts : as_lists l = Some ts <-> l = map SList ts.
Proof.
  revert ts. induction l as [|x l IH]; intro ts; cbn.
  - split; intro H; [injection H as <-; reflexivity|destruct ts; [reflexivity|discriminate]].
  - destruct x as [t|t|]; try (split; intro H; [discriminate|destruct ts; discriminate]).
    destruct (as_lists l) as [r|] eqn:E.
    + split; intro H; [injection H as <-; cbn; f_equal; apply IH; reflexivity|]. destruct ts as [|t' ts]; [discriminate|].
      cbn in H. injection H as -> H. apply IH in H. congruence.
    + split; intro H; [discriminate|]. destruct ts as [|t' ts]; [discriminate|]. cbn in H. injection H as -> H. apply IH in H. discriminate.
Qed.
Lemma all_some_spec {A} (l : list (option A)) r : all_some l = Some r <-> l = map Some r.
Proof.
  revert r. induction l as [|x l IH]; intro r; cbn.
  - split; intro H; [injection H as <-; reflexivity|destruct r; [reflexivity|discriminate]].
  - destruct x as [a|]; [|split; intro H; [discriminate|destruct r; discriminate]].
    destruct (all_some l) as [q|] eqn:E.
    + split; intro H; [injection H as <-; cbn; f_equal; apply IH; reflexivity|]. destruct r as [|b r]; [discriminate|]. cbn in H.
      assert (a = b) by congruence. assert (l = map Some r) as H' by congruence. apply IH in H'. congruence.
    + split; intro H; [discriminate|]. destruct r as [|b r]; [discriminate|]. cbn in H. assert (l = map Some r) as H' by congruence. apply IH in H'. discriminate.
Qed.
Lemma map_as_tuples ls tss : map as_tuples ls = map Some tss <-> ls = map (map STup) tss.
Proof.
  revert tss. induction ls as [|l ls IH]; intros [|t tss]; cbn; split; intro H; try discriminate; try reflexivity.
  - injection H as H1 H2. apply as_tuples_spec in H1. apply IH in H2. congruence.
  - injection H as H1 H2. apply as_tuples_spec in H1. apply IH in H2. congruence.
Qed.
Lemma tup_as f : tup f = STup (as_tuple f).
Proof. reflexivity. Qed.
Lemma map_tup fs : map tup fs = map STup (map as_tuple fs).
Proof. rewrite map_map. reflexivity. Qed.
Lemma pairs_as fs : forallb is_pair (map as_tuple fs) = true.
Proof. induction fs; cbn; auto. Qed.
Lemma as_tuple_sortf_inj fs gs : map as_tuple (map sortf fs) = map as_tuple gs -> gs = map sortf fs.
Proof.
  revert gs. induction fs as [|f fs IH]; intros [|g gs] H; cbn in *; try discriminate; [reflexivity|].
  injection H as H1 H2 H3. apply IH in H3. subst. f_equal. destruct g as [g1 g2]. unfold sortf. cbn in *. congruence.
Qed.
Lemma sortf_idem f : sortf (sortf f) = sortf f.
Proof. unfold sortf. cbn. rewrite !zsort_idem. reflexivity. Qed.
Lemma sorted_of_sortf f : sorted_of f (sortf f).
Proof. unfold sorted_of, sortf. cbn. split; [symmetry; apply zsort_perm|]. split; [symmetry; apply zsort_perm|]. split; apply zsort_sorted. Qed.
Lemma stored_sortf reps : Forall2 (Forall2 sorted_of) reps (map (map sortf) reps).
Proof. induction reps as [|r reps IH]; cbn; constructor; [|exact IH]. induction r as [|f r IHr]; cbn; constructor; [apply sorted_of_sortf|exact IHr]. Qed.
(** Second check of already checked folds. *)
Lemma check_all_again n reps : (forall r f, In r reps -> In f r -> tpl_ok n true f) ->
  check_all_smpls n true (map (map as_tuple) (map (map sortf) reps)) = Ok (map (map sortf) reps).
Proof.
  intro H. apply check_all_smpls_spec. exists (map (map sortf) reps). split; [reflexivity|]. split.
  - rewrite map_map. apply map_ext. intro r. rewrite map_map. apply map_ext. intro f. symmetry. apply sortf_idem.
  - intros r f Hr Hf. apply in_map_iff in Hr. destruct Hr as (r0 & <- & Hr). apply in_map_iff in Hf. destruct Hf as (f0 & <- & Hf).
    apply tpl_ok_sortf. apply (H r0 f0 Hr Hf).
Qed.
Lemma check_all_again_inv n reps sms : check_all_smpls n true (map (map as_tuple) (map (map sortf) reps)) = Ok sms ->
  sms = map (map sortf) reps /\ forall r f, In r reps -> In f r -> tpl_ok n true f.
Proof.
  intro H. apply check_all_smpls_spec in H. destruct H as (q & E & -> & Hq).
  assert (Eq : q = map (map sortf) reps).
  { clear Hq. revert q E. induction reps as [|r reps IH]; intros [|g q] E; cbn in E; try discriminate; [reflexivity|].
    injection E as E1 E2. cbn. rewrite (IH q E2). f_equal. apply as_tuple_sortf_inj. exact E1. }
  subst q. split.
  - rewrite map_map. apply map_ext. intro r. rewrite map_map. apply map_ext. apply sortf_idem.
  - intros r f Hr Hf. apply tpl_ok_sortf. apply (Hq (map sortf r)); [apply in_map; exact Hr|apply in_map; exact Hf].
Qed.

Lemma swap_part n f : tpl_ok n false f ->
  exists b, check_is_partition n [swap_fold (sortf f)] = Ok b /\ (b = true <-> Permutation (fst f) (all_rows n)).
Proof.
  intro H. destruct (part_spec n [swap_fold (sortf f)]) as (b & E & Hb); [discriminate| |].
  - intros g z [<- | []] Hz. cbn in Hz. destruct H as (_ & [_ H] & _). apply H. apply (Permutation_in _ (zsort_perm _)), Hz.
  - exists b. split; [exact E|]. rewrite Hb. cbn. rewrite app_nil_r. split; intro P; rewrite <- P; [symmetry|]; apply zsort_perm.
Qed.
Lemma not_nested_tup f : ~ is_nested (tup f).
Proof. intros (l & r & H). discriminate. Qed.
Lemma not_nested_list fs : ~ is_nested (SList (map tup fs)).
Proof. intros (l & r & H). destruct fs; discriminate. Qed.
Lemma not_tuple_list l : ~ is_tuple (SList l).
Proof. intros (t & H). discriminate. Qed.
Lemma weaken_ci n f : tpl_ok n true f -> tpl_ok n false f.
Proof. intros (_ & H). split; [discriminate|exact H]. Qed.

(** ** Acceptance *)
Lemma accept_sound n s ck : check_sample_splitting n s = Ok ck -> exists reps, good_split n s reps /\ stored reps ck.
Proof.
  destruct s as [t|l|]; cbn [check_sample_splitting]; intro H; [| |discriminate].
  - apply require_ok in H. destruct H as [_ H]. destruct (check_tuple n false t) as [f|e] eqn:E; [|discriminate]. cbn [bind] in H.
    apply check_tuple_spec in E. destruct E as (g & -> & -> & Hg).
    destruct (part_sortf n [g] false) as (b1 & E1 & B1); [discriminate|intros f [<- | []]; exact Hg|]. cbn [map] in E1. rewrite E1 in H. cbn [bind] in H.
    destruct (swap_part n g Hg) as (b2 & E2 & B2). rewrite E2 in H. cbn [bind] in H. destruct b1, b2; cbn [andb] in H; try discriminate.
    injection H as <-. exists [[g]]. split.
    + split; [exact (w_tuple g)|]. left. split; [apply not_nested_tup|]. destruct g as [tr te]. exists tr, te. split; [reflexivity|].
      split; [apply B2; reflexivity|]. pose proof (proj1 B1 eq_refl) as P. cbn in P. rewrite app_nil_r in P. exact P.
    + split; [exact (stored_sortf [[g]])|]. split; [reflexivity|]. intros r [<- | []]. reflexivity.
  - destruct (as_tuples l) as [ts|] eqn:El.
    + apply as_tuples_spec in El. subst l. apply require_ok in H. destruct H as [_ H].
      destruct (check_smpl_split n false ts) as [sm|e] eqn:E; [|discriminate]. cbn [bind] in H.
      apply check_smpl_split_spec in E. destruct E as (fs & -> & -> & Hfs). rewrite <- map_tup.
      destruct fs as [|f0 fs0] eqn:Efs; [discriminate|]. rewrite <- Efs in *. assert (Hne : fs <> []) by (rewrite Efs; discriminate).
      destruct (part_sortf n fs false Hne Hfs) as (b & E & B). rewrite E in H. cbn [bind] in H. destruct b; [|discriminate].
      pose proof (proj1 B eq_refl) as P. assert (N0 : nth 0 (map sortf fs) ([], []) = sortf f0) by (rewrite Efs; reflexivity). rewrite N0 in H.
      assert (H0 : tpl_ok n false f0) by (apply Hfs; rewrite Efs; left; reflexivity).
      destruct (swap_part n f0 H0) as (b2 & E2 & B2). rewrite E2 in H. cbn [bind] in H. rewrite map_length in H.
      destruct (Nat.eqb (length fs) 1 && b2) eqn:Eb.
      * injection H as <-. apply andb_true_iff in Eb. destruct Eb as [L ->]. apply Nat.eqb_eq in L.
        assert (fs0 = []) by (rewrite Efs in L; destruct fs0; [reflexivity|discriminate]). subst fs0. subst fs. exists [[f0]]. split.
        -- split; [exact (w_list [f0])|]. left. split; [apply not_nested_list|]. destruct f0 as [tr te]. exists tr, te. split; [reflexivity|].
           split; [apply B2; reflexivity|]. cbn in P. rewrite app_nil_r in P. exact P.
        -- split; [exact (stored_sortf [[f0]])|]. split; [reflexivity|]. intros r [<- | []]. reflexivity.
      * destruct (check_all_smpls n true [map as_tuple (map sortf fs)]) as [sm2|e] eqn:E3; [|discriminate]. cbn [bind] in H. injection H as <-.
        apply (check_all_again_inv n [fs]) in E3. destruct E3 as [-> Hd]. exists [fs]. split.
        -- split; [exact (w_list fs)|]. right. split; [apply not_tuple_list|]. split; [exists (length fs); intros r [<- | []]; reflexivity|].
           intros r [<- | []]. split; [exact Hne|]. split; [exact P|]. intros f Hf. destruct (Hd fs f (or_introl eq_refl) Hf) as (D1 & D2 & D3). auto.
        -- split; [exact (stored_sortf [fs])|]. split; [reflexivity|]. intros r [<- | []]. reflexivity.
    + destruct (as_lists l) as [ls|] eqn:Els; [|discriminate]. apply as_lists_spec in Els. subst l.
      destruct (all_some (map as_tuples ls)) as [tss|] eqn:Ets; [|discriminate]. apply all_some_spec, map_as_tuples in Ets. subst ls.
      rewrite !require_ok in H. destruct H as (_ & Hk & H).
      destruct (check_all_smpls n false tss) as [sms|e] eqn:E; [|discriminate]. cbn [bind] in H.
      apply check_all_smpls_spec in E. destruct E as (reps & -> & -> & Hreps).
      destruct (map_res (check_is_partition n) (map (map sortf) reps)) as [ps|e] eqn:Ep; [|discriminate]. cbn [bind] in H.
      destruct (forallb (fun b => b) ps) eqn:Eall; [|discriminate].
      destruct (check_all_smpls n true (map (map as_tuple) (map (map sortf) reps))) as [sms2|e] eqn:E2; [|discriminate]. cbn [bind] in H. injection H as <-.
      apply check_all_again_inv in E2. destruct E2 as [-> Hd]. apply map_res_iff in Ep.
      assert (Hpart : forall r, In r reps -> r <> [] /\ Permutation (flat_map snd r) (all_rows n)).
      { clear Hk Hd El. revert ps Ep Eall. induction reps as [|r reps IH]; intros ps Ep Eall r' [] .
        - subst r'. inversion Ep as [|? b ? bs Hb Hbs]; subst. cbn in Eall. apply andb_true_iff in Eall. destruct Eall as [-> _].
          destruct r as [|f r]; [discriminate|]. split; [discriminate|].
          destruct (part_sortf n (f :: r) false) as (b & Eb & B); [discriminate|intros g Hg; apply (Hreps (f :: r)); [left; reflexivity|exact Hg]|].
          apply B. congruence.
        - inversion Ep as [|? b ? bs Hb Hbs]; subst. cbn in Eall. apply andb_true_iff in Eall. destruct Eall as [_ Eall].
          apply (IH ltac:(intros r0 f0 Hr0; apply Hreps; right; exact Hr0) bs Hbs Eall r'). assumption. }
      assert (Hrn : reps <> []). { intros ->. cbn in El. discriminate. }
      exists reps. split.
      * split.
        -- replace (map SList (map (map STup) (map (map as_tuple) reps))) with (map (fun fs => SList (map tup fs)) reps).
           ++ constructor; [exact Hrn|]. intros r Hr. apply (Hpart r Hr).
           ++ rewrite !map_map. apply map_ext. intro r. rewrite map_tup. reflexivity.
        -- right. split; [apply not_tuple_list|]. split.
           ++ exists (length (nth 0 (map (map as_tuple) reps) [])). intros r Hr. rewrite forallb_forall in Hk. specialize (Hk (map as_tuple r) (in_map _ _ _ Hr)).
              apply Nat.eqb_eq in Hk. rewrite map_length in Hk. exact Hk.
           ++ intros r Hr. destruct (Hpart r Hr) as [P1 P2]. split; [exact P1|]. split; [exact P2|]. intros f Hf. destruct (Hd r f Hr Hf) as (D1 & D2 & D3). auto.
      * split; [apply stored_sortf|]. cbn [ck_n_rep ck_n_folds]. rewrite map_length. split; [reflexivity|]. intros r Hr.
        rewrite forallb_forall in Hk. specialize (Hk (map as_tuple r) (in_map _ _ _ Hr)). apply Nat.eqb_eq in Hk. rewrite map_length in Hk. symmetry. exact Hk.
Qed.
Lemma cross_fit_tpl n r f : cross_fit n r -> In f r -> tpl_ok n true f.
Proof. intros (_ & _ & H) Hf. destruct (H f Hf) as (H1 & H2 & H3). split; [intros _; exact H3|auto]. Qed.
Lemma accept_complete n s reps : good_split n s reps -> exists ck, check_sample_splitting n s = Ok ck /\ stored reps ck.
Proof.
  intros [W G]. destruct W as [f|fs|reps Hne Hin].
  - destruct G as [[_ (tr & te & E & P & Q)]|[H _]]; [|destruct H; exists (as_tuple f); reflexivity].
    assert (f = (tr, te)) by congruence. subst f.
    assert (Hg : tpl_ok n false (tr, te)) by (split; [discriminate|]; split; apply rows_ok_all; assumption).
    unfold tup. cbn [check_sample_splitting]. change [IxInt (fst (tr, te)); IxInt (snd (tr, te))] with (as_tuple (tr, te)).
    assert (Ec : check_tuple n false (as_tuple (tr, te)) = Ok (sortf (tr, te))) by (apply check_tuple_spec; exists (tr, te); auto).
    rewrite Ec. cbn [is_pair as_tuple length Nat.eqb require bind].
    destruct (part_sortf n [(tr, te)] false) as (b1 & E1 & B1); [discriminate|intros g [<- | []]; exact Hg|]. cbn [map] in E1. rewrite E1. cbn [bind].
    destruct (swap_part n _ Hg) as (b2 & E2 & B2). rewrite E2. cbn [bind].
    assert (b1 = true) as -> by (apply B1; cbn; rewrite app_nil_r; exact Q). assert (b2 = true) as -> by (apply B2; exact P). cbn [andb].
    eexists. split; [reflexivity|]. split; [exact (stored_sortf [[(tr, te)]])|]. split; [reflexivity|]. intros r [<- | []]. reflexivity.
  - cbn [check_sample_splitting]. rewrite map_tup. assert (Ea : as_tuples (map STup (map as_tuple fs)) = Some (map as_tuple fs)) by (apply as_tuples_spec; reflexivity).
    rewrite Ea, pairs_as. cbn [require].
    assert (Hok : fs <> [] /\ Permutation (flat_map snd fs) (all_rows n) /\ (forall f, In f fs -> tpl_ok n false f) /\
       ((exists tr te, fs = [(tr, te)] /\ Permutation tr (all_rows n)) \/ (forall f, In f fs -> tpl_ok n true f))).
    { destruct G as [[_ (tr & te & E & P & Q)]|(_ & _ & H)].
      - assert (fs = [(tr, te)]) by congruence. subst fs. split; [discriminate|]. split; [cbn; rewrite app_nil_r; exact Q|]. split.
        + intros f [<- | []]. split; [discriminate|]. split; apply rows_ok_all; assumption.
        + left. exists tr, te. auto.
      - specialize (H fs (or_introl eq_refl)). pose proof H as (H1 & H2 & _). split; [exact H1|]. split; [exact H2|]. split.
        + intros f Hf. apply weaken_ci. apply (cross_fit_tpl n fs); assumption.
        + right. intros f Hf. apply (cross_fit_tpl n fs); assumption. }
    destruct Hok as (Hne & P & Hf & Hcase).
    assert (Ec : check_smpl_split n false (map as_tuple fs) = Ok (map sortf fs)) by (apply check_smpl_split_spec; exists fs; auto). rewrite Ec. cbn [bind].
    destruct (part_sortf n fs false Hne Hf) as (b & E & B). rewrite E. cbn [bind]. assert (b = true) as -> by (apply B; exact P).
    destruct fs as [|f0 fs0] eqn:Efs; [congruence|]. rewrite <- Efs in *. assert (N0 : nth 0 (map sortf fs) ([], []) = sortf f0) by (rewrite Efs; reflexivity). rewrite N0.
    destruct (swap_part n f0) as (b2 & E2 & B2); [apply Hf; rewrite Efs; left; reflexivity|]. rewrite E2. cbn [bind]. rewrite map_length.
    destruct (Nat.eqb (length fs) 1 && b2) eqn:Eb.
    + apply andb_true_iff in Eb. destruct Eb as [L _]. apply Nat.eqb_eq in L. eexists. split; [reflexivity|]. split; [exact (stored_sortf [fs])|]. split; [reflexivity|]. intros r [<- | []]. symmetry. exact L.
    + assert (Hd : forall f, In f fs -> tpl_ok n true f).
      { destruct Hcase as [(tr & te & E3 & P3)|Hd]; [|exact Hd]. exfalso. rewrite E3 in Efs. injection Efs as <- <-. assert (b2 = true) as -> by (apply B2; exact P3).
        rewrite E3 in Eb. discriminate. }
      change [map as_tuple (map sortf fs)] with (map (map as_tuple) (map (map sortf) [fs])).
      rewrite (check_all_again n [fs]) by (intros r f [<- | []]; apply Hd). cbn [bind]. eexists. split; [reflexivity|].
      split; [exact (stored_sortf [fs])|]. split; [reflexivity|]. intros r [<- | []]. reflexivity.
  - cbn [check_sample_splitting]. destruct G as [[H _]|(_ & (k & Hk) & H)].
    { exfalso. apply H. destruct reps as [|r reps]; [congruence|]. cbn. eexists _, _. reflexivity. }
    assert (Ea : as_tuples (map (fun fs => SList (map tup fs)) reps) = None).
    { destruct (as_tuples _) as [ts|] eqn:E; [|reflexivity]. apply as_tuples_spec in E. destruct reps, ts; try congruence; discriminate. }
    rewrite Ea. assert (El : map (fun fs => SList (map tup fs)) reps = map SList (map (map STup) (map (map as_tuple) reps))).
    { rewrite !map_map. apply map_ext. intro r. rewrite map_tup. reflexivity. }
    rewrite El. rewrite (proj2 (as_lists_spec _ _) eq_refl). rewrite (proj2 (all_some_spec _ _) (proj2 (map_as_tuples _ _) eq_refl)).
    assert (Epair : forallb (forallb is_pair) (map (map as_tuple) reps) = true).
    { apply forallb_forall. intros x Hx. apply in_map_iff in Hx. destruct Hx as (r & <- & _). apply pairs_as. }
    assert (Len : length (nth 0 (map (map as_tuple) reps) []) = k).
    { destruct reps as [|r reps]; [congruence|]. cbn. rewrite map_length. apply Hk. left. reflexivity. }
    rewrite Len, Epair. cbn [require].
    assert (Ek : forallb (fun s => Nat.eqb (length s) k) (map (map as_tuple) reps) = true).
    { apply forallb_forall. intros x Hx. apply in_map_iff in Hx. destruct Hx as (r & <- & Hr). rewrite map_length. apply Nat.eqb_eq, Hk, Hr. }
    rewrite Ek. cbn [require].
    assert (Ec : check_all_smpls n false (map (map as_tuple) reps) = Ok (map (map sortf) reps)).
    { apply check_all_smpls_spec. exists reps. split; [reflexivity|]. split; [reflexivity|]. intros r f Hr Hf. apply weaken_ci. apply (cross_fit_tpl n r); auto. }
    rewrite Ec. cbn [bind].
    rewrite (map_res_fun _ (fun _ => true)).
    2: { intros sm Hsm. apply in_map_iff in Hsm. destruct Hsm as (r & <- & Hr). pose proof (H r Hr) as Cf. destruct (part_sortf n r true (proj1 Cf)) as (b & E & B).
         - intros f Hf. apply (cross_fit_tpl n r); assumption.
         - rewrite E. f_equal. apply B. apply Cf. }
    cbn [bind]. assert (Ett : forallb (fun b => b) (map (fun _ => true) (map (map sortf) reps)) = true).
    { apply forallb_forall. intros b Hb. apply in_map_iff in Hb. destruct Hb as (? & <- & _). reflexivity. }
    rewrite Ett, check_all_again by (intros r f Hr Hf; apply (cross_fit_tpl n r); auto). cbn [bind]. eexists. split; [reflexivity|].
    split; [apply stored_sortf|]. cbn [ck_n_rep ck_n_folds]. rewrite map_length. split; [reflexivity|]. intros r Hr. symmetry. apply Hk, Hr.
Qed.

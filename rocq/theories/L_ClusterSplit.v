(** Cluster cells and subgroup samples. *)
From Verif Require Export L_Resampling.
From Coq Require Import Lia.
Local Open Scope res_scope.

Lemma np_unique_in z l : In z (np_unique l) <-> In z l.
Proof.
  unfold np_unique, zuniq. split; intro H.
  - apply (Permutation_in _ (zsort_perm _)), nodup_In in H. exact H.
  - apply (Permutation_in _ (Permutation_sym (zsort_perm _))), nodup_In. exact H.
Qed.
Lemma np_unique_nodup l : NoDup (np_unique l).
Proof. apply (Permutation_NoDup (Permutation_sym (zsort_perm _))), NoDup_nodup. Qed.

(** What the folds of one cluster variable satisfy. *)
Definition var_folds (n k : nat) (cv : nat -> Z) (vf : list (list Z * list Z)) : Prop :=
  length vf = k /\
  (forall i, i < n -> exists j, j < k /\ forall j', j' < k -> (In (cv i) (snd (nth j' vf ([], []))) <-> j' = j)) /\
  (forall p, In p vf -> apart (fst p) (snd p)) /\
  (forall p, In p vf -> Permutation (fst p ++ snd p) (np_unique (map cv (seq 0 n)))).

Lemma take_ix_in (l : list Z) ix z : NoDup l -> (forall i, In i ix -> i < length l) ->
  (In z (take_ix l ix) <-> exists p, In p ix /\ nth p l 0%Z = z).
Proof. intros Hn Hx. unfold take_ix. rewrite in_map_iff. split; intros (p & A & B); exists p; auto. Qed.
Lemma proper_split_unique n fs i : proper_split n fs -> i < n ->
  exists j, j < length fs /\ forall j', j' < length fs -> (In i (snd (nth j' fs ([], []))) <-> j' = j).
Proof.
  intros [Hp _] Hi. assert (Hn : NoDup (flat_map snd fs)) by (apply (Permutation_NoDup (Permutation_sym Hp)), seq_NoDup).
  assert (X : In i (flat_map snd fs)) by (apply (Permutation_in _ (Permutation_sym Hp)), in_seq; lia). clear Hp.
  induction fs as [|f fs IH]; [destruct X|]. cbn in Hn, X. destruct (in_dec Nat.eq_dec i (snd f)) as [H|H].
  - exists 0. split; [cbn; lia|]. intros j' Hj'. destruct j' as [|j']; cbn; [tauto|]. split; [|discriminate]. intro Y. exfalso.
    assert (Z : In i (flat_map snd fs)) by (apply in_flat_map; exists (nth j' fs ([], [])); split; [apply nth_In; cbn in Hj'; lia|exact Y]).
    clear - Hn H Z. induction (snd f) as [|x l IH]; [destruct H|]. cbn in Hn. inversion Hn as [|? ? Hx Hn']; subst. destruct H as [-> | H]; [apply Hx, in_app_iff; right; exact Z|auto].
  - destruct IH as (j & J1 & J2); [apply nodup_app_r in Hn; exact Hn|apply in_app_iff in X; tauto|]. exists (S j). split; [cbn; lia|]. intros j' Hj'. destruct j' as [|j']; cbn; [split; [tauto|discriminate]|].
    rewrite J2 by (cbn in Hj'; lia). split; congruence.
Qed.
Lemma NoDup_nth_inj (l : list Z) p q : NoDup l -> p < length l -> q < length l -> nth p l 0%Z = nth q l 0%Z -> p = q.
Proof. intros Hn Hp Hq E. apply (proj1 (NoDup_nth l 0%Z) Hn p q Hp Hq E). Qed.
Lemma proper_fold_range n fs f i : proper_split n fs -> In f fs -> In i (snd f) -> i < n.
Proof. intros [Hp _] Hf Hi. assert (X : In i (flat_map snd fs)) by (apply in_flat_map; eauto). apply (Permutation_in _ Hp), in_seq in X. lia. Qed.
Lemma proper_fold_perm n fs f : proper_split n fs -> In f fs -> Permutation (fst f ++ snd f) (seq 0 n).
Proof.
  intros Hs Hf. pose proof (proper_fold_range n fs f) as Hr. destruct Hs as [Hp Hs]. destruct (Hs f Hf) as (S1 & S2 & C).
  apply NoDup_Permutation; [|apply seq_NoDup|].
  - apply sorted_lt_nodup in S1, S2. assert (D : forall j, In j (fst f) -> ~ In j (snd f)) by (intros j Hj; apply C, Hj). clear - S1 S2 D.
    induction (fst f) as [|x l IH]; cbn; [exact S2|]. inversion S1; subst. constructor; [rewrite in_app_iff; intros [X|X]; [auto|apply (D x); [left; reflexivity|exact X]]|].
    apply IH; [assumption|]. intros j Hj. apply D. right. exact Hj.
  - intro j. rewrite in_app_iff, in_seq, C. destruct (in_dec Nat.eq_dec j (snd f)) as [H|H]; [specialize (Hr j (conj Hp Hs) Hf H); intuition lia|intuition lia].
Qed.
Lemma cluster_var_spec n k cv perm vf : (forall l, Permutation (perm l) l) -> cluster_var_folds n k cv perm = Ok vf -> var_folds n k cv vf.
Proof.
  intros Hp H. unfold cluster_var_folds in H. set (cl := np_unique (map cv (seq 0 n))) in *.
  destruct (kfold (length cl) k (perm (seq 0 (length cl)))) as [fs|e] eqn:E; [|discriminate]. cbn [bind] in H. injection H as <-.
  apply kfold_spec in E; [|apply Hp]. destruct E as (L & Ps & _). pose proof (np_unique_nodup (map cv (seq 0 n))) as Hn. fold cl in Hn.
  assert (Hte : forall f i, In f fs -> In i (snd f) -> i < length cl) by (intros f i; apply proper_fold_range; exact Ps).
  assert (Htr : forall f i, In f fs -> In i (fst f) -> i < length cl) by (intros f i Hf Hi; apply (proj2 Ps f Hf), Hi).
  split; [rewrite map_length; exact L|]. split; [|split].
  - intros i Hi. assert (X : In (cv i) cl) by (apply np_unique_in, in_map, in_seq; lia). destruct (In_nth cl (cv i) 0%Z X) as (p & Lp & Ep).
    destruct (proper_split_unique _ fs p Ps Lp) as (j & J1 & J2). exists j. split; [lia|]. intros j' Hj'. rewrite <- J2 by lia.
    assert (Hf : In (nth j' fs ([], [])) fs) by (apply nth_In; lia).
    change (@nil Z, @nil Z) with ((fun f : fold => (take_ix cl (fst f), take_ix cl (snd f))) ([], [])). rewrite map_nth. cbn [snd].
    rewrite take_ix_in by (try exact Hn; intros; apply (Hte (nth j' fs ([], []))); assumption). split.
    + intros (q & Q1 & Q2). assert (q = p); [|subst; exact Q1]. apply (NoDup_nth_inj cl); [exact Hn|apply (Hte _ _ Hf Q1)|exact Lp|congruence].
    + intro Q. exists p. auto.
  - intros q Hq z Ha Hb. apply in_map_iff in Hq. destruct Hq as (f & <- & Hf). cbn [fst snd] in *.
    apply take_ix_in in Ha; [|exact Hn|intros; apply (Htr f); assumption]. apply take_ix_in in Hb; [|exact Hn|intros; apply (Hte f); assumption].
    destruct Ha as (a & A1 & A2), Hb as (b & B1 & B2). assert (a = b) by (apply (NoDup_nth_inj cl); [exact Hn|apply (Htr _ _ Hf A1)|apply (Hte _ _ Hf B1)|congruence]).
    subst b. apply (proj2 Ps f Hf) in A1. tauto.
  - intros q Hq. apply in_map_iff in Hq. destruct Hq as (f & <- & Hf). cbn [fst snd]. unfold take_ix. rewrite <- map_app.
    rewrite (Permutation_map _ (proper_fold_perm _ fs f Ps Hf)). clear. 
    assert (E : map (fun i => nth i cl 0%Z) (seq 0 (length cl)) = cl); [|rewrite E; reflexivity].
    induction cl as [|x l IH]; [reflexivity|]. cbn [length seq map nth]. f_equal. rewrite <- seq_shift, map_map. exact IH.
Qed.

(** The cartesian product. *)
Lemma cart_len k v : length (cart k v) = k ^ v.
Proof.
  induction v as [|v IH]; [reflexivity|]. cbn [cart Nat.pow]. rewrite flat_map_len. rewrite (list_sum_ext _ (fun _ => k ^ v)) by (intros; rewrite map_length; exact IH).
  generalize (k ^ v). clear IH. intro m. generalize 0. induction k as [|k IHk]; intro a; [reflexivity|]. cbn [seq map list_sum fold_right]. specialize (IHk (S a)). unfold list_sum in *. cbn [Nat.mul]. lia.
Qed.
Lemma cart_in k v row : In row (cart k v) <-> length row = v /\ forall j, In j row -> j < k.
Proof.
  revert row. induction v as [|v IH]; intro row; cbn [cart].
  - split; [intros [<- | []]; split; [reflexivity|intros ? []]|]. intros [H _]. destruct row; [left; reflexivity|discriminate].
  - rewrite in_flat_map. split.
    + intros (i & Hi & H). apply in_map_iff in H. destruct H as (r & <- & H). apply IH in H. destruct H as [H1 H2]. apply in_seq in Hi. split; [cbn; congruence|]. intros j [<- | Hj]; [lia|auto].
    + intros [H1 H2]. destruct row as [|i r]; [discriminate|]. exists i. split; [apply in_seq; specialize (H2 i (or_introl eq_refl)); lia|]. apply in_map, IH. split; [cbn in H1; congruence|]. intros j Hj. apply H2. right. exact Hj.
Qed.
Lemma nodup_flat_map {A B} (f : A -> list B) l : NoDup l -> (forall x, In x l -> NoDup (f x)) -> (forall x y b, In x l -> In y l -> In b (f x) -> In b (f y) -> x = y) -> NoDup (flat_map f l).
Proof.
  induction l as [|x l IH]; intros Hn H1 H2; cbn; [constructor|]. inversion Hn as [|? ? Hx Hn']; subst.
  assert (IH' : NoDup (flat_map f l)) by (apply IH; [exact Hn'|intros; apply H1; right; assumption|intros; eapply H2; try right; eassumption]).
  assert (D : forall b, In b (f x) -> ~ In b (flat_map f l)).
  { intros b Hb Hc. apply in_flat_map in Hc. destruct Hc as (y & Hy & Hc). apply Hx. rewrite (H2 x y b); [exact Hy|left; reflexivity|right; exact Hy|exact Hb|exact Hc]. }
  specialize (H1 x (or_introl eq_refl)). clear - H1 IH' D. induction (f x) as [|b l' IHl]; [exact IH'|]. cbn. inversion H1; subst. constructor; [rewrite in_app_iff; intros [X|X]; [auto|apply (D b); [left; reflexivity|exact X]]|].
  apply IHl; [assumption|]. intros c Hc. apply D. right. exact Hc.
Qed.
Lemma cart_nodup k v : NoDup (cart k v).
Proof.
  induction v as [|v IH]; cbn [cart]; [repeat constructor; intros []|]. apply nodup_flat_map; [apply seq_NoDup| |].
  - intros i _. apply FinFun.Injective_map_NoDup; [intros a b H; congruence|exact IH].
  - intros x y b _ _ Hx Hy. apply in_map_iff in Hx, Hy. destruct Hx as (r & <- & _), Hy as (r' & E & _). congruence.
Qed.
Fixpoint nlist_eqb (a b : list nat) : bool :=
  match a, b with [], [] => true | x :: a', y :: b' => Nat.eqb x y && nlist_eqb a' b' | _, _ => false end.
Lemma nlist_eqb_spec a b : nlist_eqb a b = true <-> a = b.
Proof.
  revert b. induction a as [|x a IH]; intros [|y b]; cbn; try (split; [discriminate|congruence]); [split; auto|].
  rewrite andb_true_iff, Nat.eqb_eq, IH. split; [intros [-> ->]; reflexivity|intro H; injection H as -> ->; auto].
Qed.
(** The row of fold numbers an observation belongs to. *)
Fixpoint find_fold (z : Z) (vf : list (list Z * list Z)) : nat :=
  match vf with [] => 0 | p :: r => if zmem z (snd p) then 0 else S (find_fold z r) end.
Lemma find_fold_spec n k cv vf i : var_folds n k cv vf -> i < n ->
  find_fold (cv i) vf < k /\ forall j', j' < k -> (zmem (cv i) (snd (nth j' vf ([], []))) = true <-> j' = find_fold (cv i) vf).
Proof.
  intros (L & H & _) Hi. destruct (H i Hi) as (j & J1 & J2). enough (E : find_fold (cv i) vf = j).
  { rewrite E. split; [exact J1|]. intros j' Hj'. rewrite zmem_spec. apply J2. exact Hj'. }
  clear H Hi. revert j k L J1 J2. induction vf as [|p vf IH]; intros j k L J1 J2; cbn in L; [lia|]. subst k. cbn [find_fold]. pose proof (J2 0 ltac:(lia)) as J0. cbn in J0.
  destruct (zmem (cv i) (snd p)) eqn:E; [apply zmem_spec in E; apply J0; exact E|]. destruct j as [|j].
  - exfalso. assert (X : In (cv i) (snd p)) by (apply J0; reflexivity). apply zmem_spec in X. congruence.
  - f_equal. apply (IH j (length vf)); [reflexivity|lia|]. intros j' Hj'. specialize (J2 (S j') ltac:(lia)). cbn in J2. rewrite J2. split; congruence.
Qed.
Definition row_of (cvars : list (nat -> Z)) (vfs : list (list (list Z * list Z))) (i : nat) : list nat :=
  map (fun p : (nat -> Z) * list (list Z * list Z) => find_fold (fst p i) (snd p)) (combine cvars vfs).
Lemma cell_test n k cvars vfs i row : Forall2 (var_folds n k) cvars vfs -> i < n -> length row = length cvars -> (forall j, In j row -> j < k) ->
  forallb (fun p : (nat -> Z) * (list Z * list Z) => zmem (fst p i) (snd (snd p)))
     (combine cvars (map (fun p : nat * list (list Z * list Z) => nth (fst p) (snd p) ([], [])) (combine row vfs)))
  = nlist_eqb (row_of cvars vfs i) row.
Proof.
  intros F Hi. revert row. induction F as [|cv vf cvars vfs H F IH]; intros [|r row] L Hr; cbn in L; try discriminate; [reflexivity|].
  unfold row_of. cbn [combine map forallb nlist_eqb fst snd]. fold (row_of cvars vfs i). rewrite IH by (try lia; intros; apply Hr; right; assumption). f_equal.
  destruct (find_fold_spec n k cv vf i H Hi) as [_ S]. specialize (S r (Hr r (or_introl eq_refl))).
  destruct (zmem (cv i) (snd (nth r vf ([], [])))), (Nat.eqb_spec (find_fold (cv i) vf) r) as [E|E]; try reflexivity.
  - destruct E. symmetry. apply S. reflexivity. - symmetry in E. apply S in E. discriminate.
Qed.
Lemma row_of_in n k cvars vfs i : Forall2 (var_folds n k) cvars vfs -> i < n -> In (row_of cvars vfs i) (cart k (length cvars)).
Proof.
  intros F Hi. apply cart_in. unfold row_of. split.
  - rewrite map_length, combine_length, <- (Forall2_len _ _ _ F). apply Nat.min_id.
  - intros j Hj. induction F as [|cv vf cvars vfs H F IH]; [destruct Hj|]. cbn [combine map] in Hj. destruct Hj as [<- | Hj]; [apply (find_fold_spec n k cv vf i H Hi)|apply IH; exact Hj].
Qed.
Lemma parts_len row (vfs : list (list (list Z * list Z))) : length row = length vfs ->
  length (map (fun p : nat * list (list Z * list Z) => nth (fst p) (snd p) ([], [])) (combine row vfs)) = length vfs.
Proof. intro H. rewrite map_length, combine_length, H. apply Nat.min_id. Qed.

Lemma inside_spec (side : (list Z * list Z) -> list Z) (cvars : list (nat -> Z)) parts i : side ([], []) = [] -> length parts = length cvars ->
  (forallb (fun p : (nat -> Z) * (list Z * list Z) => zmem (fst p i) (side (snd p))) (combine cvars parts) = true <->
   forall v cv, nth_error cvars v = Some cv -> In (cv i) (nth v (map side parts) [])).
Proof.
  intros Hs. revert parts. induction cvars as [|cv cvars IH]; intros [|p parts] L; cbn in L; try discriminate.
  - split; [intros _ v cv H; destruct v; discriminate|reflexivity].
  - cbn [combine forallb fst snd map]. rewrite andb_true_iff, zmem_spec, IH by lia. split.
    + intros [H1 H2] [|v] cv' H; cbn in *; [injection H as <-; exact H1|apply H2; exact H].
    + intro H. split; [apply (H 0 cv eq_refl)|]. intros v cv' Hv. apply (H (S v) cv' Hv).
Qed.
Lemma cells_spec n k cvars vfs : Forall2 (var_folds n k) cvars vfs ->
  let cs := map (cell n cvars vfs) (cart k (length cvars)) in
  length cs = k ^ length cvars /\ Permutation (flat_map (fun c => snd (fst c)) cs) (seq 0 n) /\
  forall c, In c cs -> cell_ok n cvars (fst c) (snd c).
Proof.
  intro F. cbn zeta. split; [rewrite map_length; apply cart_len|]. split.
  - rewrite flat_map_map'. rewrite (flat_map_perm _ (fun row => filter (fun i => nlist_eqb (row_of cvars vfs i) row) (seq 0 n))).
    + apply group_perm; [apply nlist_eqb_spec|apply cart_nodup|]. intros i Hi. apply in_seq in Hi. apply (row_of_in n k); [exact F|lia].
    + intros row Hr. apply cart_in in Hr. destruct Hr as [H1 H2]. unfold cell. cbn [fst snd].
      erewrite filter_ext_in; [reflexivity|]. intros i Hi. apply in_seq in Hi. cbn beta. apply (cell_test n k); try assumption. lia.
  - intros c Hc. apply in_map_iff in Hc. destruct Hc as (row & <- & Hr). apply cart_in in Hr. destruct Hr as [H1 H2].
    unfold cell. set (parts := map (fun p : nat * list (list Z * list Z) => nth (fst p) (snd p) ([], [])) (combine row vfs)). cbn [fst snd].
    assert (Lp : length parts = length cvars) by (unfold parts; rewrite parts_len by (rewrite H1; apply (Forall2_len _ _ _ F)); symmetry; apply (Forall2_len _ _ _ F)).
    assert (Hpart : forall v cv, nth_error cvars v = Some cv -> apart (nth v (map fst parts) []) (nth v (map snd parts) []) /\
              Permutation (nth v (map fst parts) [] ++ nth v (map snd parts) []) (np_unique (map cv (seq 0 n)))).
    { clear Lp. revert row H1 H2 parts. induction F as [|cv vf cvars vfs H F IH]; intros [|r row] H1 H2 parts v cv' Hv; cbn in H1; try discriminate; [destruct v; discriminate|].
      unfold parts. cbn [combine map]. destruct v as [|v]; cbn [nth] in *.
      - injection Hv as <-. destruct H as (L & _ & A & B). cbn [fst snd]. assert (In (nth r vf ([], [])) vf) by (apply nth_In; rewrite L; apply H2; left; reflexivity). split; [apply A|apply B]; assumption.
      - apply IH; [lia|intros; apply H2; right; assumption|exact Hv]. }
    unfold cell_ok. cbn [fst snd].
    assert (Sp : forall side i, side ([], []) = @nil Z -> i < n -> (In i (filter (fun i => forallb (fun p : (nat -> Z) * (list Z * list Z) => zmem (fst p i) (side (snd p))) (combine cvars parts)) (seq 0 n)) <->
       forall v cv, nth_error cvars v = Some cv -> In (cv i) (nth v (map side parts) []))).
    { intros side i Hs Hi. rewrite filter_In, in_seq, inside_spec by assumption. split; [tauto|]. intro; split; [lia|assumption]. }
    split; [apply filter_sorted, seq_sorted|]. split; [apply filter_sorted, seq_sorted|]. split.
    { intros i Hi. apply in_app_iff in Hi. rewrite !filter_In, !in_seq in Hi. lia. }
    split.
    { intros cv i j Hcv Hi Hj E. cbn [fst snd] in *. assert (Li : i < n) by (apply filter_In in Hi; rewrite in_seq in Hi; lia). assert (Lj : j < n) by (apply filter_In in Hj; rewrite in_seq in Hj; lia).
      pose proof (proj1 (Sp fst i eq_refl Li) Hi) as Hi'. pose proof (proj1 (Sp snd j eq_refl Lj) Hj) as Hj'. apply In_nth_error in Hcv. destruct Hcv as (v & Hv).
      destruct (Hpart v cv Hv) as [A _]. apply (A (cv i)); [apply Hi'; exact Hv|rewrite E; apply Hj'; exact Hv]. }
    split; [rewrite map_length; exact Lp|]. split; [rewrite map_length; exact Lp|]. split.
    { intros v cv Hv. destruct (Hpart v cv Hv) as [_ Pm]. split; [apply (Permutation_NoDup (Permutation_sym Pm)), np_unique_nodup|].
      intro z. split; intro Hz.
      - apply (Permutation_in _ Pm), np_unique_in, in_map_iff in Hz. destruct Hz as (i & Ei & Hi). apply in_seq in Hi. exists i. split; [lia|exact Ei].
      - destruct Hz as (i & Hi & <-). apply (Permutation_in _ (Permutation_sym Pm)), np_unique_in, in_map, in_seq. lia. }
    split; intros i Hi; [apply (Sp snd i eq_refl Hi)|apply (Sp fst i eq_refl Hi)].
Qed.
Lemma cluster_rep_inv n k cvars (perm : nat -> list nat -> list nat) vfs : (forall v l, Permutation (perm v l) l) ->
  map_res (fun p : nat * (nat -> Z) => cluster_var_folds n k (snd p) (perm (fst p))) (combine (seq 0 (length cvars)) cvars) = Ok vfs ->
  Forall2 (var_folds n k) cvars vfs.
Proof.
  intros Hp H. apply map_res_iff in H. generalize 0 H. clear H. revert vfs. induction cvars as [|cv cvars IH]; intros vfs a H; cbn in H; inversion H; subst; constructor.
  - eapply cluster_var_spec; [|eassumption]. apply Hp.
  - eapply IH. eassumption.
Qed.
Lemma cluster_draws nf nr n cvars perm sm sc : (forall r v l, Permutation (perm r v l) l) ->
  cluster_resampling nf nr n cvars perm = Ok (sm, sc) ->
  length sm = nr /\ length sc = nr /\ Forall2 (fun fs gs =>
    length fs = nf ^ length cvars /\ Permutation (flat_map snd fs) (seq 0 n) /\ Forall2 (cell_ok n cvars) fs gs) sm sc.
Proof.
  intros Hp H. unfold cluster_resampling in H.
  match type of H with bind ?m _ = _ => destruct m as [reps|e] eqn:E end; [|discriminate]. cbn [bind] in H. injection H as <- <-.
  apply map_res_iff in E. assert (L := Forall2_len _ _ _ E). rewrite seq_length in L. rewrite !map_length. split; [congruence|]. split; [congruence|].
  clear L. induction E as [|r cs rs reps H1 _ IH]; cbn; constructor; [|exact IH].
  match type of H1 with bind ?m _ = _ => destruct m as [vfs|e] eqn:Ev end; [|discriminate]. cbn [bind] in H1. injection H1 as <-.
  apply cluster_rep_inv in Ev; [|apply Hp]. destruct (cells_spec n nf cvars vfs Ev) as (A & B & C). split; [rewrite map_length; exact A|]. split; [rewrite flat_map_map'; exact B|].
  clear - C. induction (map (cell n cvars vfs) (cart nf (length cvars))) as [|c cs IH]; cbn; constructor; [apply C; left; reflexivity|]. apply IH. intros; apply C; right; assumption.
Qed.
Lemma cluster_defined nf nr n cvars perm : 0 < nr ->
  ((exists r, cluster_resampling nf nr n cvars perm = Ok r) <->
   forall cv, In cv cvars -> 2 <= nf <= length (np_unique (map cv (seq 0 n)))).
Proof.
  intro Hr. unfold cluster_resampling.
  assert (V : forall cv pm, (exists vf, cluster_var_folds n nf cv pm = Ok vf) <-> 2 <= nf <= length (np_unique (map cv (seq 0 n)))).
  { intros cv pm. unfold cluster_var_folds. rewrite <- (kfold_ok_iff _ _ (pm (seq 0 (length (np_unique (map cv (seq 0 n))))))). destruct (kfold _ _ _) as [fs|e]; cbn [bind]; split; intros [x H]; try discriminate; eexists; reflexivity. }
  match goal with |- (exists r, bind ?m _ = Ok r) <-> _ => assert (E : (exists x, m = Ok x) <-> forall cv, In cv cvars -> 2 <= nf <= length (np_unique (map cv (seq 0 n)))) end.
  { rewrite map_res_ok_all. assert (C : forall a (l : list (nat -> Z)) p, In p (combine (seq a (length l)) l) -> In (snd p) l) by (intros a l [x y] Hin; apply in_combine_r in Hin; exact Hin).
    assert (C' : forall (l : list (nat -> Z)) a cv, In cv l -> exists x, In (x, cv) (combine (seq a (length l)) l)).
    { induction l as [|c l IH]; intros a cv []; [subst; exists a; left; reflexivity|]. destruct (IH (S a) cv H) as [x Hx]. exists x. right. exact Hx. }
    split.
    - intros H cv Hcv. specialize (H 0 ltac:(apply in_seq; lia)).
      match type of H with exists y, bind ?m _ = Ok y => assert (M : exists x, m = Ok x) by (destruct m as [x|]; [eauto|destruct H; discriminate]) end.
      rewrite map_res_ok_all in M. destruct (C' cvars 0 cv Hcv) as [x Hx]. specialize (M _ Hx). cbn [fst snd] in M. apply V in M. exact M.
    - intros H r _. match goal with |- exists y, bind ?m _ = Ok y => assert (M : exists x, m = Ok x) end.
      + apply map_res_ok_all. intros p Hp. apply V. apply H. apply (C 0 cvars p Hp).
      + destruct M as [x ->]. cbn [bind]. eexists. reflexivity. }
  rewrite <- E. match goal with |- (exists r, bind ?m _ = Ok r) <-> _ => destruct m end; cbn [bind]; split; intros [x H]; try discriminate; eexists; reflexivity.
Qed.

(** ** Subgroups *)
Lemma intersect_in n cond train i : In i (intersect_where n cond train) <-> i < n /\ cond i = true /\ In i train.
Proof. unfold intersect_where. rewrite filter_In, in_seq, andb_true_iff, nmem_spec. intuition lia. Qed.
Lemma cond_smpls_tests n cond smpls : map snd (cond_smpls n cond smpls) = map snd smpls.
Proof. unfold cond_smpls. rewrite map_map. reflexivity. Qed.
Lemma cond_smpls_train n cond smpls k : k < length smpls ->
  let f := nth k smpls ([], []) in let f' := nth k (cond_smpls n cond smpls) ([], []) in
  snd f' = snd f /\ Sorted lt (fst f') /\ forall i, In i (fst f') <-> i < n /\ cond i = true /\ In i (fst f).
Proof.
  intro Hk. cbn zeta. unfold cond_smpls.
  rewrite (nth_indep _ ([], []) ((fun f : fold => (intersect_where n cond (fst f), snd f)) ([], []))) by (rewrite map_length; exact Hk).
  rewrite (map_nth (fun f : fold => (intersect_where n cond (fst f), snd f))). cbn [fst snd]. split; [reflexivity|]. split; [apply filter_sorted, seq_sorted|]. intro i. apply intersect_in.
Qed.

Lemma nodup_app_iff {A} (a b : list A) : NoDup a -> NoDup b -> (forall x, In x a -> ~ In x b) -> NoDup (a ++ b).
Proof.
  intros Ha Hb D. induction a as [|x a IH]; [exact Hb|]. cbn. inversion Ha; subst. constructor.
  - rewrite in_app_iff. intros [X|X]; [auto|apply (D x); [left; reflexivity|exact X]].
  - apply IH; [assumption|]. intros y Hy. apply D. right. exact Hy.
Qed.
Lemma cond_nodup n cond smpls k : k < length smpls -> NoDup (fst (nth k (cond_smpls n cond smpls) ([], []))).
Proof. intro Hk. apply sorted_lt_nodup. apply (cond_smpls_train n cond smpls k Hk). Qed.
Lemma subgroup_partition n v smpls s0 s1 k :
  (forall i, i < n -> v i = 0%Z \/ v i = 1%Z) -> get_cond_smpls n v smpls = (s0, s1) -> k < length smpls ->
  NoDup (fst (nth k smpls ([], []))) -> (forall i, In i (fst (nth k smpls ([], []))) -> i < n) ->
  Permutation (fst (nth k s0 ([], [])) ++ fst (nth k s1 ([], []))) (fst (nth k smpls ([], []))).
Proof.
  intros Hv H Hk Hn Hr. unfold get_cond_smpls in H. injection H as <- <-.
  destruct (cond_smpls_train n (fun i => Z.eqb (v i) 0) smpls k Hk) as (_ & _ & A). destruct (cond_smpls_train n (fun i => Z.eqb (v i) 1) smpls k Hk) as (_ & _ & B).
  apply NoDup_Permutation; [|exact Hn|].
  - apply nodup_app_iff; try (apply cond_nodup; exact Hk). intros x Hx Hy. apply A in Hx. apply B in Hy. destruct Hx as (_ & Hx & _), Hy as (_ & Hy & _). apply Z.eqb_eq in Hx, Hy. congruence.
  - intro i. rewrite in_app_iff, A, B, !Z.eqb_eq. split; [tauto|]. intro Hi. specialize (Hr i Hi). destruct (Hv i Hr); tauto.
Qed.
Lemma subgroup_partition_2d n v w smpls s00 s01 s10 s11 k :
  (forall i, i < n -> v i = 0%Z \/ v i = 1%Z) -> (forall i, i < n -> w i = 0%Z \/ w i = 1%Z) ->
  get_cond_smpls_2d n v w smpls = (s00, s01, s10, s11) -> k < length smpls ->
  NoDup (fst (nth k smpls ([], []))) -> (forall i, In i (fst (nth k smpls ([], []))) -> i < n) ->
  Permutation (fst (nth k s00 ([], [])) ++ fst (nth k s01 ([], [])) ++ fst (nth k s10 ([], [])) ++ fst (nth k s11 ([], []))) (fst (nth k smpls ([], []))).
Proof.
  intros Hv Hw H Hk Hn Hr.
  set (c := fun a b i => Z.eqb (v i) a && Z.eqb (w i) b).
  change (get_cond_smpls_2d n v w smpls) with (cond_smpls n (c 0%Z 0%Z) smpls, cond_smpls n (c 0%Z 1%Z) smpls, cond_smpls n (c 1%Z 0%Z) smpls, cond_smpls n (c 1%Z 1%Z) smpls) in H.
  apply pair_equal_spec in H. destruct H as [H E4]. apply pair_equal_spec in H. destruct H as [H E3]. apply pair_equal_spec in H. destruct H as [E1 E2]. subst s00 s01 s10 s11.
  assert (A : forall a b i, In i (fst (nth k (cond_smpls n (c a b) smpls) ([], []))) <-> i < n /\ (v i = a /\ w i = b) /\ In i (fst (nth k smpls ([], [])))).
  { intros a b i. destruct (cond_smpls_train n (c a b) smpls k Hk) as (_ & _ & X). rewrite X. unfold c. rewrite andb_true_iff, !Z.eqb_eq. reflexivity. }
  apply NoDup_Permutation; [|exact Hn|].
  - repeat apply nodup_app_iff; try (apply cond_nodup; exact Hk); intros x Hx Hy; apply A in Hx; destruct Hx as (_ & (Hx1 & Hx2) & _); rewrite !in_app_iff in Hy || idtac; rewrite !A in Hy; rewrite Hx1, Hx2 in Hy; intuition discriminate.
  - intro i. rewrite !in_app_iff, !A. split; [tauto|]. intro Hi. specialize (Hr i Hi). destruct (Hv i Hr), (Hw i Hr); tauto.
Qed.

(** ** The check of cluster splits supplied by the user *)

Lemma cpart_spec n cv tr te : check_cluster_partition tr te (np_unique (map cv (seq 0 n))) = true <-> splits_values n cv tr te.
Proof.
  unfold check_cluster_partition. cbn zeta. rewrite andb_true_iff, Nat.eqb_eq, zlist_eqb_spec. set (cl := np_unique _).
  assert (Hc : forall z, In z cl <-> exists i, i < n /\ cv i = z).
  { intro z. unfold cl. rewrite np_unique_in, in_map_iff. split; intros (i & A & B); exists i; [apply in_seq in B; split; [lia|exact A]|split; [exact B|apply in_seq; lia]]. }
  assert (Hn : NoDup cl) by apply np_unique_nodup. split.
  - intros [_ E]. assert (Pm : Permutation (tr ++ te) cl) by (rewrite <- (zsort_perm (tr ++ te)), E; apply zsort_perm).
    split; [apply (Permutation_NoDup (Permutation_sym Pm) Hn)|]. intro z. rewrite <- Hc. split; apply Permutation_in; [exact Pm|symmetry; exact Pm].
  - intros [Hd Hz]. assert (Pm : Permutation (tr ++ te) cl) by (apply NoDup_Permutation; [exact Hd|exact Hn|intro z; rewrite Hz, Hc; reflexivity]).
    split; [apply Permutation_length, Pm|apply zsort_perm_eq, Pm].
Qed.
Lemma all_ok_iff {A} (c : A -> result unit) l : all_ok c l = Ok tt <-> forall x, In x l -> c x = Ok tt.
Proof.
  induction l as [|x l IH]; cbn; [split; [intros _ ? []|reflexivity]|]. split.
  - destruct (c x) as [[]|] eqn:E; [|discriminate]. cbn. intros H y [<- | Hy]; [exact E|apply IH; assumption].
  - intro H. rewrite (H x (or_introl eq_refl)). cbn. apply IH. intros; apply H; right; assumption.
Qed.
Lemma in_enum {A} (l : list A) a p : In p (combine (seq a (length l)) l) <-> a <= fst p /\ nth_error l (fst p - a) = Some (snd p).
Proof.
  revert a. induction l as [|x l IH]; intro a; cbn [length seq combine In].
  - split; [intros []|]. intros [_ H]. destruct (fst p - a); discriminate.
  - rewrite IH. split.
    + intros [<- | [H1 H2]]; cbn [fst snd]; [rewrite Nat.sub_diag; split; [lia|reflexivity]|]. split; [lia|]. replace (fst p - a) with (S (fst p - S a)) by lia. exact H2.
    + intros [H1 H2]. destruct (Nat.eq_dec (fst p) a) as [E|E].
      * left. rewrite E, Nat.sub_diag in H2. cbn in H2. injection H2 as ->. destruct p; cbn in *; congruence.
      * right. split; [lia|]. replace (fst p - a) with (S (fst p - S a)) in H2 by lia. exact H2.
Qed.
(** The check in closed form. *)
Lemma cluster_check_iff n cvars asc nr nf : 0 < nr -> 0 < nf -> cvars <> [] ->
  (check_cluster_splitting n cvars (Some asc) nr nf = Ok asc <->
   length asc = nr /\ (forall gs, In gs asc -> length gs = nf) /\
   exists g gs rest, asc = (g :: gs) :: rest /\ forall v cv, nth_error cvars v = Some cv ->
     v < length (fst g) /\ v < length (snd g) /\ splits_values n cv (nth v (fst g) []) (nth v (snd g) [])).
Proof.
  intros Hr Hf Hc. unfold check_cluster_splitting.
  match goal with |- require _ _ (bind (all_ok ?f _) _) = _ <-> _ => set (body := f) end.
  assert (B : forall i, body i = Ok tt <-> length (nth i asc []) = nf /\ exists g gs rest, asc = (g :: gs) :: rest /\ forall v cv, nth_error cvars v = Some cv ->
     v < length (fst g) /\ v < length (snd g) /\ splits_values n cv (nth v (fst g) []) (nth v (snd g) [])).
  { intro i. unfold body. destruct (Nat.eqb_spec (length (nth i asc [])) nf) as [E|E]; cbn [require]; [|split; [discriminate|tauto]].
    rewrite all_ok_iff. split.
    - intro H. split; [exact E|]. destruct cvars as [|cv0 cvars0] eqn:Ec; [congruence|]. rewrite <- Ec in *.
      destruct asc as [|[|g gs] rest].
      + specialize (H (0, cv0)). rewrite in_enum in H. rewrite Ec in H. cbn in H. specialize (H (conj (Nat.le_0_l _) eq_refl)). discriminate.
      + specialize (H (0, cv0)). rewrite in_enum in H. rewrite Ec in H. cbn in H. specialize (H (conj (Nat.le_0_l _) eq_refl)). discriminate.
      + exists g, gs, rest. split; [reflexivity|]. intros v cv Hv. specialize (H (v, cv)). rewrite in_enum in H. cbn [fst snd] in H. rewrite Nat.sub_0_r in H. specialize (H (conj (Nat.le_0_l _) Hv)).
        destruct (nth_error (fst g) v) as [tr|] eqn:E1; [|discriminate]. destruct (nth_error (snd g) v) as [te|] eqn:E2; [|discriminate].
        destruct (check_cluster_partition tr te _) eqn:Ep; [|discriminate]. split; [apply nth_error_Some; congruence|]. split; [apply nth_error_Some; congruence|].
        rewrite (nth_error_nth _ _ _ E1), (nth_error_nth _ _ _ E2). apply cpart_spec. exact Ep.
    - intros [_ (g & gs & rest & -> & H)] [v cv] Hp. apply in_enum in Hp. cbn [fst snd] in *. rewrite Nat.sub_0_r in Hp. destruct (H v cv (proj2 Hp)) as (L1 & L2 & Sp).
      rewrite (nth_error_nth' _ [] L1), (nth_error_nth' _ [] L2). apply cpart_spec in Sp. rewrite Sp. reflexivity. }
  destruct (Nat.eqb_spec (length asc) nr) as [E|E]; cbn [require]; [|split; [discriminate|tauto]].
  assert (Q : all_ok body (seq 0 nr) = Ok tt <-> forall i, i < nr -> body i = Ok tt).
  { rewrite all_ok_iff. split; intros H i Hi; apply H; [apply in_seq; lia|apply in_seq in Hi; lia]. }
  split.
  - intro H. destruct (all_ok body (seq 0 nr)) as [[]|] eqn:Ea; [|discriminate]. split; [exact E|].
    assert (Ea' : forall i, i < nr -> body i = Ok tt) by (apply Q; reflexivity). split.
    + intros gs Hgs. destruct (In_nth _ _ [] Hgs) as (i & Li & <-). apply B, Ea'. lia.
    + apply (B 0), Ea'. lia.
  - intros (_ & L & G). replace (all_ok body (seq 0 nr)) with (@Ok unit tt); [reflexivity|]. symmetry. apply Q. intros i Hi. apply B. split; [apply L, nth_In; lia|exact G].
Qed.
Lemma cluster_check_ok n cvars asc nr nf r : check_cluster_splitting n cvars (Some asc) nr nf = Ok r -> r = asc.
Proof.
  unfold check_cluster_splitting. destruct (Nat.eqb _ _); [|discriminate]. cbn [require].
  match goal with |- bind ?m _ = _ -> _ => destruct m as [|] end; [|discriminate]. cbn. congruence.
Qed.
(** Drawn cluster splits pass the check. *)
Lemma drawn_accepted nf nr n cvars perm sm sc : (forall r v l, Permutation (perm r v l) l) -> 0 < nr -> 0 < nf -> cvars <> [] ->
  cluster_resampling nf nr n cvars perm = Ok (sm, sc) -> check_cluster_splitting n cvars (Some sc) nr (nf ^ length cvars) = Ok sc.
Proof.
  intros Hp Hr Hf Hc H. destruct (cluster_draws nf nr n cvars perm sm sc Hp H) as (_ & L & F).
  assert (Hpos : 0 < nf ^ length cvars) by (apply Nat.neq_0_lt_0, Nat.pow_nonzero; lia).
  assert (Lg : forall gs, In gs sc -> length gs = nf ^ length cvars).
  { clear - F. induction F as [|fs gs sm sc (A & _ & B) F IH]; [intros ? []|]. intros g [<- | Hg]; [rewrite <- (Forall2_len _ _ _ B); exact A|]. apply IH, Hg. }
  apply cluster_check_iff; try assumption. split; [exact L|]. split; [exact Lg|].
  destruct F as [|fs gs sm sc (A & _ & B) F]; [cbn in L; lia|]. specialize (Lg gs (or_introl eq_refl)). destruct B as [|f g fs gs Hcell B]; [cbn in Lg; lia|].
  exists g, gs, sc. split; [reflexivity|]. intros v cv Hv. destruct Hcell as (_ & _ & _ & _ & L1 & L2 & Sp & _). assert (v < length cvars) by (apply nth_error_Some; congruence). split; [lia|]. split; [lia|]. apply Sp, Hv.
Qed.
(** ... but acceptance says nothing about the folds after the first. *)
Definition leaky : list (list cfold) := [[([[1%Z]], [[2%Z]]); ([[1%Z; 2%Z]], [[1%Z; 2%Z]])]].
Definition pairs2 (i : nat) : Z := if Nat.ltb i 2 then 1%Z else 2%Z.
Lemma leaky_accepted : check_cluster_splitting 4 [pairs2] (Some leaky) 1 2 = Ok leaky.
Proof. reflexivity. Qed.
Lemma leaky_bad : ~ apart (nth 0 (fst (nth 1 (nth 0 leaky []) ([], []))) []) (nth 0 (snd (nth 1 (nth 0 leaky []) ([], []))) []).
Proof. intro H. apply (H 1%Z); cbn; auto. Qed.

Lemma subgroup_folds n v smpls s0 s1 : get_cond_smpls n v smpls = (s0, s1) ->
  map snd s0 = map snd smpls /\ map snd s1 = map snd smpls /\
  forall k, k < length smpls -> forall i,
    (In i (fst (nth k s0 ([], []))) <-> i < n /\ v i = 0%Z /\ In i (fst (nth k smpls ([], [])))) /\
    (In i (fst (nth k s1 ([], []))) <-> i < n /\ v i = 1%Z /\ In i (fst (nth k smpls ([], [])))).
Proof.
  unfold get_cond_smpls. intro H. apply pair_equal_spec in H. destruct H as [<- <-]. split; [apply cond_smpls_tests|]. split; [apply cond_smpls_tests|].
  intros k Hk i. destruct (cond_smpls_train n (fun i => Z.eqb (v i) 0) smpls k Hk) as (_ & _ & A). destruct (cond_smpls_train n (fun i => Z.eqb (v i) 1) smpls k Hk) as (_ & _ & B).
  rewrite A, B, !Z.eqb_eq. tauto.
Qed.
Lemma subgroup_folds_2d n v w smpls s00 s01 s10 s11 : get_cond_smpls_2d n v w smpls = (s00, s01, s10, s11) ->
  (map snd s00 = map snd smpls /\ map snd s01 = map snd smpls /\ map snd s10 = map snd smpls /\ map snd s11 = map snd smpls) /\
  forall k, k < length smpls -> forall i, let train s := In i (fst (nth k s ([], []))) in
    (train s00 <-> i < n /\ (v i = 0 /\ w i = 0)%Z /\ train smpls) /\ (train s01 <-> i < n /\ (v i = 0 /\ w i = 1)%Z /\ train smpls) /\
    (train s10 <-> i < n /\ (v i = 1 /\ w i = 0)%Z /\ train smpls) /\ (train s11 <-> i < n /\ (v i = 1 /\ w i = 1)%Z /\ train smpls).
Proof.
  set (c := fun a b i => Z.eqb (v i) a && Z.eqb (w i) b).
  change (get_cond_smpls_2d n v w smpls) with (cond_smpls n (c 0%Z 0%Z) smpls, cond_smpls n (c 0%Z 1%Z) smpls, cond_smpls n (c 1%Z 0%Z) smpls, cond_smpls n (c 1%Z 1%Z) smpls).
  intro H. apply pair_equal_spec in H. destruct H as [H E4]. apply pair_equal_spec in H. destruct H as [H E3]. apply pair_equal_spec in H. destruct H as [E1 E2]. subst s00 s01 s10 s11.
  split; [repeat split; apply cond_smpls_tests|]. intros k Hk i. cbv zeta.
  assert (A : forall a b i, In i (fst (nth k (cond_smpls n (c a b) smpls) ([], []))) <-> i < n /\ (v i = a /\ w i = b) /\ In i (fst (nth k smpls ([], [])))).
  { intros a b j. destruct (cond_smpls_train n (c a b) smpls k Hk) as (_ & _ & X). rewrite X. unfold c. rewrite andb_true_iff, !Z.eqb_eq. reflexivity. }
  rewrite !A. tauto.
Qed.
(** An accepted cluster split. *)
Lemma accepted_first n cvars asc nr nf r : 0 < nr -> 0 < nf -> cvars <> [] -> check_cluster_splitting n cvars (Some asc) nr nf = Ok r ->
  r = asc /\ length asc = nr /\ (forall gs, In gs asc -> length gs = nf) /\
  exists g gs rest, asc = (g :: gs) :: rest /\ forall v cv, nth_error cvars v = Some cv ->
    v < length (fst g) /\ v < length (snd g) /\ splits_values n cv (nth v (fst g) []) (nth v (snd g) []).
Proof. intros A B C H. pose proof (cluster_check_ok _ _ _ _ _ _ H) as ->. split; [reflexivity|]. apply (cluster_check_iff n cvars asc nr nf A B C). exact H. Qed.
Lemma later_folds_unchecked : exists n cvars asc n_rep n_folds,
  check_cluster_splitting n cvars (Some asc) n_rep n_folds = Ok asc /\
  exists gs g, In gs asc /\ In g gs /\ ~ apart (nth 0 (fst g) []) (nth 0 (snd g) []).
Proof.
  exists 4, [pairs2], leaky, 1, 2. split; [exact leaky_accepted|]. exists (nth 0 leaky []), (nth 1 (nth 0 leaky []) ([], [])).
  split; [left; reflexivity|]. split; [right; left; reflexivity|exact leaky_bad].
Qed.

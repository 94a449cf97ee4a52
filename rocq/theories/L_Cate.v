(** Effect heterogeneity methods on signals, and what they read from the object. *)
From Verif Require Import L_Sum L_Blp.
From Verif Require Export S_Cate L_Gate.
From Coq Require Import Lia Lra.
Local Open Scope R_scope.
Local Open Scope res_scope.

(** ** Sums over groups *)
Lemma sum_filter (c : nat -> bool) (v : vec) (l : list nat) : Rsum (map v (filter c l)) = Rsum (map (fun i => (if c i then 1 else 0) * v i) l).
Proof. induction l as [|i l IH]; [reflexivity|]. cbn. destruct (c i); cbn; rewrite IH; ring. Qed.
Lemma size_filter (c : nat -> bool) (l : list nat) : INR (length (filter c l)) = Rsum (map (fun i => if c i then 1 else 0) l).
Proof. induction l as [|i l IH]; [reflexivity|]. cbn [filter map Rsum]. destruct (c i); cbn [length]; rewrite ?S_INR, IH; ring. Qed.
Lemma mean_over_group n (c : nat -> bool) s (G : vec) : (forall i, (i < n)%nat -> G i = if c i then 1 else 0) -> group_mean n G s = mean_over n c s.
Proof.
  intro H. unfold group_mean, mean_over, Rmean. rewrite map_length. unfold members. rewrite sum_filter, size_filter. f_equal; [|f_equal]; apply (sumf_ext n); intros i Hi; rewrite H by exact Hi; reflexivity.
Qed.
Lemma sum_group n (c : nat -> bool) (G v : vec) : (forall i, (i < n)%nat -> G i = if c i then 1 else 0) -> sumf n (fun i => G i * v i) = Rsum (map v (members n c)).
Proof. intro H. unfold members. rewrite sum_filter. apply sumf_ext. intros i Hi. now rewrite H. Qed.
Lemma size_group n (c : nat -> bool) (G : vec) : (forall i, (i < n)%nat -> G i = if c i then 1 else 0) -> sumf n G = INR (length (members n c)).
Proof. intro H. unfold members. rewrite size_filter. apply sumf_ext. exact H. Qed.
Lemma members_in n c : members n c <> [] -> exists i, (i < n)%nat /\ c i = true.
Proof.
  intro H. destruct (members n c) as [|i l] eqn:E; [congruence|]. assert (Hi : In i (members n c)) by (rewrite E; now left). apply filter_In in Hi as (A & B). apply in_seq in A. exists i. split; [lia|exact B].
Qed.

(** ** Regressions depend on the rows only *)
Lemma hc0_ext n p B B' y y' g : (forall i j, (i < n)%nat -> (j < p)%nat -> B i j = B' i j) -> (forall i, (i < n)%nat -> y i = y' i) -> hc0 n p B y g -> hc0 n p B' y' g.
Proof.
  intros HB Hy (A & S). assert (Hr : forall i, (i < n)%nat -> resid p B y g i = resid p B' y' g i).
  { intros i Hi. unfold resid. rewrite Hy by exact Hi. f_equal. apply sumf_ext. intros k Hk. now rewrite HB. }
  split.
  - intros j Hj. rewrite <- (A j Hj). apply sumf_ext. intros i Hi. now rewrite HB, Hr.
  - intros j k Hj Hk. assert (Hg : forall a b, (a < p)%nat -> (b < p)%nat -> gram n B' a b = gram n B a b) by (intros a b Ha Hb; apply sumf_ext; intros i Hi; now rewrite !HB).
    transitivity (sumf n (fun i => B i j * resid p B y g i ^ 2 * B i k)); [|apply sumf_ext; intros i Hi; now rewrite !HB, Hr].
    rewrite <- (S j k Hj Hk). apply sumf_ext. intros a Ha. apply sumf_ext. intros b Hb. now rewrite !Hg.
Qed.

(** ** Group frames *)
Lemma bool_basis n cols : cols <> [] -> exists b, gate_basis n (bool_frame cols) = Ok b /\ fr_names b = map fst cols /\
  forall i j a, nth_error cols j = Some a -> fr_at b i j = if snd a i then 1 else 0.
Proof.
  intro Hc. eexists. split; [apply gate_bool|].
  - unfold bool_frame. destruct cols; [congruence|discriminate].
  - intros c Hin. unfold bool_frame in Hin. apply in_map_iff in Hin as (a & <- & _). reflexivity.
  - cbn [fr_names fr_at]. split; [unfold bool_frame; rewrite map_map; apply map_ext; reflexivity|]. intros i j a Hj. unfold bool_frame.
    erewrite (nth_error_nth (map _ cols) j); [|apply map_nth_error; exact Hj]. reflexivity.
Qed.
Lemma bool_exclusive n cols b : separate_groups n cols -> fr_names b = map fst cols -> (forall i j a, nth_error cols j = Some a -> fr_at b i j = if snd a i then 1 else 0) ->
  exclusive_groups n (fr_cols b) (fr_at b).
Proof.
  intros (S1 & S2) En Hb. unfold fr_cols. rewrite En, map_length.
  assert (N : forall j, (j < length cols)%nat -> exists a, nth_error cols j = Some a) by (intros j Hj; destruct (nth_error cols j) as [a|] eqn:E; [eauto|apply nth_error_None in E; lia]).
  split; [|split].
  - intros i j _ Hj. destruct (N j Hj) as (a & Ea). rewrite (Hb i j a Ea). destruct (snd a i); auto.
  - intros i j k Hi Hj Hk Ej Ek. destruct (N j Hj) as (a & Ea), (N k Hk) as (a' & Ea'). rewrite (Hb i j a Ea) in Ej. rewrite (Hb i k a' Ea') in Ek.
    eapply S1; [exact Ea|exact Ea'|exact Hi| |]; [destruct (snd a i); [reflexivity|lra]|destruct (snd a' i); [reflexivity|lra]].
  - intros j Hj. destruct (N j Hj) as (a & Ea). destruct (members_in n (snd a) (S2 a (nth_error_In _ _ Ea))) as (i & Hi & E). exists i. split; [exact Hi|]. rewrite (Hb i j a Ea), E. reflexivity.
Qed.
(** A frame of separate groups: one column per group. *)
Definition groups_of (n : nat) (b : M_Blp.frame) (name : string) (c : nat -> bool) : Prop :=
  NoDup (fr_names b) /\ exclusive_groups n (fr_cols b) (fr_at b) /\ exists j, (j < fr_cols b)%nat /\ nth_error (fr_names b) j = Some name /\ forall i, (i < n)%nat -> fr_at b i j = if c i then 1 else 0.
Lemma bool_group n cols a : cols <> [] -> NoDup (map fst cols) -> separate_groups n cols -> In a cols -> exists b, gate_basis n (bool_frame cols) = Ok b /\ groups_of n b (fst a) (snd a).
Proof.
  intros Hc Hd S Ha. destruct (bool_basis n cols Hc) as (b & Eb & En & Hb). exists b. split; [exact Eb|]. split; [rewrite En; exact Hd|]. split; [eapply bool_exclusive; eassumption|].
  apply In_nth_error in Ha as (j & Hj). exists j. unfold fr_cols. rewrite En, map_length. split; [apply nth_error_Some; congruence|]. split; [apply map_nth_error; exact Hj|]. intros i _. now apply Hb.
Qed.
Lemma string_group n name f v : In v (map f (seq 0 n)) -> exists b, gate_basis n [(name, GStr f)] = Ok b /\ groups_of n b ("Group_" ++ v) (fun i => String.eqb (f i) v).
Proof.
  intro Hv. exists (get_dummies n name (GStr f)). split; [apply gate_one; reflexivity|]. split; [apply dummies_unique|]. split; [apply (dummies_groups n name f)|].
  apply (nodup_In string_dec) in Hv. apply In_nth_error in Hv as (j & Hj). exists j. split; [rewrite dummies_cols; apply nth_error_Some; congruence|]. cbn [get_dummies fr_names fr_at]. split; [exact (map_nth_error (fun v => ("Group_" ++ v)%string) _ _ Hj)|].
  intros i _. now rewrite (nth_error_nth _ _ _ Hj).
Qed.

(** ** Methods on the state of an object *)
Section Methods.
Context {P : Type}.
Variable ols : ols_fun.
Hypothesis Ho : least_squares_routine ols.
Variable C : ctx P.
Notation n := (c_n C).

Lemma no_nan_all m v s : (forall i, (i < m)%nat -> v i = Some (s i)) -> no_nan m v = true.
Proof. intro H. apply forallb_forall. intros i Hi. apply in_seq in Hi. rewrite H by lia. reflexivity. Qed.

Section Signal.
Variable w : world P.
Variable s : vec.
Hypothesis Hr : m_n_rep (w_obj w) = 1%nat.
Hypothesis Hs : forall i, (i < n)%nat -> orth_signal w i = Some (s i).

Lemma cate_ok basis b : NoDup (fr_names basis) -> exists m g, object_cate ols C true w basis b = Ok (Some m) /\ bl_fit m = Some g /\ bl_basis m = basis /\ hc0 n (fr_cols basis) (fr_at basis) s g.
Proof.
  intro D. unfold object_cate, irm_cate, require. rewrite Hr. cbn [Nat.eqb]. unfold blp_new. cbn [shape mk1]. unfold require. rewrite (proj2 (names_unique_iff _) D). cbn [bind]. rewrite (no_nan_all _ _ _ Hs).
  eexists _, _. split; [reflexivity|]. split; [reflexivity|]. split; [reflexivity|]. eapply hc0_ext; [intros i j _ _; reflexivity| |apply Ho]. intros i Hi. cbn [bl_signal at_ mk1]. rewrite Hs by exact Hi. reflexivity.
Qed.
Lemma gate_ok cols b name c : gate_basis n cols = Ok b -> groups_of n b name c -> group_result n s c name (object_gate ols C true w cols).
Proof.
  intros Eb (D & Ex & j & Hj & Ej & Hc). destruct (cate_ok b true D) as (m & g & E & F & B & H). unfold group_result, has_effect, object_gate. rewrite Eb. cbn [bind]. exists m, g, j. split; [exact E|]. split; [exact F|]. split; [rewrite B; exact Ej|].
  destruct (group_effect n (fr_cols b) (fr_at b) s g Ex H) as (G1 & G2). rewrite (G1 j Hj), (G2 j j Hj Hj), Nat.eqb_refl. unfold group_size. rewrite (size_group n c _ Hc). rewrite !(mean_over_group n c s _ Hc). split; [reflexivity|].
  rewrite (sum_group n c (fun i => fr_at b i j) (fun i => (s i - mean_over n c s) ^ 2) Hc). reflexivity.
Qed.
Lemma signal_ok : signal_methods n s (object_cate ols C true w) (object_gate ols C true w).
Proof.
  split; [|split].
  - intros basis b D. destruct (cate_ok basis b D) as (m & g & E & F & B & H). exists m, g. split; [exact E|]. split; [exact F|]. split; [now rewrite B|]. eapply hc0_ext; [|reflexivity|exact H]. intros. cbv beta. ring.
  - intros cols Hc D S a Ha. destruct (bool_group n cols a Hc D S Ha) as (b & Eb & G). eapply gate_ok; eassumption.
  - intros name f v Hv. destruct (string_group n name f v Hv) as (b & Eb & G). eapply gate_ok; eassumption.
Qed.
Lemma tree_ok {X} (learn : nat -> vec -> vec -> X -> bool) : tree_method n s learn (object_tree C learn true w).
Proof.
  intros depth features Hd Hf. unfold object_tree, require. rewrite Hr. cbn [Nat.eqb is_int int_val]. replace (Z.leb 0 depth) with true by (symmetry; apply Z.leb_le; lia). rewrite (proj2 (names_unique_iff _) Hf).
  replace (Z.leb 1 depth) with true by (symmetry; apply Z.leb_le; lia). rewrite (no_nan_all _ _ _ Hs). assert (Eq : forall i, (i < n)%nat -> oget (orth_signal w i) = s i) by (intros i Hi; rewrite Hs by exact Hi; reflexivity). split.
  - intro Hz. destruct (tree_fit_ok (learn (Z.to_nat depth)) n (fun i => oget (orth_signal w i))) as (E & Q); [intros i Hi; rewrite Eq by exact Hi; auto|]. eexists _, _. split; [|exact E]. intros i Hi. destruct (Q i Hi) as (Q1 & Q2 & Q3).
    rewrite Eq in Q1, Q2, Q3 by exact Hi. split; [exact Q1|]. split; [apply Q2|apply Q3].
  - intros (i & Hi & Ez). eapply tree_fit_zero; [exact Hi|]. cbv beta. rewrite Eq by exact Hi. exact Ez.
Qed.
End Signal.

Section Residuals.
Variables (iv : bool) (y d : vec).
Variable w : world P.
Variable p : string -> buf.
Variables (yt dt : vec).
Hypothesis Hr : m_n_rep (w_obj w) = 1%nat.
Hypothesis Hn : length (c_dcols C) = 1%nat.
Hypothesis Hp : m_preds (w_obj w) = Some p.
Hypothesis Hsh : nth 1 (b_shape (p "ml_m"%string)) 0%nat = 1%nat.
Hypothesis Hy : forall i, (i < n)%nat -> partial_out_y iv y w p i = Some (yt i).
Hypothesis Hd : forall i, (i < n)%nat -> partial_out_d d p i = Some (dt i).

Lemma plr_cate_ok basis b : NoDup (fr_names basis) -> exists m g, object_plr_cate ols C iv y d w basis b = Ok (Some m) /\ bl_fit m = Some g /\ fr_names (bl_basis m) = fr_names basis /\ hc0 n (fr_cols basis) (fun i j => fr_at basis i j * dt i) yt g.
Proof.
  intro D. unfold object_plr_cate, plr_cate, require. rewrite Hp, Hr, Hn, Hsh. cbn [Nat.eqb Nat.ltb Nat.leb negb]. rewrite (proj2 (names_unique_iff _) D), (no_nan_all _ _ _ Hd). unfold blp_new. cbn [shape mk1]. unfold require. cbn [fr_names]. rewrite (proj2 (names_unique_iff _) D). cbn [bind]. rewrite (no_nan_all _ _ _ Hy).
  eexists _, _. split; [reflexivity|]. split; [reflexivity|]. split; [reflexivity|]. eapply hc0_ext; [| |apply Ho].
  - intros i j Hi _. cbv beta. cbn [bl_basis fr_at]. rewrite Hd by exact Hi. reflexivity.
  - intros i Hi. cbn [bl_signal at_ mk1]. rewrite Hy by exact Hi. reflexivity.
Qed.
Lemma plr_gate_ok cols b name c : gate_basis n cols = Ok b -> groups_of n b name c -> varies n c dt -> effect_only (object_plr_gate ols C iv y d w cols) name (ratio_over n c dt yt).
Proof.
  intros Eb (D & Ex & j & Hj & Ej & Hc) V. destruct (plr_cate_ok b true D) as (m & g & E & F & B & H & _). unfold effect_only, has_effect, object_plr_gate. rewrite Eb. cbn [bind]. eexists. exists m, g, j. split; [exact E|]. split; [exact F|]. split; [rewrite B; exact Ej|].
  split; [|reflexivity]. assert (E1 := sum_group n c (fun i => fr_at b i j) (fun i => dt i ^ 2) Hc). assert (E2 := sum_group n c (fun i => fr_at b i j) (fun i => dt i * yt i) Hc). cbv beta in E1, E2.
  rewrite (plr_group_effect n (fr_cols b) (fr_at b) yt dt g Ex H j Hj) by (rewrite E1; exact V). unfold ratio_over. rewrite E1, E2. reflexivity.
Qed.
Lemma residual_ok : residual_methods n dt yt (object_plr_cate ols C iv y d w) (object_plr_gate ols C iv y d w).
Proof.
  split; [|split].
  - intros basis b D. destruct (plr_cate_ok basis b D) as (m & g & E & F & B & H). exists m, g. auto.
  - intros cols Hc D S a Ha V. destruct (bool_group n cols a Hc D S Ha) as (b & Eb & G). eapply plr_gate_ok; eassumption.
  - intros name f v Hv V. destruct (string_group n name f v Hv) as (b & Eb & G). eapply plr_gate_ok; eassumption.
Qed.
End Residuals.
End Methods.

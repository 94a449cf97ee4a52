(** Lemmas: accepted group frames, aggregation of group effects, policy trees. *)
From Verif Require Import S_Blp L_Blp L_Sum L_Quantile L_Estimation L_Scores L_Framework.
From Coq Require Import Lra.
Local Open Scope R_scope.

(** ** Accepted frames *)
Lemma gate_bool n cols : cols <> [] -> (forall c, In c cols -> is_gbool (snd c) = true) ->
  gate_basis n cols = Ok {| fr_names := map fst cols; fr_at := fun i j => gcol_val (snd (nth j cols (EmptyString, GBool (fun _ => false)))) i |}.
Proof.
  intros Hne H. unfold gate_basis. replace (forallb (fun c => is_gbool (snd c)) cols) with true by (symmetry; apply forallb_forall; exact H).
  replace (forallb (fun c => is_gint (snd c)) cols) with false; [reflexivity|]. symmetry. destruct cols as [|c r]; [congruence|].
  cbn. specialize (H c (or_introl eq_refl)). destruct (snd c); try discriminate H. reflexivity.
Qed.
Lemma gate_one n name c : is_gbool c = false -> gate_basis n [(name, c)] = Ok (get_dummies n name c).
Proof. intros H. unfold gate_basis. cbn. rewrite H. reflexivity. Qed.
Lemma gate_many n cols : (2 <= length cols)%nat -> existsb (fun c => negb (is_gbool (snd c))) cols = true -> gate_basis n cols = Err TypeError.
Proof.
  intros L H. unfold gate_basis. replace (forallb (fun c => is_gbool (snd c)) cols) with false.
  - cbn. destruct cols as [|[a b] [|c r]]; [cbn in L; lia|cbn in L; lia|reflexivity].
  - symmetry. apply Bool.not_true_iff_false. intro F. rewrite forallb_forall in F. apply existsb_exists in H. destruct H as (c & Hin & Hc).
    rewrite (F c Hin) in Hc. discriminate.
Qed.
Lemma gate_int_many n cols : (2 <= length cols)%nat -> (forall c, In c cols -> is_gint (snd c) = true) -> gate_basis n cols = Err TypeError.
Proof.
  intros L H. apply gate_many; [exact L|]. apply existsb_exists. destruct cols as [|c r]; [cbn in L; lia|]. exists c. split; [left; reflexivity|].
  specialize (H c (or_introl eq_refl)). destruct (snd c); try discriminate H; reflexivity.
Qed.
Lemma gate_accepts_iff n cols : (exists b, gate_basis n cols = Ok b) <->
  length cols = 1%nat \/ (cols <> [] /\ forall c, In c cols -> is_gbool (snd c) = true).
Proof.
  split.
  - intros (b & H). destruct (Nat.eq_dec (length cols) 1) as [E|N]; [left; exact E|right]. revert H. unfold gate_basis.
    destruct (forallb (fun c => is_gbool (snd c)) cols) eqn:E1.
    + destruct cols as [|c r]; [discriminate|]. intros _. split; [discriminate|]. apply forallb_forall. exact E1.
    + cbn. destruct cols as [|[a b'] [|c r]]; [discriminate|cbn in N; lia|discriminate].
  - intros [E|[Hne H]]; [|eexists; apply gate_bool; assumption]. destruct cols as [|[a c] [|]]; try discriminate E.
    destruct (is_gbool c) eqn:Ec; [|eexists; apply gate_one; exact Ec]. eexists. apply gate_bool; [discriminate|]. intros x [<-|[]]. exact Ec.
Qed.

(** ** Labels *)
Lemma names_unique_iff l : names_unique l = true <-> NoDup l.
Proof.
  induction l as [|x r IH]; cbn; [split; [constructor|reflexivity]|]. rewrite Bool.andb_true_iff, IH, Bool.negb_true_iff. split.
  - intros [E N]. constructor; [|exact N]. intro Hin. apply Bool.not_true_iff_false in E. apply E. apply existsb_exists. exists x. split; [exact Hin|apply String.eqb_refl].
  - intros H. inversion_clear H as [|? ? N D]. split; [|exact D]. apply Bool.not_true_iff_false. intro E. apply existsb_exists in E.
    destruct E as (y & Hy & E). apply String.eqb_eq in E. subst. contradiction.
Qed.
Lemma prefix_inj a b : ("Group_" ++ a = "Group_" ++ b)%string -> a = b.
Proof. cbn. intros H. injection H as H. exact H. Qed.
Lemma dummies_unique n name f : NoDup (fr_names (get_dummies n name (GStr f))).
Proof. cbn [get_dummies fr_names]. apply FinFun.Injective_map_NoDup; [intros a b; apply prefix_inj|apply NoDup_nodup]. Qed.
Section Labels.
  Variables (n : nat) (name : string) (f : nat -> string).
  Let b := get_dummies n name (GStr f).
  Let values := nodup string_dec (map f (seq 0 n)).
  Lemma dummies_cols : fr_cols b = length values.
  Proof. unfold fr_cols, b. cbn [get_dummies fr_names]. rewrite map_length. reflexivity. Qed.
  Lemma dummies_at i j : fr_at b i j = 1 <-> f i = nth j values EmptyString.
  Proof.
    unfold b. cbn [get_dummies fr_at]. fold values. destruct (String.eqb (f i) (nth j values EmptyString)) eqn:E.
    - apply String.eqb_eq in E. split; [intros _; exact E|reflexivity].
    - apply String.eqb_neq in E. split; [intro; lra|intro; contradiction].
  Qed.
  Lemma dummies_groups : exclusive_groups n (fr_cols b) (fr_at b) /\ exhaustive n (fr_cols b) (fr_at b).
  Proof.
    rewrite dummies_cols. assert (D : NoDup values) by apply NoDup_nodup. repeat split.
    - intros i j _ _. unfold b. cbn [get_dummies fr_at]. destruct (String.eqb _ _); [right|left]; reflexivity.
    - intros i j k _ Hj Hk E1 E2. apply dummies_at in E1, E2. eapply (proj1 (NoDup_nth values EmptyString)); [exact D|exact Hj|exact Hk|congruence].
    - intros j Hj. pose proof (nth_In values EmptyString Hj) as Hin. unfold values in Hin at 2. apply nodup_In, in_map_iff in Hin.
      destruct Hin as (i & E & Hi). apply in_seq in Hi. exists i. split; [lia|]. apply dummies_at. exact E.
    - intros i Hi. assert (Hin : In (f i) values) by (apply nodup_In, in_map, in_seq; lia).
      apply (In_nth _ _ EmptyString) in Hin. destruct Hin as (j & Hj & E). exists j. split; [exact Hj|]. apply dummies_at. symmetry. exact E.
  Qed.
  Lemma dummies_same i k : (i < n)%nat -> (k < n)%nat ->
    (f i = f k <-> exists j, (j < fr_cols b)%nat /\ fr_at b i j = 1 /\ fr_at b k j = 1).
  Proof.
    intros Hi Hk. split.
    - intros E. destruct (proj2 dummies_groups i Hi) as (j & Hj & Ej). exists j. split; [exact Hj|]. split; [exact Ej|].
      apply dummies_at. apply dummies_at in Ej. congruence.
    - intros (j & _ & E1 & E2). apply dummies_at in E1, E2. congruence.
  Qed.
End Labels.

(** ** [gate] of an interactive model *)
Lemma irm_gate_inv ols n ate nr psi cols m : irm_gate ols n ate nr psi cols = Ok m ->
  exists b, ate = true /\ nr = 1%nat /\ gate_basis n cols = Ok b /\ NoDup (fr_names b) /\ bl_gate m = true /\
    bl_basis m = b /\ bl_fit m = Some (ols n (fr_cols b) (fr_at b) (fun i => at_ (mk1 n psi) [i])).
Proof.
  unfold irm_gate, bind. destruct (gate_basis n cols) as [b|] eqn:Eb; [|discriminate]. unfold irm_cate, require.
  destruct ate; [|discriminate]. destruct (Nat.eqb nr 1) eqn:En; [|discriminate]. apply Nat.eqb_eq in En.
  unfold bind, blp_new. cbn [shape mk1]. unfold require. destruct (names_unique (fr_names b)) eqn:Eu; [|discriminate].
  intros H. injection H as <-. exists b. repeat split; auto. apply names_unique_iff. exact Eu.
Qed.
Lemma irm_gate_ok ols n s cols b : gate_basis n cols = Ok b -> NoDup (fr_names b) -> exists m, irm_gate ols n true 1 s cols = Ok m.
Proof.
  intros E D. unfold irm_gate, bind. rewrite E. unfold irm_cate, require. cbn [Nat.eqb]. unfold bind, blp_new. cbn [shape mk1]. unfold require.
  rewrite (proj2 (names_unique_iff _) D). eexists. reflexivity.
Qed.

Lemma plr_gate_inv ols n nt nr stored cols m : plr_gate ols n nt nr stored cols = Ok m ->
  exists yt dt b, stored = Some (yt, dt) /\ (nt <= 1)%nat /\ nr = 1%nat /\ gate_basis n cols = Ok b /\ NoDup (fr_names b) /\ bl_gate m = true /\
    fr_names (bl_basis m) = fr_names b /\ bl_fit m = Some (ols n (fr_cols b) (fun i j => fr_at b i j * dt i) (fun i => at_ (mk1 n yt) [i])).
Proof.
  unfold plr_gate, bind. destruct (gate_basis n cols) as [b|] eqn:Eb; [|discriminate]. unfold plr_cate, require.
  destruct (Nat.ltb 1 nt) eqn:Et; [discriminate|]. apply Nat.ltb_ge in Et. cbn [negb]. destruct (Nat.eqb nr 1) eqn:En; [|discriminate]. apply Nat.eqb_eq in En.
  destruct stored as [[yt dt]|]; [|discriminate].
  unfold bind, blp_new. cbn [shape mk1 fr_names]. unfold require. destruct (names_unique (fr_names b)) eqn:Eu; [|discriminate].
  intros H. injection H as <-. exists yt, dt, b. repeat split; auto. apply names_unique_iff. exact Eu.
Qed.
Lemma plain_groups n p G g y : least_squares n p G y g -> least_squares n p (fun i j => G i j * 1) y g.
Proof.
  intros H j Hj. rewrite <- (H j Hj). apply sumf_ext. intros i _. unfold resid. rewrite Rmult_1_r. f_equal. f_equal. apply sumf_ext. intros. ring.
Qed.
Lemma plain_sandwich n p G g y : sandwich n p G y g -> sandwich n p (fun i j => G i j * 1) y g.
Proof.
  replace (fun i j => G i j * 1) with G; [auto|]. apply FunctionalExtensionality.functional_extensionality. intro i.
  apply FunctionalExtensionality.functional_extensionality. intro j. ring.
Qed.
Lemma group_effect n p G y g : exclusive_groups n p G -> hc0 n p G y g ->
  (forall j, (j < p)%nat -> rg_params g j = group_mean n (fun i => G i j) y) /\
  (forall j k, (j < p)%nat -> (k < p)%nat ->
     rg_omega g j k = if Nat.eqb j k then sumf n (fun i => G i j * (y i - group_mean n (fun i => G i j) y) ^ 2) / (group_size n (fun i => G i j)) ^ 2 else 0).
Proof.
  intros HG [L S1].
  assert (E1 : forall j, (j < p)%nat -> sumf n (fun i => G i j * 1 ^ 2) = sumf n (fun i => G i j)) by (intros; apply sumf_ext; intros; ring).
  assert (P : forall j, (j < p)%nat -> sumf n (fun i => G i j * 1 ^ 2) <> 0) by (intros j Hj; rewrite (E1 j Hj); pose proof (groups_size_pos n p G HG j Hj); lra).
  assert (C : forall j, (j < p)%nat -> rg_params g j = group_mean n (fun i => G i j) y).
  { intros j Hj. rewrite (groups_coef n p G (fun _ => 1) y HG g j (plain_groups _ _ _ _ _ L) Hj (P j Hj)). unfold group_mean. rewrite (E1 j Hj). f_equal.
    apply sumf_ext. intros. ring. }
  split; [exact C|]. intros j k Hj Hk. rewrite (groups_cov n p G (fun _ => 1) y HG g j k (plain_sandwich _ _ _ _ _ S1) Hj Hk (P j Hj) (P k Hk)).
  destruct (Nat.eqb j k); [|reflexivity]. rewrite (E1 j Hj). unfold group_size. f_equal.
  apply sumf_ext. intros i _. rewrite <- (C j Hj). ring.
Qed.
(** Size-weighted group effects add up to the overall mean. *)
Lemma group_aggregate n p G y g : (0 < n)%nat -> exclusive_groups n p G -> exhaustive n p G -> least_squares n p G y g ->
  sumf p (fun j => group_size n (fun i => G i j) / INR n * rg_params g j) = meanf n y.
Proof.
  intros Hn HG Ex L. unfold meanf. rewrite <- (groups_total n p G HG y Ex), <- sumf_div. apply sumf_ext. intros j Hj.
  assert (E1 : sumf n (fun i => G i j * 1 ^ 2) = sumf n (fun i => G i j)) by (apply sumf_ext; intros; ring).
  pose proof (groups_size_pos n p G HG j Hj) as P. unfold group_size.
  rewrite (groups_coef n p G (fun _ => 1) y HG g j (plain_groups _ _ _ _ _ L) Hj) by lra. rewrite E1.
  rewrite (sumf_ext n (fun i => G i j * (1 * y i)) (fun i => G i j * y i)) by (intros; ring).
  field. split; [apply INR_neq0; exact Hn|lra].
Qed.
Lemma irm_aggregate n norm y d g0 g1 m p G g : (0 < n)%nat -> exclusive_groups n p G -> exhaustive n p G ->
  let e := irm_score n false norm unit_weights y d g0 g1 m in
  least_squares n p G (el_b e) g ->
  sumf p (fun j => group_size n (fun i => G i j) / INR n * rg_params g j) = estimate n e.
Proof.
  intros Hn HG Ex e L. rewrite (group_aggregate n p G (el_b e) g Hn HG Ex L). unfold e. rewrite irm_est by exact Hn.
  apply meanf_ext. intros i _. unfold irm_score, irm_weights, unit_weights, dr_signal, dr_level, compl. cbn. unfold Rdiv. ring.
Qed.

(** Partially linear models. *)
Lemma est_div n e : estimate n e = - meanf n (el_b e) / meanf n (el_a e).
Proof. reflexivity. Qed.
Lemma plr_group_effect n p G yt dt g : exclusive_groups n p G -> least_squares n p (fun i j => G i j * dt i) yt g ->
  forall j, (j < p)%nat -> sumf n (fun i => G i j * (dt i) ^ 2) <> 0 ->
  rg_params g j = sumf n (fun i => G i j * (dt i * yt i)) / sumf n (fun i => G i j * (dt i) ^ 2).
Proof. intros HG L j Hj N. exact (groups_coef n p G dt yt HG g j L Hj N). Qed.
Lemma plr_est_po n y d l m gg : meanf n (fun i => (d i - m i) ^ 2) <> 0 ->
  estimate n (plr_score false y d l m gg) = meanf n (fun i => (d i - m i) * (y i - l i)) / meanf n (fun i => (d i - m i) ^ 2).
Proof.
  intros N. rewrite est_div. unfold plr_score. cbn [el_a el_b].
  rewrite (meanf_ext n (fun i => - ((d i - m i) * (d i - m i))) (fun i => - ((d i - m i) ^ 2))) by (intros; ring).
  rewrite meanf_opp. field. exact N.
Qed.
Lemma plr_est_iv n y d l m gg : meanf n (fun i => (d i - m i) * d i) <> 0 ->
  estimate n (plr_score true y d l m gg) * meanf n (fun i => (d i - m i) * d i) = meanf n (fun i => (d i - m i) * (y i - gg i)).
Proof.
  intros N. rewrite est_div. unfold plr_score. cbn [el_a el_b].
  rewrite meanf_opp. field. exact N.
Qed.
(** Overall effect from the group effects: weights are the shares of the
    residual treatment variation. *)
Lemma plr_aggregate n p G iv y d l m gg g : (0 < n)%nat -> exclusive_groups n p G -> exhaustive n p G ->
  let theta := estimate n (plr_score iv y d l m gg) in
  let yt := fst (plr_partial_out iv theta y d l m gg) in
  let dt := snd (plr_partial_out iv theta y d l m gg) in
  meanf n (el_a (plr_score iv y d l m gg)) <> 0 ->
  (forall j, (j < p)%nat -> sumf n (fun i => G i j * (dt i) ^ 2) <> 0) -> sumf n (fun i => (dt i) ^ 2) <> 0 ->
  least_squares n p (fun i j => G i j * dt i) yt g ->
  sumf p (fun j => sumf n (fun i => G i j * (dt i) ^ 2) / sumf n (fun i => (dt i) ^ 2) * rg_params g j) = theta.
Proof.
  intros Hn HG Ex theta yt dt Ha N1 N2 L.
  transitivity (sumf n (fun i => dt i * yt i) / sumf n (fun i => (dt i) ^ 2)).
  { rewrite <- (groups_total n p G HG (fun i => dt i * yt i) Ex), <- sumf_div. apply sumf_ext. intros j Hj.
    rewrite (groups_coef n p G dt yt HG g j L Hj (N1 j Hj)). field. split; [exact N2|apply N1; exact Hj]. }
  assert (Hn' : INR n <> 0) by (apply INR_neq0; exact Hn). destruct iv.
  - assert (Hd : meanf n (fun i => (d i - m i) * d i) <> 0).
    { intro E. apply Ha. unfold plr_score. cbn [el_a]. rewrite meanf_opp, E. ring. }
    pose proof (plr_est_iv n y d l m gg Hd) as E. fold theta in E.
    assert (E2 : sumf n (fun i => dt i * yt i) = theta * sumf n (fun i => (dt i) ^ 2)).
    { rewrite !(sumf_meanf n) by exact Hn. unfold dt, yt, plr_partial_out. cbn [fst snd].
      rewrite (meanf_ext n _ (fun i => (d i - m i) * (y i - gg i) - (theta * ((d i - m i) * m i)))) by (intros; ring).
      rewrite meanf_minus, meanf_scal, <- E.
      rewrite (meanf_ext n (fun i => (d i - m i) ^ 2) (fun i => (d i - m i) * d i - (d i - m i) * m i)) by (intros; ring).
      rewrite meanf_minus. ring. }
    rewrite E2. field. exact N2.
  - unfold theta. assert (Hd : meanf n (fun i => (d i - m i) ^ 2) <> 0).
    { intro E. apply Ha. unfold plr_score. cbn [el_a]. rewrite (meanf_ext n _ (fun i => - ((d i - m i) ^ 2))) by (intros; ring). rewrite meanf_opp, E. ring. }
    rewrite plr_est_po by exact Hd. unfold dt, yt, plr_partial_out, meanf. cbn [fst snd]. field. split; [exact Hn'|].
    intro E. apply Hd. unfold meanf. rewrite E. unfold Rdiv. ring.
Qed.

(** ** Policy trees *)
Lemma label_pos s i : 0 < s i -> tree_label s i = 1.
Proof. intros H. unfold tree_label, rsign. destruct (Rlt_dec (s i) 0); [lra|]. destruct (Rlt_dec 0 (s i)); lra. Qed.
Lemma label_neg s i : s i < 0 -> tree_label s i = 0.
Proof. intros H. unfold tree_label, rsign. destruct (Rlt_dec (s i) 0); lra. Qed.
Lemma label_zero s i : s i = 0 -> tree_label s i = 1 / 2.
Proof. intros H. unfold tree_label, rsign. destruct (Rlt_dec (s i) 0); [lra|]. destruct (Rlt_dec 0 (s i)); lra. Qed.
Lemma tree_error n s pi : policy n pi ->
  weighted_error n (tree_label s) (tree_weight s) pi = sumf n (fun i => Rmax (s i) 0) - policy_value n s pi.
Proof.
  intros P. unfold weighted_error, policy_value. rewrite <- sumf_minus. apply sumf_ext. intros i Hi. unfold tree_weight, reqb.
  destruct (Rtotal_order (s i) 0) as [H|[H|H]].
  - rewrite label_neg by exact H. rewrite Rmax_right, Rabs_left by lra. destruct (P i Hi) as [E|E]; rewrite E; destruct (Req_EM_T _ _); lra.
  - rewrite label_zero, H, Rabs_R0, Rmax_left by lra. destruct (P i Hi) as [E|E]; rewrite E; destruct (Req_EM_T _ _); lra.
  - rewrite label_pos by exact H. rewrite Rmax_left, Rabs_pos_eq by lra. destruct (P i Hi) as [E|E]; rewrite E; destruct (Req_EM_T _ _); lra.
Qed.
Lemma tree_order n s pi pi' : policy n pi -> policy n pi' ->
  (weighted_error n (tree_label s) (tree_weight s) pi <= weighted_error n (tree_label s) (tree_weight s) pi' <->
   policy_value n s pi' <= policy_value n s pi).
Proof. intros H H'. rewrite !tree_error by assumption. lra. Qed.
Lemma tree_fit_ok {X} (learn : vec -> vec -> X -> bool) n s : (forall i, (i < n)%nat -> s i <> 0) ->
  tree_fit learn n s = Ok (learn (tree_label s) (tree_weight s)) /\
  forall i, (i < n)%nat -> tree_weight s i = Rabs (s i) /\ (tree_label s i = 1 <-> 0 < s i) /\ (tree_label s i = 0 <-> s i < 0).
Proof.
  intros H. split.
  - unfold tree_fit, require. replace (forallb _ _) with true; [reflexivity|]. symmetry. apply forallb_forall. intros i Hi. apply in_seq in Hi.
    apply Bool.orb_true_iff. unfold reqb. destruct (Rtotal_order (s i) 0) as [L|[E|G]].
    + left. rewrite label_neg by exact L. destruct (Req_EM_T 0 0); congruence.
    + elim (H i); [lia|exact E].
    + right. rewrite label_pos by exact G. destruct (Req_EM_T 1 1); congruence.
  - intros i Hi. split; [reflexivity|]. specialize (H i Hi). destruct (Rtotal_order (s i) 0) as [L|[E|G]]; [|contradiction|].
    + rewrite label_neg by exact L. split; split; intro; lra.
    + rewrite label_pos by exact G. split; split; intro; lra.
Qed.
Lemma tree_fit_zero {X} (learn : vec -> vec -> X -> bool) n s i : (i < n)%nat -> s i = 0 -> tree_fit learn n s = Err ValueError.
Proof.
  intros Hi E. unfold tree_fit, require. replace (forallb _ _) with false; [reflexivity|]. symmetry. apply Bool.not_true_iff_false. intro F.
  rewrite forallb_forall in F. specialize (F i (proj2 (in_seq n 0 i) (conj (Nat.le_0_l i) Hi))). rewrite label_zero in F by exact E.
  apply Bool.orb_true_iff in F. unfold reqb in F. destruct F as [F|F]; destruct (Req_EM_T _ _); try discriminate; lra.
Qed.

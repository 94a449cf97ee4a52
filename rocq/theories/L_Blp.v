(** Lemmas: best linear predictors, group effects and policy trees. *)
From Verif Require Import S_Blp L_Sum L_Quantile L_Estimation L_Scores L_Framework.
From Coq Require Import Lra.
Local Open Scope R_scope.

Lemma sumf_pick p j f : (j < p)%nat -> (forall k, (k < p)%nat -> k <> j -> f k = 0) -> sumf p f = f j.
Proof.
  intros Hj H. induction p as [|p IH]; [lia|]. rewrite sumf_S. destruct (Nat.eq_dec j p) as [->|N].
  - rewrite sumf_zero; [ring|]. intros k Hk. apply H; lia.
  - rewrite IH; [rewrite (H p); [ring|lia|congruence]|lia|]. intros k Hk. apply H. lia.
Qed.

(** ** Intervals *)
Lemma two_sided cdf ppf lv : cdf_symmetric cdf -> cdf_inverse cdf ppf -> 0 < lv < 1 ->
  cdf (ppf (1 - (1 - lv) / 2)) - cdf (ppf ((1 - lv) / 2)) = lv.
Proof. intros _ I H. rewrite !I by lra. lra. Qed.

Lemma confint_args ppf root z m basis joint level nb rows : blp_confint ppf root z m basis joint level nb = Ok rows ->
  exists jt lv g, joint = PBool jt /\ level = PFloat lv /\ 0 < lv < 1 /\ is_int nb = true /\ (1 <= int_val nb)%Z /\ bl_fit m = Some g.
Proof.
  unfold blp_confint. destruct joint as [| |jt| | | |]; try discriminate. destruct level as [lv| | | | | |]; try discriminate.
  unfold require. destruct (negb (rleb lv 0 || rleb 1 lv)) eqn:El; [|discriminate]. apply Bool.negb_true_iff, Bool.orb_false_iff in El.
  destruct El as [E1 E2]. apply rleb_false in E1, E2. destruct (is_int nb) eqn:Ei; [|discriminate].
  destruct (negb (Z.ltb (int_val nb) 1)) eqn:En; [|discriminate]. apply Bool.negb_true_iff, Z.ltb_ge in En.
  destruct (bl_fit m) as [g|] eqn:Ef; [|discriminate]. intros _. exists jt, lv, g. repeat split; auto; lra.
Qed.
Lemma names_eqb_iff a b : names_eqb a b = true <-> a = b.
Proof. unfold names_eqb. destruct (list_eq_dec string_dec a b); split; congruence. Qed.
Lemma level_ok lv : 0 < lv < 1 -> negb (rleb lv 0 || rleb 1 lv) = true.
Proof. intros H. apply Bool.negb_true_iff, Bool.orb_false_iff. split; apply rleb_false; lra. Qed.

Section Pointwise.
  Variables (ppf : R -> R) (root z : nat -> nat -> R) (m : blp) (lv : R) (nb : pyval) (g : regression).
  Hypothesis Hlv : 0 < lv < 1.
  Hypothesis Hint : is_int nb = true.
  Hypothesis Hpos : (1 <= int_val nb)%Z.
  Hypothesis Hfit : bl_fit m = Some g.
  Let p := fr_cols (bl_basis m).
  Definition point_row (row : nat -> R) : row3 :=
    (blp_pred p g row + ppf ((1 - lv) / 2) * blp_se p g row, blp_pred p g row, blp_pred p g row + ppf (1 - (1 - lv) / 2) * blp_se p g row).
  Definition joint_row (nrows : nat) (rows : nat -> nat -> R) (row : nat -> R) : row3 :=
    let c := blp_crit (Z.to_nat (int_val nb)) nrows (blp_boot p g root z rows) lv in
    (blp_pred p g row - c * blp_se p g row, blp_pred p g row, blp_pred p g row + c * blp_se p g row).
  Definition any_row (jt : bool) nrows rows row := if jt then joint_row nrows rows row else point_row row.
  Lemma confint_basis jt nrows b : fr_names b = fr_names (bl_basis m) ->
    blp_confint ppf root z m (Some (nrows, b)) (PBool jt) (PFloat lv) nb =
    Ok (map (fun e => any_row jt nrows (fr_at b) (fr_at b e)) (seq 0 nrows)).
  Proof.
    intros E. unfold blp_confint. unfold require. rewrite level_ok, Hint by assumption.
    replace (Z.ltb (int_val nb) 1) with false by (symmetry; apply Z.ltb_ge; lia). cbn [negb]. rewrite Hfit.
    replace (Nat.eqb (fr_cols b) (fr_cols (bl_basis m))) with true by (symmetry; apply Nat.eqb_eq; unfold fr_cols; rewrite E; reflexivity).
    replace (names_eqb (fr_names b) (fr_names (bl_basis m))) with true by (symmetry; apply names_eqb_iff; exact E).
    destruct jt; reflexivity.
  Qed.
  Definition unit_row (e j : nat) : R := if Nat.eqb e j then 1 else 0.
  Lemma confint_gate jt : bl_gate m = true ->
    blp_confint ppf root z m None (PBool jt) (PFloat lv) nb = Ok (map (fun e => any_row jt p unit_row (unit_row e)) (seq 0 p)).
  Proof.
    intros E. unfold blp_confint. unfold require. rewrite level_ok, Hint by assumption.
    replace (Z.ltb (int_val nb) 1) with false by (symmetry; apply Z.ltb_ge; lia). cbn [negb]. rewrite Hfit, E.
    destruct jt; reflexivity.
  Qed.
  Lemma confint_coef jt : bl_gate m = false ->
    blp_confint ppf root z m None (PBool jt) (PFloat lv) nb =
    Ok (map (fun j => (sm_conf_int ppf g ((1 - lv) / 2) (-1) j, rg_params g j, sm_conf_int ppf g ((1 - lv) / 2) 1 j)) (seq 0 p)).
  Proof.
    intros E. unfold blp_confint. unfold require. rewrite level_ok, Hint by assumption.
    replace (Z.ltb (int_val nb) 1) with false by (symmetry; apply Z.ltb_ge; lia). cbn [negb]. rewrite Hfit, E. reflexivity.
  Qed.
  Lemma point_level cdf row : cdf_symmetric cdf -> cdf_inverse cdf ppf -> 0 < blp_se p g row ->
    has_level cdf (point_row row) (blp_se p g row) lv.
  Proof.
    intros Sy I Hs. unfold has_level, point_row.
    replace ((blp_pred p g row + ppf (1 - (1 - lv) / 2) * blp_se p g row - blp_pred p g row) / blp_se p g row) with (ppf (1 - (1 - lv) / 2)) by (field; lra).
    replace ((blp_pred p g row + ppf ((1 - lv) / 2) * blp_se p g row - blp_pred p g row) / blp_se p g row) with (ppf ((1 - lv) / 2)) by (field; lra).
    apply two_sided; assumption.
  Qed.
End Pointwise.

Lemma unit_pred p g e : (e < p)%nat -> blp_pred p g (unit_row e) = rg_params g e.
Proof.
  intros H. unfold blp_pred, unit_row. rewrite (sumf_pick p e); [rewrite Nat.eqb_refl; ring|exact H|].
  intros k _ Hk. replace (Nat.eqb e k) with false by (symmetry; apply Nat.eqb_neq; congruence). ring.
Qed.
Lemma unit_se p g e : (e < p)%nat -> blp_se p g (unit_row e) = sqrt (rg_omega g e e).
Proof.
  intros H. unfold blp_se, unit_row. f_equal. rewrite (sumf_pick p e); [|exact H|].
  - rewrite Nat.eqb_refl. rewrite (sumf_pick p e); [rewrite Nat.eqb_refl; ring|exact H|].
    intros k _ Hk. replace (Nat.eqb e k) with false by (symmetry; apply Nat.eqb_neq; congruence). ring.
  - intros k _ Hk. replace (Nat.eqb e k) with false by (symmetry; apply Nat.eqb_neq; congruence). ring.
Qed.

(** Pointwise intervals for a given basis. *)
Lemma pointwise cdf ppf root z m nrows b lv nb rows : cdf_symmetric cdf -> cdf_inverse cdf ppf ->
  blp_confint ppf root z m (Some (nrows, b)) (PBool false) (PFloat lv) nb = Ok rows ->
  exists g, bl_fit m = Some g /\ length rows = nrows /\
    forall e, (e < nrows)%nat -> let r := nth e rows (0, 0, 0) in let p := fr_cols (bl_basis m) in
      let se := sqrt (sumf p (fun j => sumf p (fun k => fr_at b e j * rg_omega g j k * fr_at b e k))) in
      effect r = sumf (fr_cols (bl_basis m)) (fun j => fr_at b e j * rg_params g j) /\ (0 < se -> has_level cdf r se lv).
Proof.
  intros Sy I H. destruct (confint_args _ _ _ _ _ _ _ _ _ H) as (jt & lv' & g & E1 & E2 & L & Hi & Hp & F).
  injection E1 as <-. injection E2 as <-. exists g. split; [exact F|].
  assert (N : fr_names b = fr_names (bl_basis m)).
  { revert H. unfold blp_confint, require. rewrite level_ok, Hi by assumption.
    replace (Z.ltb (int_val nb) 1) with false by (symmetry; apply Z.ltb_ge; lia). cbn [negb]. rewrite F.
    destruct (Nat.eqb _ _); [|discriminate]. destruct (names_eqb _ _) eqn:En; [|discriminate]. intros _. apply names_eqb_iff. exact En. }
  rewrite (confint_basis _ _ _ _ _ _ _ L Hi Hp F) in H by exact N. injection H as <-.
  split; [rewrite map_length, seq_length; reflexivity|]. intros e He r p se. unfold r.
  rewrite (nth_indep _ (0, 0, 0) (any_row ppf root z m lv nb g false nrows (fr_at b) (fr_at b 0%nat))) by (rewrite map_length, seq_length; exact He).
  rewrite (map_nth (fun e => any_row ppf root z m lv nb g false nrows (fr_at b) (fr_at b e))), seq_nth by exact He. cbn [plus]. split; [reflexivity|].
  intro Hs. assert (Es : se = blp_se p g (fr_at b e)).
  { unfold se, blp_se. f_equal. rewrite sumf_swap. apply sumf_ext. intros k _. rewrite <- sumf_scal_r. apply sumf_ext. intros j _. ring. }
  rewrite Es in *. apply point_level; assumption.
Qed.
Lemma gate_default cdf ppf root z m lv nb rows : cdf_symmetric cdf -> cdf_inverse cdf ppf -> bl_gate m = true ->
  blp_confint ppf root z m None (PBool false) (PFloat lv) nb = Ok rows ->
  exists g, bl_fit m = Some g /\ length rows = fr_cols (bl_basis m) /\
    forall j, (j < fr_cols (bl_basis m))%nat -> let r := nth j rows (0, 0, 0) in let se := sqrt (rg_omega g j j) in
      effect r = rg_params g j /\ (0 < se -> has_level cdf r se lv).
Proof.
  intros Sy I G H. destruct (confint_args _ _ _ _ _ _ _ _ _ H) as (jt & lv' & g & E1 & E2 & L & Hi & Hp & F).
  injection E1 as <-. injection E2 as <-. exists g. split; [exact F|].
  rewrite (confint_gate _ _ _ _ _ _ _ L Hi Hp F) in H by exact G. injection H as <-.
  split; [rewrite map_length, seq_length; reflexivity|]. intros e He.
  set (p := fr_cols (bl_basis m)) in *.
  rewrite (nth_indep _ (0, 0, 0) (any_row ppf root z m lv nb g false p unit_row (unit_row 0%nat))) by (rewrite map_length, seq_length; exact He).
  rewrite (map_nth (fun e => any_row ppf root z m lv nb g false p unit_row (unit_row e))), seq_nth by exact He. cbn [plus]. split.
  - cbn. fold p. apply unit_pred. exact He.
  - cbv zeta. rewrite <- (unit_se p g e He). intro Hs. apply point_level; assumption.
Qed.
(** Default coefficient intervals have level (1 + lv) / 2. *)
Lemma coef_default cdf ppf root z m jt lv nb rows : cdf_symmetric cdf -> cdf_inverse cdf ppf -> bl_gate m = false ->
  blp_confint ppf root z m None (PBool jt) (PFloat lv) nb = Ok rows ->
  exists g, bl_fit m = Some g /\ length rows = fr_cols (bl_basis m) /\
    forall j, (j < fr_cols (bl_basis m))%nat -> let r := nth j rows (0, 0, 0) in let se := sqrt (rg_omega g j j) in
      effect r = rg_params g j /\ (0 < se -> has_level cdf r se ((1 + lv) / 2) /\ ~ has_level cdf r se lv).
Proof.
  intros Sy I G H. destruct (confint_args _ _ _ _ _ _ _ _ _ H) as (jt' & lv' & g & E1 & E2 & L & Hi & Hp & F).
  injection E1 as <-. injection E2 as <-. exists g. split; [exact F|].
  rewrite (confint_coef _ _ _ _ _ _ _ L Hi Hp F) in H by exact G. injection H as <-.
  split; [rewrite map_length, seq_length; reflexivity|]. intros e He.
  set (p := fr_cols (bl_basis m)) in *.
  set (f := fun j => (sm_conf_int ppf g ((1 - lv) / 2) (-1) j, rg_params g j, sm_conf_int ppf g ((1 - lv) / 2) 1 j)).
  rewrite (nth_indep _ (0, 0, 0) (f 0%nat)) by (rewrite map_length, seq_length; exact He).
  rewrite (map_nth f), seq_nth by exact He. cbn [plus]. split; [reflexivity|]. cbv zeta. intro Hs.
  assert (E : cdf ((sm_conf_int ppf g ((1 - lv) / 2) 1 e - rg_params g e) / sqrt (rg_omega g e e)) -
              cdf ((sm_conf_int ppf g ((1 - lv) / 2) (-1) e - rg_params g e) / sqrt (rg_omega g e e)) = (1 + lv) / 2).
  { unfold sm_conf_int.
    replace ((rg_params g e + 1 * (ppf (1 - (1 - lv) / 2 / 2) * sqrt (rg_omega g e e)) - rg_params g e) / sqrt (rg_omega g e e)) with (ppf (1 - (1 - lv) / 2 / 2)) by (field; lra).
    replace ((rg_params g e + -1 * (ppf (1 - (1 - lv) / 2 / 2) * sqrt (rg_omega g e e)) - rg_params g e) / sqrt (rg_omega g e e)) with (- ppf (1 - (1 - lv) / 2 / 2)) by (field; lra).
    rewrite Sy, I by lra. lra. }
  split; [exact E|]. unfold has_level, f. rewrite E. lra.
Qed.

(** Rejected arguments. *)
Lemma confint_rejects ppf root z m basis joint level nb :
  (is_bool joint = false -> blp_confint ppf root z m basis joint level nb = Err TypeError) /\
  (is_bool joint = true -> is_float level = false -> blp_confint ppf root z m basis joint level nb = Err TypeError) /\
  (forall lv, is_bool joint = true -> ~ (0 < lv < 1) -> blp_confint ppf root z m basis joint (PFloat lv) nb = Err ValueError) /\
  (forall lv, is_bool joint = true -> 0 < lv < 1 -> is_int nb = true -> (1 <= int_val nb)%Z -> bl_fit m = None ->
     blp_confint ppf root z m basis joint (PFloat lv) nb = Err ValueError).
Proof.
  repeat split.
  - destruct joint; try discriminate; reflexivity.
  - destruct joint; try discriminate. destruct level; try discriminate; reflexivity.
  - intros lv Hj H. destruct joint; try discriminate. unfold blp_confint, require.
    replace (negb (rleb lv 0 || rleb 1 lv)) with false; [reflexivity|]. symmetry. apply Bool.negb_false_iff, Bool.orb_true_iff.
    destruct (Rle_dec lv 0); [left|right]; apply rleb_true; [assumption|]. apply Rnot_lt_le. intro. apply H. lra.
  - intros lv Hj L Hi Hp F. destruct joint; try discriminate. unfold blp_confint, require. rewrite level_ok, Hi by assumption.
    replace (Z.ltb (int_val nb) 1) with false by (symmetry; apply Z.ltb_ge; lia). cbn [negb]. rewrite F. reflexivity.
Qed.

(** ** Joint critical value *)
Lemma quantile_one x q : quantile [x] q = x.
Proof. unfold quantile. cbn [length Nat.sub rsort rinsert]. rewrite Rmult_0_r. replace (Z.to_nat (Int_part 0)) with 0%nat.
  - cbn. ring.
  - replace (Int_part 0) with 0%Z; [reflexivity|]. change 0 with (INR 0). rewrite Int_part_INR. reflexivity.
Qed.
(** With one basis row the critical value is the largest draw, whatever the level. *)
Lemma crit_one_row nb stat lv : blp_crit nb 1 stat lv = maxf nb (fun b => Rabs (stat b 0%nat)).
Proof. unfold blp_crit. cbn [seq map]. apply quantile_one. Qed.

(** ** Group effects *)
Section Orthogonal.
  Variables (n p : nat) (B : nat -> nat -> R) (y : nat -> R) (g : regression).
  Hypothesis Horth : forall j k, (j < p)%nat -> (k < p)%nat -> j <> k -> gram n B j k = 0.
  Lemma ls_orth j : least_squares n p B y g -> (j < p)%nat -> rg_params g j * gram n B j j = sumf n (fun i => B i j * y i).
  Proof.
    intros L Hj. specialize (L j Hj). unfold resid in L.
    rewrite (sumf_ext n _ (fun i => B i j * y i - sumf p (fun k => B i j * B i k * rg_params g k))) in L.
    2: { intros i _. rewrite Rmult_minus_distr_l. f_equal. rewrite <- sumf_scal. apply sumf_ext. intros. ring. }
    rewrite sumf_minus, sumf_swap in L. rewrite (sumf_pick p j) in L; [|exact Hj|].
    - rewrite sumf_scal_r in L. fold (gram n B j j) in L. lra.
    - intros k Hk N. rewrite sumf_scal_r. fold (gram n B j k). rewrite Horth by congruence. ring.
  Qed.
  Lemma sandwich_orth j k : sandwich n p B y g -> (j < p)%nat -> (k < p)%nat ->
    gram n B j j * rg_omega g j k * gram n B k k = sumf n (fun i => B i j * (resid p B y g i) ^ 2 * B i k).
  Proof.
    intros L Hj Hk. rewrite <- (L j k Hj Hk). rewrite (sumf_pick p j); [|exact Hj|].
    - rewrite (sumf_pick p k); [reflexivity|exact Hk|]. intros b Hb N. rewrite (Horth b k) by congruence. ring.
    - intros a Ha N. rewrite sumf_zero; [reflexivity|]. intros b Hb. rewrite (Horth j a) by congruence. ring.
  Qed.
End Orthogonal.

(** Group dummies times a common factor w. *)
Section Groups.
  Variables (n p : nat) (G : nat -> nat -> R) (w y : nat -> R).
  Hypothesis HG : exclusive_groups n p G.
  Lemma groups_sq i j : (i < n)%nat -> (j < p)%nat -> G i j * G i j = G i j.
  Proof. intros Hi Hj. destruct HG as (Hb & _ & _). destruct (Hb i j Hi Hj) as [->| ->]; ring. Qed.
  Lemma groups_prod i j k : (i < n)%nat -> (j < p)%nat -> (k < p)%nat -> j <> k -> G i j * G i k = 0.
  Proof.
    intros Hi Hj Hk N. destruct HG as (Hb & Hx & _). destruct (Hb i j Hi Hj) as [->|E1]; [ring|]. destruct (Hb i k Hi Hk) as [->|E2]; [ring|].
    elim N. exact (Hx i j k Hi Hj Hk E1 E2).
  Qed.
  Let B := fun i j => G i j * w i.
  Lemma groups_gram_off j k : (j < p)%nat -> (k < p)%nat -> j <> k -> gram n B j k = 0.
  Proof. intros Hj Hk N. unfold gram, B. apply sumf_zero. intros i Hi. replace (G i j * w i * (G i k * w i)) with (G i j * G i k * (w i * w i)) by ring. rewrite groups_prod by assumption. ring. Qed.
  Lemma groups_gram j : (j < p)%nat -> gram n B j j = sumf n (fun i => G i j * (w i) ^ 2).
  Proof. intros Hj. unfold gram, B. apply sumf_ext. intros i Hi. rewrite <- (groups_sq i j) at 3 by assumption. ring. Qed.
  Lemma groups_coef g j : least_squares n p B y g -> (j < p)%nat -> sumf n (fun i => G i j * (w i) ^ 2) <> 0 ->
    rg_params g j = sumf n (fun i => G i j * (w i * y i)) / sumf n (fun i => G i j * (w i) ^ 2).
  Proof.
    intros L Hj N. pose proof (ls_orth n p B y g groups_gram_off j L Hj) as E. rewrite groups_gram in E by exact Hj.
    apply (Rmult_eq_reg_r (sumf n (fun i => G i j * w i ^ 2))); [|exact N]. rewrite E. unfold Rdiv. rewrite Rmult_assoc, Rinv_l, Rmult_1_r by exact N.
    apply sumf_ext. intros i _. unfold B. ring.
  Qed.
  Lemma groups_resid g i j : (i < n)%nat -> (j < p)%nat -> G i j = 1 -> resid p B y g i = y i - w i * rg_params g j.
  Proof.
    intros Hi Hj E. unfold resid, B. f_equal. rewrite (sumf_pick p j); [rewrite E; ring|exact Hj|].
    intros k Hk N. destruct HG as (Hb & Hx & _). destruct (Hb i k Hi Hk) as [->|E2]; [ring|]. elim N. exact (Hx i k j Hi Hk Hj E2 E).
  Qed.
  Lemma groups_cov g j k : sandwich n p B y g -> (j < p)%nat -> (k < p)%nat ->
    sumf n (fun i => G i j * (w i) ^ 2) <> 0 -> sumf n (fun i => G i k * (w i) ^ 2) <> 0 ->
    rg_omega g j k = if Nat.eqb j k then sumf n (fun i => G i j * (w i * (y i - w i * rg_params g j)) ^ 2) / (sumf n (fun i => G i j * (w i) ^ 2)) ^ 2 else 0.
  Proof.
    intros L Hj Hk N1 N2. pose proof (sandwich_orth n p B y g groups_gram_off j k L Hj Hk) as E.
    rewrite !groups_gram in E by assumption. destruct (Nat.eqb j k) eqn:Ejk.
    - apply Nat.eqb_eq in Ejk. subst k.
      assert (E2 : sumf n (fun i => B i j * resid p B y g i ^ 2 * B i j) = sumf n (fun i => G i j * (w i * (y i - w i * rg_params g j)) ^ 2)).
      { apply sumf_ext. intros i Hi. destruct HG as (Hb & _ & _). destruct (Hb i j Hi Hj) as [Eg|Eg]; unfold B at 1 3; [rewrite Eg; ring|].
        rewrite (groups_resid g i j Hi Hj Eg). rewrite Eg. ring. }
      rewrite E2 in E. rewrite <- E. field. exact N1.
    - apply Nat.eqb_neq in Ejk.
      assert (E2 : sumf n (fun i => B i j * resid p B y g i ^ 2 * B i k) = 0).
      { apply sumf_zero. intros i Hi. unfold B at 1 3. replace (G i j * w i * resid p B y g i ^ 2 * (G i k * w i)) with (G i j * G i k * (w i * w i * resid p B y g i ^ 2)) by ring.
        rewrite groups_prod by assumption. ring. }
      rewrite E2 in E. apply Rmult_integral in E. destruct E as [E|E]; [|contradiction]. apply Rmult_integral in E. destruct E as [E|E]; [contradiction|exact E].
  Qed.
  Lemma groups_total f : exhaustive n p G -> sumf p (fun j => sumf n (fun i => G i j * f i)) = sumf n f.
  Proof.
    intros Ex. rewrite sumf_swap. apply sumf_ext. intros i Hi. destruct (Ex i Hi) as (j & Hj & E).
    rewrite (sumf_pick p j); [rewrite E; ring|exact Hj|]. intros k Hk N. destruct HG as (Hb & Hx & _).
    destruct (Hb i k Hi Hk) as [->|E2]; [ring|]. elim N. exact (Hx i k j Hi Hk Hj E2 E).
  Qed.
  Lemma groups_size_pos j : (j < p)%nat -> 0 < sumf n (fun i => G i j).
  Proof.
    intros Hj. destruct HG as (Hb & _ & He). apply sumf_pos.
    - intros i Hi. destruct (Hb i j Hi Hj) as [->| ->]; lra.
    - destruct (He j Hj) as (i & Hi & E). exists i. split; [exact Hi|]. rewrite E. lra.
  Qed.
End Groups.

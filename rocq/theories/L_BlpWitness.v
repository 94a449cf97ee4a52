(** Witnesses for the best-linear-predictor properties. *)
From Verif Require Import S_Blp L_Blp L_Gate L_Sum L_Quantile L_Framework L_FwExamples.
From Coq Require Import Lra.
Local Open Scope R_scope.

Lemma quantile_two a b q : a <= b -> 0 <= q < 1 -> quantile [a; b] q = a + q * (b - a).
Proof.
  intros H Hq. unfold quantile. cbn [length Nat.sub].
  assert (E : rsort [a; b] = [a; b]) by (cbn; destruct (Rle_dec a b); [reflexivity|contradiction]).
  rewrite E. change (INR 1) with 1. rewrite Rmult_1_r.
  assert (E2 : Int_part q = 0%Z) by (unfold Int_part; rewrite <- (tech_up q 1); [reflexivity|lra|cbn; lra]).
  rewrite E2. cbn. ring.
Qed.

(** One-row bases: the joint interval ignores the level. *)
Lemma joint_one_row ppf root z m b lv nb rows : blp_confint ppf root z m (Some (1%nat, b)) (PBool true) (PFloat lv) nb = Ok rows ->
  exists g r, bl_fit m = Some g /\ rows = [r] /\
    upper r - effect r = maxf (Z.to_nat (int_val nb)) (fun k => Rabs (blp_boot (fr_cols (bl_basis m)) g root z (fr_at b) k 0)) *
      blp_se (fr_cols (bl_basis m)) g (fr_at b 0%nat).
Proof.
  intros H. destruct (confint_args _ _ _ _ _ _ _ _ _ H) as (jt & lv' & g & E1 & E2 & L & Hi & Hp & F).
  injection E1 as <-. injection E2 as <-.
  assert (N : fr_names b = fr_names (bl_basis m)).
  { revert H. unfold blp_confint, require. rewrite level_ok, Hi by assumption.
    replace (Z.ltb (int_val nb) 1) with false by (symmetry; apply Z.ltb_ge; lia). cbn [negb]. rewrite F.
    destruct (Nat.eqb _ _); [|discriminate]. destruct (names_eqb _ _) eqn:En; [|discriminate]. intros _. apply names_eqb_iff. exact En. }
  rewrite (confint_basis _ _ _ _ _ _ _ L Hi Hp F) in H by exact N. injection H as <-.
  eexists g, _. split; [exact F|]. split; [reflexivity|]. unfold any_row, joint_row, upper, effect. cbn [fst snd].
  rewrite crit_one_row. ring.
Qed.
Lemma joint_level_free ppf root z m b lv lv' nb rows rows' :
  blp_confint ppf root z m (Some (1%nat, b)) (PBool true) (PFloat lv) nb = Ok rows ->
  blp_confint ppf root z m (Some (1%nat, b)) (PBool true) (PFloat lv') nb = Ok rows' -> rows = rows'.
Proof.
  intros H H'. destruct (confint_args _ _ _ _ _ _ _ _ _ H) as (jt & l & g & E1 & E2 & L & Hi & Hp & F).
  destruct (confint_args _ _ _ _ _ _ _ _ _ H') as (jt' & l' & g' & E1' & E2' & L' & _ & _ & F').
  injection E1 as <-. injection E2 as <-. injection E1' as <-. injection E2' as <-. rewrite F in F'. injection F' as <-.
  assert (N : fr_names b = fr_names (bl_basis m)).
  { revert H. unfold blp_confint, require. rewrite level_ok, Hi by assumption.
    replace (Z.ltb (int_val nb) 1) with false by (symmetry; apply Z.ltb_ge; lia). cbn [negb]. rewrite F.
    destruct (Nat.eqb _ _); [|discriminate]. destruct (names_eqb _ _) eqn:En; [|discriminate]. intros _. apply names_eqb_iff. exact En. }
  rewrite (confint_basis _ _ _ _ _ _ _ L Hi Hp F) in H by exact N. rewrite (confint_basis _ _ _ _ _ _ _ L' Hi Hp F) in H' by exact N.
  injection H as <-. injection H' as <-. cbn [seq map]. unfold any_row, joint_row. rewrite !crit_one_row. reflexivity.
Qed.

(** A fitted model with p uncorrelated unit-variance coefficients. *)
Definition ident (j k : nat) : R := if Nat.eqb j k then 1 else 0.
Definition wreg : regression := {| rg_params := fun _ => 0; rg_omega := ident |}.
Definition wblp (names : list string) (gate : bool) : blp :=
  {| bl_n := 4; bl_signal := fun _ => 0; bl_basis := {| fr_names := names; fr_at := ident |}; bl_gate := gate; bl_fit := Some wreg |}.
Lemma wblp_se names gate e : (e < length names)%nat -> blp_se (fr_cols (bl_basis (wblp names gate))) wreg (ident e) = 1.
Proof. intros H. change ident with unit_row at 1. rewrite unit_se by exact H. cbn. unfold ident. rewrite Nat.eqb_refl. apply sqrt_1. Qed.

(** Two groups, one draw with statistics 0 and 1: the level-1/2 band has
    critical value 1/2 and contains no draw. *)
Definition wz (k b : nat) : R := INR k.
Lemma wboot e b : (e < 2)%nat -> blp_boot 2 wreg ident wz ident b e = INR e.
Proof.
  intros H. unfold blp_boot. change 2%nat with (fr_cols (bl_basis (wblp ["a"; "b"]%string true))) at 3. rewrite wblp_se by exact H.
  rewrite (sumf_pick 2 e); [|exact H|].
  - rewrite (sumf_pick 2 e); [unfold ident, wz; rewrite Nat.eqb_refl; field|exact H|].
    intros k _ N. unfold ident. replace (Nat.eqb e k) with false by (symmetry; apply Nat.eqb_neq; congruence). ring.
  - intros k _ N. unfold ident at 1. replace (Nat.eqb e k) with false by (symmetry; apply Nat.eqb_neq; congruence). ring.
Qed.
Lemma wcrit : blp_crit 1 2 (blp_boot 2 wreg ident wz ident) (1 / 2) = 1 / 2.
Proof.
  unfold blp_crit. cbn [seq map maxf rmax_list fold_left]. rewrite !wboot by lia. rewrite !Rabs_pos_eq by apply pos_INR.
  unfold maxf. cbn [seq map rmax_list fold_left]. cbn [INR]. rewrite quantile_two by lra. lra.
Qed.
Lemma wwithin : share_within 1 2 (blp_boot 2 wreg ident wz ident) (1 / 2) = 0.
Proof.
  unfold share_within, rshare, rcount. cbn [seq filter forallb]. rewrite !wboot by lia. rewrite !Rabs_pos_eq by apply pos_INR. cbn [INR].
  replace (rleb 1 (1 / 2)) with false by (symmetry; apply rleb_false; lra). rewrite Bool.andb_false_r. cbn. field.
Qed.
Lemma joint_narrow : exists ppf root z m lv nb rows g, 
  blp_confint ppf root z m None (PBool true) (PFloat lv) nb = Ok rows /\ bl_fit m = Some g /\ bl_gate m = true /\
  exists c, (forall j, (j < fr_cols (bl_basis m))%nat -> let r := nth j rows (0, 0, 0) in
       0 < sqrt (rg_omega g j j) /\ upper r - effect r = c * sqrt (rg_omega g j j)) /\
    share_within (Z.to_nat (int_val nb)) (fr_cols (bl_basis m)) (blp_boot (fr_cols (bl_basis m)) g root z unit_row) c < lv /\
    c < joint_critical (Z.to_nat (int_val nb)) (fr_cols (bl_basis m)) (blp_boot (fr_cols (bl_basis m)) g root z unit_row) lv.
Proof.
  exists ex_ppf, ident, wz, (wblp ["a"; "b"]%string true), (1 / 2), (PInt 1), 
    (map (fun e => any_row ex_ppf ident wz (wblp ["a"; "b"]%string true) (1 / 2) (PInt 1) wreg true 2 unit_row (unit_row e)) (seq 0 2)), wreg.
  split; [apply confint_gate; [lra|reflexivity|cbn; lia|reflexivity|reflexivity]|]. split; [reflexivity|]. split; [reflexivity|].
  exists (1 / 2). cbn [int_val]. change (fr_cols (bl_basis (wblp ["a"; "b"]%string true))) with 2%nat. change (Z.to_nat 1) with 1%nat.
  split; [|split].
  - intros j Hj. cbv zeta. cbn [rg_omega wreg]. replace (ident j j) with 1 by (unfold ident; rewrite Nat.eqb_refl; reflexivity).
    rewrite sqrt_1. split; [lra|].
    assert (U : forall e, (e < 2)%nat -> upper (any_row ex_ppf ident wz (wblp ["a"; "b"]%string true) (1 / 2) (PInt 1) wreg true 2 unit_row (unit_row e)) -
      effect (any_row ex_ppf ident wz (wblp ["a"; "b"]%string true) (1 / 2) (PInt 1) wreg true 2 unit_row (unit_row e)) = 1 / 2 * 1).
    { intros e He. unfold any_row, joint_row, upper, effect. cbn [fst snd]. change (fr_cols (bl_basis (wblp ["a"; "b"]%string true))) with 2%nat.
      change (Z.to_nat (int_val (PInt 1))) with 1%nat. change unit_row with ident. rewrite wcrit.
      pose proof (wblp_se ["a"; "b"]%string true e He) as E. change (fr_cols (bl_basis (wblp ["a"; "b"]%string true))) with 2%nat in E. rewrite E. ring. }
    destruct j as [|[|j]]; [exact (U 0%nat Hj)|exact (U 1%nat Hj)|lia].
  - change unit_row with ident. rewrite wwithin. lra.
  - change unit_row with ident. unfold joint_critical. cbn [seq map]. rewrite quantile_one. unfold maxf. cbn [seq map rmax_list fold_left].
    rewrite !wboot by lia. rewrite !Rabs_pos_eq by apply pos_INR. cbn [INR]. rewrite Rmax_right by lra. lra.
Qed.
(** One row, draws 1 and 2: critical value 2 instead of 3/2 at level 1/2. *)
Definition wz2 (k b : nat) : R := INR (S b).
Lemma joint_wide : exists ppf root z m b lv nb rows r g,
  blp_confint ppf root z m (Some (1%nat, b)) (PBool true) (PFloat lv) nb = Ok rows /\ bl_fit m = Some g /\ rows = [r] /\
  0 < blp_se (fr_cols (bl_basis m)) g (fr_at b 0%nat) /\
  joint_critical (Z.to_nat (int_val nb)) 1 (blp_boot (fr_cols (bl_basis m)) g root z (fr_at b)) lv * blp_se (fr_cols (bl_basis m)) g (fr_at b 0%nat)
    < upper r - effect r.
Proof.
  set (m := wblp ["a"]%string false).
  assert (C : blp_confint ex_ppf ident wz2 m (Some (1%nat, bl_basis m)) (PBool true) (PFloat (1 / 2)) (PInt 2) =
    Ok (map (fun e => any_row ex_ppf ident wz2 m (1 / 2) (PInt 2) wreg true 1 (fr_at (bl_basis m)) (fr_at (bl_basis m) e)) (seq 0 1))).
  { apply confint_basis; [lra|reflexivity|cbn; lia|reflexivity|reflexivity]. }
  destruct (joint_one_row _ _ _ _ _ _ _ _ C) as (g & r & F & E & U). injection F as <-.
  exists ex_ppf, ident, wz2, m, (bl_basis m), (1 / 2), (PInt 2). eexists. exists r, wreg. split; [exact C|]. split; [reflexivity|]. split; [exact E|].
  pose proof (wblp_se ["a"]%string false 0 ltac:(cbn; lia)) as Es. fold m in Es. change (fr_at (bl_basis m) 0%nat) with (ident 0). 
  change (ident 0%nat) with (fr_at (bl_basis m) 0%nat) in Es.
  assert (B : forall k, blp_boot (fr_cols (bl_basis m)) wreg ident wz2 (fr_at (bl_basis m)) k 0 = INR (S k)).
  { intro k. unfold blp_boot. rewrite Es. change (fr_cols (bl_basis m)) with 1%nat. cbn [bl_basis m wblp fr_at]. unfold sumf. cbn [seq map Rsum].
    unfold ident, wz2. cbn [Nat.eqb]. field. }
  change (ident 0%nat) with (fr_at (bl_basis m) 0%nat). rewrite Es in *. split; [lra|]. rewrite U.
  unfold joint_critical. change (Z.to_nat (int_val (PInt 2))) with 2%nat. unfold maxf. cbn [seq map rmax_list fold_left]. rewrite !B.
  rewrite !Rabs_pos_eq by apply pos_INR. cbn [INR]. rewrite quantile_two by lra. rewrite Rmax_right by lra. lra.
Qed.

(** C51, C52, C54, C63: best linear predictors, group effects, policy trees. *)
From Verif Require Import S_Blp L_Blp L_Gate L_BlpWitness L_FwExamples L_Sum.
From Coq Require Import Lra.
Local Open Scope R_scope.

(** ** C51 *)
Theorem C51_pointwise_partial : forall cdf ppf root z m nrows b lv nb rows, cdf_symmetric cdf -> cdf_inverse cdf ppf ->
  blp_confint ppf root z m (Some (nrows, b)) (PBool false) (PFloat lv) nb = Ok rows ->
  exists g, bl_fit m = Some g /\ length rows = nrows /\
    forall e, (e < nrows)%nat -> let r := nth e rows (0, 0, 0) in let p := fr_cols (bl_basis m) in
      let se := sqrt (sumf p (fun j => sumf p (fun k => fr_at b e j * rg_omega g j k * fr_at b e k))) in
      effect r = sumf (fr_cols (bl_basis m)) (fun j => fr_at b e j * rg_params g j) /\ (0 < se -> has_level cdf r se lv).
Proof. exact pointwise. Qed.
Print Assumptions C51_pointwise_partial.

Theorem C51_group_intervals_partial : forall cdf ppf root z m lv nb rows, cdf_symmetric cdf -> cdf_inverse cdf ppf -> bl_gate m = true ->
  blp_confint ppf root z m None (PBool false) (PFloat lv) nb = Ok rows ->
  exists g, bl_fit m = Some g /\ length rows = fr_cols (bl_basis m) /\
    forall j, (j < fr_cols (bl_basis m))%nat -> let r := nth j rows (0, 0, 0) in let se := sqrt (rg_omega g j j) in
      effect r = rg_params g j /\ (0 < se -> has_level cdf r se lv).
Proof. exact gate_default. Qed.
Print Assumptions C51_group_intervals_partial.

(** The default intervals for the coefficients: level (1 + lv) / 2, for every
    requested level. *)
Theorem C51_coefficients_refuted : forall cdf ppf root z m jt lv nb rows, cdf_symmetric cdf -> cdf_inverse cdf ppf -> bl_gate m = false ->
  blp_confint ppf root z m None (PBool jt) (PFloat lv) nb = Ok rows ->
  exists g, bl_fit m = Some g /\ length rows = fr_cols (bl_basis m) /\
    forall j, (j < fr_cols (bl_basis m))%nat -> let r := nth j rows (0, 0, 0) in let se := sqrt (rg_omega g j j) in
      effect r = rg_params g j /\ (0 < se -> has_level cdf r se ((1 + lv) / 2) /\ ~ has_level cdf r se lv).
Proof. exact coef_default. Qed.
Print Assumptions C51_coefficients_refuted.

(** Joint intervals: for one basis row the level has no effect; the critical
    value can be too large and too small. *)
Theorem C51_joint_level_ignored_refuted : forall ppf root z m b lv lv' nb rows rows',
  blp_confint ppf root z m (Some (1%nat, b)) (PBool true) (PFloat lv) nb = Ok rows ->
  blp_confint ppf root z m (Some (1%nat, b)) (PBool true) (PFloat lv') nb = Ok rows' -> rows = rows'.
Proof. exact joint_level_free. Qed.
Print Assumptions C51_joint_level_ignored_refuted.

Theorem C51_joint_too_wide_refuted : exists ppf root z m b lv nb rows r g,
  blp_confint ppf root z m (Some (1%nat, b)) (PBool true) (PFloat lv) nb = Ok rows /\ bl_fit m = Some g /\ rows = [r] /\
  0 < blp_se (fr_cols (bl_basis m)) g (fr_at b 0%nat) /\
  joint_critical (Z.to_nat (int_val nb)) 1 (blp_boot (fr_cols (bl_basis m)) g root z (fr_at b)) lv * blp_se (fr_cols (bl_basis m)) g (fr_at b 0%nat)
    < upper r - effect r.
Proof. exact joint_wide. Qed.
Print Assumptions C51_joint_too_wide_refuted.

Theorem C51_joint_too_narrow_refuted : exists ppf root z m lv nb rows g,
  blp_confint ppf root z m None (PBool true) (PFloat lv) nb = Ok rows /\ bl_fit m = Some g /\ bl_gate m = true /\
  exists c, (forall j, (j < fr_cols (bl_basis m))%nat -> let r := nth j rows (0, 0, 0) in
       0 < sqrt (rg_omega g j j) /\ upper r - effect r = c * sqrt (rg_omega g j j)) /\
    share_within (Z.to_nat (int_val nb)) (fr_cols (bl_basis m)) (blp_boot (fr_cols (bl_basis m)) g root z unit_row) c < lv /\
    c < joint_critical (Z.to_nat (int_val nb)) (fr_cols (bl_basis m)) (blp_boot (fr_cols (bl_basis m)) g root z unit_row) lv.
Proof. exact joint_narrow. Qed.
Print Assumptions C51_joint_too_narrow_refuted.

Theorem C51_rejects : forall ppf root z m basis joint level nb,
  (is_bool joint = false -> blp_confint ppf root z m basis joint level nb = Err TypeError) /\
  (is_bool joint = true -> is_float level = false -> blp_confint ppf root z m basis joint level nb = Err TypeError) /\
  (forall lv, is_bool joint = true -> ~ (0 < lv < 1) -> blp_confint ppf root z m basis joint (PFloat lv) nb = Err ValueError) /\
  (forall lv, is_bool joint = true -> 0 < lv < 1 -> is_int nb = true -> (1 <= int_val nb)%Z -> bl_fit m = None ->
     blp_confint ppf root z m basis joint (PFloat lv) nb = Err ValueError).
Proof. exact confint_rejects. Qed.
Print Assumptions C51_rejects.

(** Two groups with unit variances, level 3/4; a plain basis with two
    coefficients. *)
Example C51_case : cdf_symmetric ex_cdf /\ cdf_inverse ex_cdf ex_ppf /\
  (exists rows, blp_confint ex_ppf ident wz (wblp ["a"; "b"]%string true) None (PBool false) (PFloat (3 / 4)) (PInt 500) = Ok rows) /\
  (exists rows, blp_confint ex_ppf ident wz (wblp ["a"; "b"]%string false) None (PBool false) (PFloat (3 / 4)) (PInt 500) = Ok rows) /\
  (exists rows, blp_confint ex_ppf ident wz (wblp ["a"; "b"]%string false) (Some (7%nat, bl_basis (wblp ["a"; "b"]%string false))) (PBool true) (PFloat (3 / 4)) (PInt 500) = Ok rows) /\
  0 < sqrt (rg_omega wreg 0 0).
Proof.
  split; [exact ex_cdf_symmetric|]. split; [exact ex_cdf_inverse|].
  split; [eexists; apply confint_gate; [lra|reflexivity|cbn; lia|reflexivity|reflexivity]|].
  split; [eexists; apply confint_coef; [lra|reflexivity|cbn; lia|reflexivity|reflexivity]|].
  split; [eexists; apply confint_basis; [lra|reflexivity|cbn; lia|reflexivity|reflexivity]|].
  cbn. rewrite sqrt_1. lra.
Qed.

(** ** C52 *)
Theorem C52_accepted_frames_partial : forall n cols, (exists b, gate_basis n cols = Ok b) <->
  length cols = 1%nat \/ (cols <> [] /\ forall c, In c cols -> is_gbool (snd c) = true).
Proof. exact gate_accepts_iff. Qed.
Print Assumptions C52_accepted_frames_partial.

(** Boolean dummies are used as they are, whatever their number. *)
Theorem C52_boolean_dummies : forall n cols, cols <> [] -> (forall c, In c cols -> is_gbool (snd c) = true) ->
  gate_basis n cols = Ok {| fr_names := map fst cols; fr_at := fun i j => gcol_val (snd (nth j cols (EmptyString, GBool (fun _ => false)))) i |}.
Proof. exact gate_bool. Qed.
Print Assumptions C52_boolean_dummies.

(** A column of labels gives one group per label; two rows are in a common
    group exactly if they carry the same label. *)
Theorem C52_labels : forall n name f, exists b, gate_basis n [(name, GStr f)] = Ok b /\ NoDup (fr_names b) /\
  exclusive_groups n (fr_cols b) (fr_at b) /\ exhaustive n (fr_cols b) (fr_at b) /\
  forall i k, (i < n)%nat -> (k < n)%nat ->
    (f i = f k <-> exists j, (j < fr_cols b)%nat /\ fr_at b i j = 1 /\ fr_at b k j = 1).
Proof.
  exact (fun n name f => ex_intro _ (get_dummies n name (GStr f)) (conj (gate_one n name (GStr f) eq_refl) (conj (dummies_unique n name f)
    (conj (proj1 (dummies_groups n name f)) (conj (proj2 (dummies_groups n name f)) (dummies_same n name f)))))).
Qed.
Print Assumptions C52_labels.

(** Integer dummies are rejected as soon as there are two of them. *)
Theorem C52_integer_dummies_refuted : forall n cols, (2 <= length cols)%nat -> (forall c, In c cols -> is_gint (snd c) = true) ->
  gate_basis n cols = Err TypeError.
Proof. exact gate_int_many. Qed.
Print Assumptions C52_integer_dummies_refuted.

Example C52_case : let cols := [("a", GInt (fun i => Z.of_nat (i mod 2))); ("b", GInt (fun i => 1 - Z.of_nat (i mod 2)))%Z]%string in
  (2 <= length cols)%nat /\ (forall c, In c cols -> is_gint (snd c) = true) /\
  gate_basis 4 [("a", GBool Nat.even); ("b", GBool Nat.odd)]%string <> Err TypeError.
Proof. cbv zeta. split; [cbn; lia|]. split; [intros c [<-|[<-|[]]]; reflexivity|]. cbn. discriminate. Qed.

(** ** C54 *)
Theorem C54_weighted_error : forall n s pi, policy n pi ->
  weighted_error n (tree_label s) (tree_weight s) pi = sumf n (fun i => Rmax (s i) 0) - policy_value n s pi.
Proof. exact tree_error. Qed.
Print Assumptions C54_weighted_error.

Theorem C54_ranking : forall n s pi pi', policy n pi -> policy n pi' ->
  (weighted_error n (tree_label s) (tree_weight s) pi <= weighted_error n (tree_label s) (tree_weight s) pi' <->
   policy_value n s pi' <= policy_value n s pi).
Proof. exact tree_order. Qed.
Print Assumptions C54_ranking.

Theorem C54_targets_partial : forall X (learn : vec -> vec -> X -> bool) n s, (forall i, (i < n)%nat -> s i <> 0) ->
  tree_fit learn n s = Ok (learn (tree_label s) (tree_weight s)) /\
  forall i, (i < n)%nat -> tree_weight s i = Rabs (s i) /\ (tree_label s i = 1 <-> 0 < s i) /\ (tree_label s i = 0 <-> s i < 0).
Proof. exact @tree_fit_ok. Qed.
Print Assumptions C54_targets_partial.

(** A signal that is exactly zero has label 1/2 and makes the fit fail. *)
Theorem C54_zero_signal_refuted : forall X (learn : vec -> vec -> X -> bool) n s i, (i < n)%nat -> s i = 0 -> tree_fit learn n s = Err ValueError.
Proof. exact @tree_fit_zero. Qed.
Print Assumptions C54_zero_signal_refuted.

Example C54_case : policy 3 (fun i => if Nat.eqb i 1 then 1 else 0) /\ (forall i, (i < 3)%nat -> INR i - 1 / 2 <> 0) /\
  policy_value 3 (fun i => INR i - 1 / 2) (fun i => if Nat.eqb i 1 then 1 else 0) = 1 / 2.
Proof.
  split; [intros i _; destruct (Nat.eqb i 1); auto|]. split.
  - intros i _ E. destruct i; [cbn in E; lra|]. rewrite S_INR in E. pose proof (pos_INR i). lra.
  - unfold policy_value, sumf. cbn. lra.
Qed.

(** ** C63 *)
(** Group effects of [gate]/[gapo] are the group means of the signal; groups do
    not influence each other's standard errors. *)
Theorem C63_group_means : forall n p G y g, exclusive_groups n p G -> hc0 n p G y g ->
  (forall j, (j < p)%nat -> rg_params g j = group_mean n (fun i => G i j) y) /\
  (forall j k, (j < p)%nat -> (k < p)%nat ->
     rg_omega g j k = if Nat.eqb j k then sumf n (fun i => G i j * (y i - group_mean n (fun i => G i j) y) ^ 2) / (group_size n (fun i => G i j)) ^ 2 else 0).
Proof. exact group_effect. Qed.
Print Assumptions C63_group_means.

(** What [gate] regresses: the model's orthogonal signal on the group frame. *)
Theorem C63_gate_call : forall ols n ate nr psi cols m, irm_gate ols n ate nr psi cols = Ok m ->
  exists b, ate = true /\ nr = 1%nat /\ gate_basis n cols = Ok b /\ NoDup (fr_names b) /\ bl_gate m = true /\
    bl_basis m = b /\ bl_fit m = Some (ols n (fr_cols b) (fr_at b) psi).
Proof. exact irm_gate_inv. Qed.
Print Assumptions C63_gate_call.

Theorem C63_gate_call_partially_linear : forall ols n nt nr stored cols m, plr_gate ols n nt nr stored cols = Ok m ->
  exists yt dt b, stored = Some (yt, dt) /\ (nt <= 1)%nat /\ nr = 1%nat /\ gate_basis n cols = Ok b /\ NoDup (fr_names b) /\ bl_gate m = true /\
    fr_names (bl_basis m) = fr_names b /\ bl_fit m = Some (ols n (fr_cols b) (fun i j => fr_at b i j * dt i) yt).
Proof. exact plr_gate_inv. Qed.
Print Assumptions C63_gate_call_partially_linear.

(** Size-weighted group effects add up to the estimated average effect. *)
Theorem C63_aggregate_interactive : forall n norm y d g0 g1 m p G g, (0 < n)%nat -> exclusive_groups n p G -> exhaustive n p G ->
  let e := irm_score n false norm unit_weights y d g0 g1 m in
  least_squares n p G (el_b e) g ->
  sumf p (fun j => group_size n (fun i => G i j) / INR n * rg_params g j) = estimate n e.
Proof. exact irm_aggregate. Qed.
Print Assumptions C63_aggregate_interactive.

(** Partially linear models: residual on residual within the group; the overall
    estimate is the average weighted by residual treatment variation. *)
Theorem C63_partially_linear : forall n p G yt dt g, exclusive_groups n p G -> least_squares n p (fun i j => G i j * dt i) yt g ->
  forall j, (j < p)%nat -> sumf n (fun i => G i j * (dt i) ^ 2) <> 0 ->
  rg_params g j = sumf n (fun i => G i j * (dt i * yt i)) / sumf n (fun i => G i j * (dt i) ^ 2).
Proof. exact plr_group_effect. Qed.
Print Assumptions C63_partially_linear.

Theorem C63_aggregate_partially_linear : forall n p G iv y d l m gg g, (0 < n)%nat -> exclusive_groups n p G -> exhaustive n p G ->
  let theta := estimate n (plr_score iv y d l m gg) in
  let yt := fst (plr_partial_out iv theta y d l m gg) in
  let dt := snd (plr_partial_out iv theta y d l m gg) in
  meanf n (el_a (plr_score iv y d l m gg)) <> 0 ->
  (forall j, (j < p)%nat -> sumf n (fun i => G i j * (dt i) ^ 2) <> 0) -> sumf n (fun i => (dt i) ^ 2) <> 0 ->
  least_squares n p (fun i j => G i j * dt i) yt g ->
  sumf p (fun j => sumf n (fun i => G i j * (dt i) ^ 2) / sumf n (fun i => (dt i) ^ 2) * rg_params g j) = theta.
Proof. exact plr_aggregate. Qed.
Print Assumptions C63_aggregate_partially_linear.

(** Four rows in two groups with signal 0, 1, 2, 3. *)
Example C63_case : let G := fun i j => if Nat.eqb (Nat.modulo i 2) j then 1 else 0 in
  let g := {| rg_params := fun j => INR j + 1; rg_omega := fun j k => if Nat.eqb j k then 1 / 2 else 0 |} in
  exclusive_groups 4 2 G /\ exhaustive 4 2 G /\ hc0 4 2 G INR g.
Proof.
  cbv zeta. split; [|split].
  - split; [|split].
    + intros i j _ _. destruct (Nat.eqb _ _); auto.
    + intros i j k _ _ _ E1 E2. destruct (Nat.eqb_spec (i mod 2) j), (Nat.eqb_spec (i mod 2) k); try lra. congruence.
    + intros j Hj. exists j. split; [lia|]. rewrite Nat.mod_small by lia. rewrite Nat.eqb_refl. reflexivity.
  - intros i _. exists (i mod 2)%nat. split; [apply Nat.mod_upper_bound; lia|]. rewrite Nat.eqb_refl. reflexivity.
  - split.
    + intros j Hj. destruct j as [|[|j]]; [| |lia]; unfold resid, sumf; cbn; lra.
    + intros j k Hj Hk. destruct j as [|[|j]]; [| |lia]; (destruct k as [|[|k]]; [| |lia]); unfold resid, gram, sumf; cbn; lra.
Qed.

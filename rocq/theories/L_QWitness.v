(** Concrete cases for the quantile models. *)
From Verif Require Import S_Quantile L_Sum L_Scores L_Quantile L_QScore L_QNested L_Order L_Weights.
From Coq Require Import Lra Lia FunctionalExtensionality.
Local Open Scope R_scope.
Local Open Scope res_scope.

Ltac rl := repeat match goal with
  | |- context [rleb ?a ?b] => first [replace (rleb a b) with true by (symmetry; apply rleb_true; lra) | replace (rleb a b) with false by (symmetry; apply rleb_false; lra)]
  | |- context [rltb ?a ?b] => first [replace (rltb a b) with true by (symmetry; apply rltb_true; lra) | replace (rltb a b) with false by (symmetry; apply rltb_false; lra)]
  | |- context [reqb ?a ?b] => first [replace (reqb a b) with true by (symmetry; unfold reqb; destruct (Req_EM_T a b); [reflexivity|lra]) | replace (reqb a b) with false by (symmetry; unfold reqb; destruct (Req_EM_T a b); [lra|reflexivity])]
  end.

(** Six rows; outcome [u] of row 1 and [v] of row 2 vary. *)
Definition wy (u v : R) : vec := fun i => nth i [0; u; v; 0; 0; -100] 0.
Definition wd : vec := fun i => nth i [1; 1; 0; 1; 1; 0] 0.
Definition wx : nat -> nat := fun i => i.
Definition wsmpls : list fold := [([0; 1; 5], [2; 3; 4]); ([3; 4; 2], [0; 1; 5])]%nat.
(** A classifier predicting the share of ones, a minimiser choosing the better
    end of the bracket, splitters taking the first row as first half. *)
Definition wl : learner (option R) nat unit := {|
  ln_clone := fun _ => None; ln_set := fun e _ => Ok e;
  ln_fit := fun _ data => Ok (Some (Rmean (map snd data)));
  ln_predict := fun e xs => map (fun _ => match e with Some p => p | None => 0 end) xs;
  ln_proba := fun e xs => map (fun _ => match e with Some p => [1 - p; p] | None => [0] end) xs;
  ln_classes := fun _ => [0; 1]%nat |}.
Definition wsolve (score : R -> R) (b : R * R) : R := if rltb (Rabs (score (fst b))) (Rabs (score (snd b))) then fst b else snd b.
Definition wo : q_oracles := {|
  qo_tts := fun l _ => (firstn 1 l, skipn 1 l);
  qo_skf := fun lab => map (fun k => ([], [k])) (seq 0 (length lab));
  qo_solve := wsolve; qo_order := [] |}.
Definition wc (b : R * R) : @pq_cfg (option R) := {|
  qc_cvar := false; qc_n := 6; qc_treated := true; qc_q := 3 / 5; qc_norm := false; qc_thr := 1 / 100; qc_fuel := 12;
  qc_bounds := b; qc_g := fun _ => None; qc_m := fun _ => None; qc_ext_g := None; qc_ext_m := Some (fun _ => 99 / 100) |}.

Lemma wsplit : splitters_ok wo.
Proof.
  split; [intros l lab; cbn [wo qo_tts fst snd]; rewrite firstn_skipn; reflexivity|].
  intros lab. unfold partition_of. cbn [wo qo_skf]. rewrite flat_map_concat_map, map_map. cbn.
  induction (seq 0 (length lab)); cbn; auto.
Qed.
Lemma wsolver : solver_ok wo.
Proof.
  intros score b L. cbn [wo qo_solve]. unfold wsolve. destruct (rltb _ _) eqn:E; [apply rltb_true in E|apply rltb_false in E]; repeat split; lra.
Qed.
Lemma wpart : partition_of 6 wsmpls.
Proof. unfold partition_of, wsmpls. cbn. apply NoDup_Permutation; [repeat constructor; cbn; intuition discriminate|apply (seq_NoDup 6 0)|]. intros k. cbn. intuition. Qed.

Definition wsc (theta : R) : R := b2r (rleb 0 theta) / (99 / 100) - 3 / 5.
Lemma wsc_neg theta : theta < 0 -> wsc theta = - (3 / 5).
Proof. intros H. unfold wsc. rl. cbn. lra. Qed.
Lemma wsc_pos theta : 0 <= theta -> wsc theta = 1 / (99 / 100) - 3 / 5.
Proof. intros H. unfold wsc. rl. cbn. lra. Qed.
Lemma wsc_differ a b : signs_differ wsc (a, b) = true <-> (a < 0 /\ 0 <= b) \/ (b < 0 /\ 0 <= a).
Proof.
  unfold signs_differ. cbn [fst snd]. destruct (Rlt_dec a 0), (Rlt_dec b 0);
  [rewrite !wsc_neg by lra|rewrite wsc_neg, wsc_pos by lra|rewrite wsc_pos, wsc_neg by lra|rewrite !wsc_pos by lra]; unfold rsign, reqb;
  repeat destruct (Rlt_dec _ _); try lra; destruct (Req_EM_T _ _); cbn; try lra; split; intros; try lra; try discriminate; try reflexivity; exfalso; lra.
Qed.
Lemma wbracket1 v : 100 <= v <= 1000 -> exists s, get_bracket_guess 12 wsc 0 (-100) v = Some (true, (- ((v + 100) / 20), (v + 100) / 20), s).
Proof.
  intros V. unfold get_bracket_guess. cbn [bracket_while]. cbn [negb]. rl. cbn [andb].
  assert (E : bracket_at (1 / 10) 0 (-100) v = (- ((v + 100) / 20), (v + 100) / 20)).
  { unfold bracket_at. rewrite Rmax_left by lra. rewrite Rmin_left by lra. f_equal; lra. }
  rewrite E. replace (signs_differ wsc (- ((v + 100) / 20), (v + 100) / 20)) with true by (symmetry; apply wsc_differ; lra).
  cbn. eexists; reflexivity.
Qed.
Lemma wbracket2 : exists s, get_bracket_guess 12 wsc 10 (-100) 100 = Some (true, (-10, 30), s).
Proof.
  unfold get_bracket_guess. cbn [bracket_while]. cbn [negb]. rl. cbn [andb].
  assert (E : bracket_at (1 / 10) 10 (-100) 100 = (0, 20)). { unfold bracket_at. rewrite Rmax_left by lra. rewrite Rmin_left by lra. f_equal; lra. }
  rewrite E. replace (signs_differ wsc (0, 20)) with false. 2:{ symmetry. apply Bool.not_true_is_false. rewrite wsc_differ. lra. }
  cbn [negb]. rl. cbn [andb].
  assert (E2 : bracket_at (1 / 10 + 1 / 10) 10 (-100) 100 = (-10, 30)). { unfold bracket_at. rewrite Rmax_left by lra. rewrite Rmin_left by lra. f_equal; lra. }
  rewrite E2. replace (signs_differ wsc (-10, 30)) with true by (symmetry; apply wsc_differ; lra). cbn. eexists; reflexivity.
Qed.
Lemma wsolve_upper a b : a < 0 -> 0 <= b -> wsolve wsc (a, b) = b.
Proof.
  intros A B. unfold wsolve. cbn [fst snd]. rewrite wsc_neg, wsc_pos by lra. replace (rltb _ _) with false; auto. symmetry. apply rltb_false.
  rewrite Rabs_Ropp, !Rabs_right; lra.
Qed.

Lemma wbounds u v : 0 <= u <= 100 -> 100 <= v -> pq_bounds 6 (wy u v) = (-100, v).
Proof.
  intros U V. unfold pq_bounds, minf, maxf, wy. cbn. unfold rmax_list. cbn. f_equal.
  - unfold Rmax. repeat destruct (Rle_dec _ _); lra.
  - unfold Rmax. repeat destruct (Rle_dec _ _); lra.
Qed.
Lemma wstart u v : 0 <= u -> pq_start 6 true (3 / 5) (wy u v) wd = 0.
Proof.
  intros U. unfold pq_start.
  assert (F : filter (fun i => reqb (wd i) (level true)) (seq 0 6) = [0; 1; 3; 4]%nat).
  { cbn [seq filter]. unfold wd, level. cbn [nth]. rl. reflexivity. }
  rewrite F. change (map (wy u v) [0; 1; 3; 4]%nat) with [0; u; 0; 0].
  unfold quantile. cbn [length Nat.sub].
  assert (E : rsort [0; u; 0; 0] = [0; 0; 0; u]).
  { cbn. destruct (Rle_dec 0 0); [|lra]. cbn. destruct (Rle_dec u 0) as [L|L].
    - assert (u = 0) as -> by lra. cbn. destruct (Rle_dec 0 0); [reflexivity|lra].
    - cbn. destruct (Rle_dec u 0); [lra|]. destruct (Rle_dec 0 0); [|lra]. reflexivity. }
  rewrite E. replace (3 / 5 * INR 3) with (9 / 5) by (cbn; lra).
  assert (E2 : Int_part (9 / 5) = 1%Z) by (unfold Int_part; rewrite <- (tech_up (9 / 5) 2); [reflexivity|cbn; lra|cbn; lra]).
  rewrite E2. change (Z.to_nat 1) with 1%nat. cbn [nth Nat.min INR]. lra.
Qed.

(** Preliminary step of both folds. *)
Lemma wprelim u v start b row : row = 0%nat \/ row = 3%nat ->
  prelim_ipw wo (wc b) start [row] (wy u v) wd (take (flat_map snd (qo_skf wo (map wd [row]))) (fun _ => 99 / 100)) =
  match get_bracket_guess 12 wsc start (fst b) (snd b) with None => Err RuntimeError | Some (_, br, _) => Ok (wsolve wsc br) end.
Proof.
  intros R. unfold prelim_ipw. cbn [wc qc_fuel qc_treated qc_q qc_norm qc_thr qc_bounds length].
  match goal with |- context [get_bracket_guess 12 ?s] => replace s with wsc; [reflexivity|] end.
  apply functional_extensionality. intros theta. unfold meanf, sumf. cbn [seq map Rsum INR]. unfold ipw_score, arm, pq_adjust, trimm, take, level.
  destruct R as [-> | ->]; cbn [map nth wo qo_skf length seq flat_map snd app]; unfold wd, wy; cbn [nth]; rl; unfold rclip;
    rewrite Rmax_left by lra; rewrite Rmin_left by lra; unfold wsc; cbn [b2r]; lra.
Qed.

Definition wrun (u : R) (bnds : R * R) (start v : R) := pq_nuisance wl wl wo 0%nat (wc bnds) start wx (wy u v) wd wsmpls.
Lemma wrun_eq u v start bnds br s : get_bracket_guess 12 wsc start (fst bnds) (snd bnds) = Some (true, br, s) -> fst br < 0 -> 0 <= snd br ->
  exists r, wrun u bnds start v = Ok r /\ po_g r 2%nat = Some (b2r (rleb u (snd br))) /\ po_start r = snd br.
Proof.
  destruct br as [ba bb]. cbn [fst snd]. intros B N Q. unfold wrun, pq_nuisance. cbn [wc qc_ext_g qc_ext_m]. cbn [wsmpls length seq combine map_res fst snd]. unfold pq_fold.
  cbn [wo qo_tts fst snd firstn skipn]. unfold prelim_m at 1. cbn [wc qc_ext_m bind].
  fold (wc bnds). fold wo. rewrite (wprelim u v start bnds 0) by auto. rewrite B. cbn [bind].
  rewrite wsolve_upper by auto.
  cbn [wc qc_ext_g wl ln_fit bind qc_cvar]. unfold prelim_m. cbn [wc qc_ext_m bind]. fold (wc bnds).
  rewrite (wprelim u v start bnds 3) by auto. rewrite B. cbn [bind]. rewrite wsolve_upper by auto.
  unfold g_rows. cbn [filter wc qc_treated level]. unfold wd at 1 2 3 4. cbn [nth]. rl. cbn [map].
  unfold predict01. cbn. unfold g_label. cbn. eexists. split; [reflexivity|]. cbn. unfold Rmean. cbn. split; [f_equal; field|field].
Qed.

Lemma leak : exists (G M : learner (option R) nat unit) o x0 (c : R * R -> @pq_cfg (option R)) x y y' d smpls r r' n,
  splitters_ok o /\ solver_ok o /\ partition_of n smpls /\ (forall b, qc_bounds (c b) = b) /\ 
  tested_in smpls 2 0 ([0; 1; 5], [2; 3; 4])%nat /\ (forall j, j <> 2%nat -> y j = y' j) /\
  pq_nuisance G M o x0 (c (pq_bounds n y)) (pq_start n true (qc_q (c (pq_bounds n y))) y d) x y d smpls = Ok r /\
  pq_nuisance G M o x0 (c (pq_bounds n y')) (pq_start n true (qc_q (c (pq_bounds n y'))) y' d) x y' d smpls = Ok r' /\
  po_g r 2%nat = Some 0 /\ po_g r' 2%nat = Some 1.
Proof.
  exists wl, wl, wo, 0%nat, wc, wx, (wy 40 100), (wy 40 1000), wd, wsmpls.
  destruct (wbracket1 100) as (s & B); [lra|]. destruct (wbracket1 1000) as (s' & B'); [lra|].
  destruct (wrun_eq 40 100 0 (-100, 100) _ _ B) as (r & E & Er & _); [cbn; lra..|].
  destruct (wrun_eq 40 1000 0 (-100, 1000) _ _ B') as (r' & E' & Er' & _); [cbn; lra..|].
  exists r, r', 6%nat. cbn [wc qc_q]. rewrite !wstart, !wbounds by lra. cbn [snd] in Er, Er'.
  split; [exact wsplit|]. split; [exact wsolver|]. split; [exact wpart|]. split; [reflexivity|].
  split. { split; [reflexivity|]. split; [cbn; auto|]. intros [|[|k']] f' H I; [reflexivity|cbn in H; injection H as <-; cbn in I; intuition discriminate|destruct k'; discriminate]. }
  split. { intros [|[|[|j]]] H; try reflexivity. exfalso. apply H. reflexivity. }
  split; [exact E|]. split; [exact E'|]. rewrite Er, Er'. split; f_equal; rl; reflexivity.
Qed.

Lemma refit : exists (G M : learner (option R) nat unit) o x0 (c : @pq_cfg (option R)) x y d smpls r r',
  splitters_ok o /\ solver_ok o /\ partition_of (qc_n c) smpls /\ qc_bounds c = pq_bounds (qc_n c) y /\
  pq_nuisance G M o x0 c (pq_start (qc_n c) (qc_treated c) (qc_q c) y d) x y d smpls = Ok r /\
  pq_nuisance G M o x0 c (po_start r) x y d smpls = Ok r' /\ po_g r 2%nat = Some 0 /\ po_g r' 2%nat = Some 1.
Proof.
  exists wl, wl, wo, 0%nat, (wc (-100, 100)), wx, (wy 20 100), wd, wsmpls.
  destruct (wbracket1 100) as (s & B); [lra|]. destruct wbracket2 as (s' & B').
  destruct (wrun_eq 20 100 0 (-100, 100) _ _ B) as (r & E & Er & Es); [cbn; lra..|].
  destruct (wrun_eq 20 100 10 (-100, 100) _ _ B') as (r' & E' & Er' & _); [cbn; lra..|].
  exists r, r'. cbn [snd] in *. replace (po_start r) with 10 by (rewrite Es; lra). cbn [wc qc_n qc_bounds qc_treated qc_q].
  rewrite wstart, wbounds by lra.
  split; [exact wsplit|]. split; [exact wsolver|]. split; [exact wpart|]. split; [reflexivity|].
  split; [exact E|]. split; [exact E'|]. rewrite Er, Er'. split; f_equal; rl; reflexivity.
Qed.

(** Two rows, one in each arm, propensities 1/2. *)
Definition d2 : vec := fun i => nth i [1; 0] 0.
Definition half : vec := fun _ => 1 / 2.
Lemma d2_binary : binary 2 d2.
Proof. intros [|[|i]] H; cbn; auto. lia. Qed.
Lemma d2_arm t : some_row 2 (in_arm t d2).
Proof. destruct t; [exists 0%nat|exists 1%nat]; (split; [lia|reflexivity]). Qed.
Lemma d2_weight i : (i < 2)%nat -> arm_weight 2 true true (1 / 100) d2 half i = nth i [2; 0] 0.
Proof.
  intros H. unfold arm_weight, pq_adjust. assert (T : trimm true (1 / 100) half = half).
  { apply functional_extensionality. intros k. apply trimm_id. unfold half. lra. }
  rewrite T. unfold normalize_ipw, meanf, sumf, arm, level, half, d2. cbn [seq map Rsum INR nth].
  destruct i as [|[|i]]; [..|lia]; cbn [nth]; rl; cbn [b2r]; field.
Qed.
Lemma mean2 f : meanf 2 f = (f 0%nat + f 1%nat) / 2.
Proof. unfold meanf, sumf. cbn. lra. Qed.
Lemma ends_refuted : exists n t thr q y d g m c, binary n d /\ 0 < thr < 1 / 2 /\ some_row n (in_arm t d) /\ 0 < q < 1 /\
  (forall i, 0 <= g i <= 1) /\ (forall i, (i < n)%nat -> c < y i) /\ 0 < pq_moment n t true thr q y d g m c.
Proof.
  exists 2%nat, true, (1 / 100), (1 / 4), (fun _ => 1), d2, (fun i => nth i [0; 1] 0), half, 0.
  split; [exact d2_binary|]. split; [lra|]. split; [apply d2_arm|]. split; [lra|]. split; [intros [|[|[|i]]]; cbn; lra|]. split; [intros; lra|].
  rewrite pq_decomp by lia. rewrite wshare_none. 2:{ intros i Hi _. apply rleb_false. lra. }
  rewrite mean2, !d2_weight by lia. cbn. lra.
Qed.
Definition d4 : vec := fun i => nth i [1; 0; 0; 0] 0.
Lemma unnormalised : exists n t thr q y d m, binary n d /\ 0 < thr < 1 / 2 /\ some_row n (in_arm t d) /\ 0 < q < 1 /\
  forall theta, ipw_moment n t false thr q y d m theta < 0.
Proof.
  exists 4%nat, true, (1 / 100), (9 / 10), (fun _ => 0), d4, half.
  split; [intros [|[|[|[|i]]]] H; cbn; auto; lia|]. split; [lra|]. split; [exists 0%nat; split; [lia|reflexivity]|]. split; [lra|].
  intros theta. unfold ipw_moment, meanf, sumf, ipw_score, pq_adjust, trimm, arm, level, half, d4. cbn [seq map Rsum INR nth].
  rl. unfold rclip. rewrite Rmax_left by lra. rewrite Rmin_left by lra. cbn [b2r]. destruct (rleb 0 theta); cbn [b2r]; lra.
Qed.
Lemma cvar_refuted : exists n t thr q y d g m pq, binary n d /\ 0 < thr < 1 / 2 /\ some_row n (in_arm t d) /\ 0 < q < 1 /\
  weighted_quantile n (arm_weight n t true thr d m) y q pq /\ (forall i, (i < n)%nat -> pq <= g i) /\
  estimate n (cvar_score t q y d g (pq_adjust n t true thr d m) pq) < pq.
Proof.
  exists 2%nat, true, (1 / 100), (1 / 2), (fun _ => 0), d2, (fun i => nth i [2; 0] 0), half, 0.
  split; [exact d2_binary|]. split; [lra|]. split; [apply d2_arm|]. split; [lra|]. split.
  { unfold weighted_quantile, wshare. rewrite !mean2, !d2_weight by lia. cbn [nth]. rl. cbn [b2r]. lra. }
  split. { intros [|[|i]] H; [cbn; lra|cbn; lra|lia]. }
  rewrite cvar_est by lia. unfold tail_mean. rewrite !mean2, !d2_weight by lia. cbn [nth]. unfold cvar_target. rewrite Rmax_left by lra. lra.
Qed.
Lemma lpq_not_monotone : exists n q y d z m md0 md1 g0 g1 c c', binary n d /\ binary n z /\ inside n m /\ 0 < q < 1 /\ c < c' /\
  (forall i, 0 <= g0 i <= 1) /\ (forall i, 0 <= g1 i <= 1) /\
  let comp := lpq_comp n d z m md0 md1 in 0 < comp /\
  meanf n (lpq_score true q (arm true d) m g0 g1 y z comp c') < meanf n (lpq_score true q (arm true d) m g0 g1 y z comp c).
Proof.
  exists 2%nat, (1 / 2), (fun i => INR i), (fun _ => 1), d2, (fun _ => 1 / 4), (fun _ => 0), (fun _ => 1), (fun _ => 0), (fun _ => 0), 0, 1.
  split; [intros i _; auto|]. split; [exact d2_binary|]. split; [intros i _; lra|]. split; [lra|]. split; [lra|]. split; [intros; lra|]. split; [intros; lra|].
  cbv zeta. assert (E : lpq_comp 2 (fun _ => 1) d2 (fun _ => 1 / 4) (fun _ => 0) (fun _ => 1) = 1 / 3).
  { unfold lpq_comp. rewrite mean2. unfold d2. cbn [nth]. field. }
  rewrite E. split; [lra|]. rewrite !mean2. unfold lpq_score, lpq_sign, arm, level, d2. cbn [nth INR]. rl. cbn [b2r]. lra.
Qed.
(** The estimate of a fold changes with the supplied propensity of a row outside its training part. *)
Lemma external_rows : exists (G M : learner (option R) nat unit) o x0 (c : vec -> @pq_cfg (option R)) start x y d k f me me' r r',
  splitters_ok o /\ solver_ok o /\ (forall m, qc_ext_m (c m) = Some m) /\ (forall i, In i (fst f) -> me i = me' i) /\
  pq_fold G M o x0 (c me) start x y d k f = Ok r /\ pq_fold G M o x0 (c me') start x y d k f = Ok r' /\ fr_ipw r = 10 /\ fr_ipw r' = -10.
Proof.
  pose (c := fun m => {| qc_cvar := false; qc_n := 6; qc_treated := true; qc_q := 3 / 5; qc_norm := false; qc_thr := 1 / 100; qc_fuel := 12;
    qc_bounds := (-100, 100); qc_g := fun _ => @None R; qc_m := fun _ => None; qc_ext_g := None; qc_ext_m := Some m |}).
  pose (sc := fun theta => b2r (rleb 0 theta) / (1 / 2) - 3 / 5).
  assert (SC : forall theta, meanf 1 (ipw_score true (3 / 5) theta (take [3%nat] wd) (take [3%nat] (wy 40 100))
     (pq_adjust 1 true false (1 / 100) (take [3%nat] wd) (take [0%nat] (fun i => if Nat.eqb i 0 then 1 / 2 else 99 / 100)))) = sc theta).
  { intros theta. unfold meanf, sumf. cbn [seq map Rsum INR]. unfold ipw_score, arm, pq_adjust, trimm, take, level. cbn [map nth Nat.eqb].
    unfold wd, wy; cbn [nth]; rl; unfold rclip. rewrite Rmax_left by lra; rewrite Rmin_left by lra; unfold sc; cbn [b2r]; lra. }
  destruct (wbracket1 100) as (s & B); [lra|].
  assert (B' : exists s', get_bracket_guess 12 sc 0 (-100) 100 = Some (true, (- ((100 + 100) / 20), (100 + 100) / 20), s')).
  { unfold get_bracket_guess. cbn [bracket_while]. cbn [negb]. rl. cbn [andb].
    assert (E : bracket_at (1 / 10) 0 (-100) 100 = (- ((100 + 100) / 20), (100 + 100) / 20)).
    { unfold bracket_at. rewrite Rmax_left by lra. rewrite Rmin_left by lra. f_equal; lra. }
    rewrite E. replace (signs_differ sc _) with true. cbn. eexists; reflexivity.
    symmetry. unfold signs_differ, sc, rsign. cbn [fst snd]. rl. cbn [b2r]. repeat destruct (Rlt_dec _ _); try lra. unfold reqb. destruct (Req_EM_T _ _); [lra|reflexivity]. }
  destruct B' as (s' & B').
  exists wl, wl, wo, 0%nat, c, 0, wx, (wy 40 100), wd, 1%nat, ([3; 4; 2], [0; 1; 5])%nat, (fun _ => 99 / 100), (fun i => if Nat.eqb i 0 then 1 / 2 else 99 / 100).
  eexists. eexists. split; [exact wsplit|]. split; [exact wsolver|]. split; [reflexivity|].
  split. { intros i [<-|[<-|[<-|[]]]]; reflexivity. }
  split.
  { unfold pq_fold, prelim_m. cbn [c qc_ext_m wo qo_tts fst snd firstn skipn bind]. fold wo.
    change (c (fun _ => 99 / 100)) with (wc (-100, 100)). rewrite (wprelim 40 100 0 (-100, 100) 3) by auto. cbn [fst snd]. rewrite B. cbn [bind].
    rewrite wsolve_upper by lra. cbn [wc qc_ext_g wl ln_fit bind qc_cvar]. unfold predict01. cbn. reflexivity. }
  split.
  { unfold pq_fold, prelim_m. cbn [c qc_ext_m wo qo_tts fst snd firstn skipn bind]. fold wo.
    unfold prelim_ipw at 1. cbn [c qc_fuel qc_treated qc_q qc_norm qc_thr qc_bounds length wo qo_skf map seq flat_map snd app fst].
    match goal with |- context [get_bracket_guess 12 ?g] => replace g with sc end.
    2:{ apply functional_extensionality. intros theta. symmetry. exact (SC theta). }
    rewrite B'. cbn [bind wo qo_solve]. cbn [c qc_ext_g wl ln_fit bind qc_cvar]. unfold predict01. cbn. reflexivity. }
  cbn [fr_ipw]. split; [lra|]. cbn [wo qo_solve].
  unfold wsolve, sc. cbn [fst snd].
  replace (rleb 0 (- ((100 + 100) / 20))) with false by (symmetry; apply rleb_false; lra).
  replace (rleb 0 ((100 + 100) / 20)) with true by (symmetry; apply rleb_true; lra). cbn [b2r].
  replace (rltb _ _) with true; [lra|]. symmetry. apply rltb_true. rewrite Rabs_left, Rabs_right; lra.
Qed.

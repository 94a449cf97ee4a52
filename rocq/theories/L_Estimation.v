(** Linear scores, aggregation over repetitions, root search. *)
From Verif Require Export L_VarEst L_Quantile.
From Coq Require Import FunctionalExtensionality Lra Classical_Pred_Type.
Local Open Scope R_scope.

(** ** Linear scores *)
Lemma cells_prod g : cells g = fold_right Nat.mul 1%nat (map (@length Z) (snd g)).
Proof.
  unfold cells. assert (H : forall l a, fold_left (fun a (x : list Z) => (a * length x)%nat) l a = (a * fold_right Nat.mul 1 (map (@length Z) l))%nat).
  { induction l as [|x l IH]; intro a; cbn [fold_left map fold_right]; [lia|]. rewrite IH. lia. }
  rewrite H. lia.
Qed.
Lemma moment_agg n cl psi : aggregate_obs n cl psi = moment n cl psi.
Proof.
  destruct cl as [c|]; [|reflexivity]. cbn [aggregate_obs moment].
  generalize (ca_smpls_cluster c). induction (ca_smpls c) as [|f fs IH]; intros [|g gs]; cbn [combine map Rsum fold_sums]; try reflexivity.
  change (Rsum (?x :: ?l)) with (x + Rsum l). cbn [fst snd]. rewrite IH. unfold fold_scaling. rewrite <- cells_prod. unfold Rdiv. ring.
Qed.
Lemma fold_sums_lin fs gs a b c d : fold_sums fs gs (fun i => a i * c + b i * d) = fold_sums fs gs a * c + fold_sums fs gs b * d.
Proof.
  revert gs. induction fs as [|f fs IH]; intros [|g gs]; cbn [fold_sums]; try ring. rewrite IH.
  rewrite (Rsum_map_ext _ (fun i => c * a i + d * b i)) by (intros; ring). rewrite Rsum_map_plus, !Rsum_map_scal. unfold Rdiv. ring.
Qed.
Lemma moment_lin n cl a b c d : moment n cl (fun i => a i * c + b i * d) = moment n cl a * c + moment n cl b * d.
Proof.
  destruct cl as [k|]; [apply fold_sums_lin|]. cbn [moment].
  rewrite (Rsum_map_ext _ (fun i => c * a i + d * b i)) by (intros; ring). rewrite Rsum_map_plus, !Rsum_map_scal. unfold Rdiv. ring.
Qed.
Lemma moment_ext n cl a b : (forall i, a i = b i) -> moment n cl a = moment n cl b.
Proof. intro H. f_equal. apply functional_extensionality. exact H. Qed.
Lemma moment_score n cl a b c : moment n cl (lin_score a b c) = moment n cl a * c + moment n cl b.
Proof.
  rewrite (moment_ext _ _ _ (fun i => a i * c + b i * 1)) by (intro; unfold lin_score; ring). rewrite moment_lin. ring.
Qed.
Lemma linear_root n cl a b : moment n cl a <> 0 ->
  forall theta, moment n cl (fun i => a i * theta + b i) = 0 <-> theta = lin_est_coef n a b cl.
Proof.
  intros H theta. fold (lin_score a b theta). change (fun i => a i * theta + b i) with (lin_score a b theta).
  rewrite moment_score. unfold lin_est_coef. rewrite !moment_agg. split; intro E.
  - apply (Rmult_eq_reg_l (moment n cl a)); [|exact H]. field_simplify; [|exact H]. lra.
  - rewrite E. field. exact H.
Qed.
(** The weights of the moment condition are those of the variance estimate. *)
Lemma fold_sums_one fs gs psi : (forall g, In g gs -> length (snd g) = 1%nat) ->
  Rsum (map (fun p : fold * cfold => Rsum (map psi (snd (fst p))) / INR (length (nth 0 (snd (snd p)) []))) (combine fs gs)) = fold_sums fs gs psi.
Proof.
  revert gs. induction fs as [|f fs IH]; intros [|g gs] H; cbn [combine map fold_sums]; try reflexivity.
  change (Rsum (?x :: ?l)) with (x + Rsum l). rewrite IH by (intros; apply H; right; assumption). cbn [fst snd]. do 2 f_equal.
  f_equal. unfold cells. specialize (H g (or_introl eq_refl)). destruct (snd g) as [|x [|y l]]; try discriminate. cbn. lia.
Qed.
Lemma fold_sums_two fs gs psi : (forall g, In g gs -> length (snd g) = 2%nat) ->
  Rsum (map (fun p : fold * cfold => Rsum (map psi (snd (fst p))) / INR (length (nth 0 (snd (snd p)) []) * length (nth 1 (snd (snd p)) []))) (combine fs gs)) = fold_sums fs gs psi.
Proof.
  revert gs. induction fs as [|f fs IH]; intros [|g gs] H; cbn [combine map fold_sums]; try reflexivity.
  change (Rsum (?x :: ?l)) with (x + Rsum l). rewrite IH by (intros; apply H; right; assumption). cbn [fst snd]. do 2 f_equal.
  f_equal. unfold cells. specialize (H g (or_introl eq_refl)). destruct (snd g) as [|x [|y [|z l]]]; try discriminate. cbn. lia.
Qed.

(** ** Aggregation over repetitions *)
Lemma median_is_median l : l <> [] -> is_median l (median l).
Proof.
  intro Hn. assert (Hl : (0 < length l)%nat) by (destruct l; [congruence|cbn; lia]). unfold is_median.
  pose proof (Nat.div_mod (length l) 2 ltac:(lia)) as D. pose proof (Nat.mod_upper_bound (length l) 2 ltac:(lia)) as M.
  unfold median. destruct (Nat.even (length l)) eqn:E.
  - apply Nat.even_spec in E. destruct E as [k E]. assert (K : (length l / 2 = k)%nat) by (rewrite E, Nat.mul_comm; apply Nat.div_mul; lia).
    rewrite K. pose proof (rsort_nth l (k - 1) k ltac:(lia) ltac:(lia)) as S. split.
    + pose proof (count_le_nth l (k - 1) ((nth (k - 1) (rsort l) 0 + nth k (rsort l) 0) / 2) ltac:(lia) ltac:(lra)). lia.
    + pose proof (count_ge_nth l k ((nth (k - 1) (rsort l) 0 + nth k (rsort l) 0) / 2) ltac:(lra)). lia.
  - assert (O : Nat.odd (length l) = true) by (unfold Nat.odd; rewrite E; reflexivity). apply Nat.odd_spec in O. destruct O as [k O].
    assert (K : (length l / 2 = k)%nat). { rewrite O. replace (2 * k + 1)%nat with (1 + k * 2)%nat by lia. rewrite Nat.div_add by lia. reflexivity. }
    rewrite K. split.
    + pose proof (count_le_nth l k (nth k (rsort l) 0) ltac:(lia) ltac:(lra)). lia.
    + pose proof (count_ge_nth l k (nth k (rsort l) 0) ltac:(lra)). lia.
Qed.
Section Agg.
  Context (n nr : nat) (ath ases vs : nd).
  Hypothesis (Hsh : shape ath = [n; nr]) (Hr : (0 < nr)%nat).
  Let c := fst (aggregate_coefs_and_ses ath ases vs).
  Let s := snd (aggregate_coefs_and_ses ath ases vs).
  Lemma agg_c t : at_ c [t] = medianf nr (fun r => at_ ath [t; r]).
  Proof. subst c. unfold aggregate_coefs_and_ses, agg_coef, dim. rewrite Hsh. reflexivity. Qed.
  Lemma agg_s t : at_ s [t] = sqrt (medianf nr (fun r => (at_ ases [t; r])^2 + (at_ ath [t; r] - at_ c [t])^2 / vs_at vs n t r)).
  Proof.
    rewrite agg_c. subst s. unfold aggregate_coefs_and_ses, agg_se, agg_coef, dim, vs_at. rewrite Hsh. cbn [nth snd mk1 at_].
    destruct (shape_eqb (shape vs) [n]); reflexivity.
  Qed.
  Lemma agg_median t : is_median (map (fun r => at_ ath [t; r]) (seq 0 nr)) (at_ c [t]).
  Proof. rewrite agg_c. apply median_is_median, map_seq_nonempty, Hr. Qed.
  Lemma agg_between t : exists r1 r2, (r1 < nr)%nat /\ (r2 < nr)%nat /\ at_ ath [t; r1] <= at_ c [t] <= at_ ath [t; r2].
  Proof.
    rewrite agg_c. assert (forall g, exists r1, (r1 < nr)%nat /\ forall r, (r < nr)%nat -> g r1 <= g r) as Mn.
    { intro g. clear - Hr. induction nr as [|k IH]; [lia|]. destruct k as [|k].
      - exists 0%nat. split; [lia|]. intros r Hlt. assert (r = 0)%nat as -> by lia. lra.
      - destruct IH as (r1 & H1 & H2); [lia|]. destruct (Rle_dec (g r1) (g (S k))) as [L|L].
        + exists r1. split; [lia|]. intros r Hlt. assert (r < S k \/ r = S k)%nat as [X | ->] by lia; [apply H2; exact X|exact L].
        + exists (S k). split; [lia|]. intros r Hlt. assert (r < S k \/ r = S k)%nat as [X | ->] by lia; [|lra]. specialize (H2 r X). lra. }
    destruct (Mn (fun r => at_ ath [t; r])) as (r1 & A1 & B1). destruct (Mn (fun r => - at_ ath [t; r])) as (r2 & A2 & B2).
    exists r1, r2. split; [exact A1|]. split; [exact A2|]. split; [apply medianf_ge|apply medianf_le]; try exact Hr; intros i Hi; [apply B1; exact Hi|].
    specialize (B2 i Hi). cbn in B2. lra.
  Qed.
  Hypothesis Hv : forall t r, (t < n)%nat -> (r < nr)%nat -> 0 < vs_at vs n t r.
  Lemma agg_se_sq t : (t < n)%nat -> 0 <= at_ s [t] /\
    is_median (map (fun r => (at_ ases [t; r])^2 + (at_ ath [t; r] - at_ c [t])^2 / vs_at vs n t r) (seq 0 nr)) ((at_ s [t])^2) /\
    medianf nr (fun r => (at_ ases [t; r])^2) <= (at_ s [t])^2.
  Proof.
    intro Ht. assert (Dn : forall r, (r < nr)%nat -> 0 <= (at_ ath [t; r] - at_ c [t])^2 / vs_at vs n t r).
    { intros r Hlr. apply div_nonneg; [apply pow2_ge_0|]. left. apply Hv; assumption. }
    assert (M : 0 <= medianf nr (fun r => (at_ ases [t; r])^2 + (at_ ath [t; r] - at_ c [t])^2 / vs_at vs n t r)).
    { apply medianf_ge; [exact Hr|]. intros r Hlr. specialize (Dn r Hlr). pose proof (pow2_ge_0 (at_ ases [t; r])). lra. }
    rewrite agg_s. split; [apply sqrt_pos|]. rewrite pow2_sqrt by exact M. split.
    - apply median_is_median, map_seq_nonempty, Hr.
    - apply medianf_mono. intros r Hlr. specialize (Dn r Hlr). lra.
  Qed.
End Agg.
Lemma medianf_reorder n p g : reorder n p -> medianf n (fun r => g (p r)) = medianf n g.
Proof. intro H. unfold medianf. rewrite <- (map_map p g). apply median_perm. apply Permutation_map. exact H. Qed.
Lemma sqrt_mult_sq a x : 0 <= a -> sqrt (a ^ 2 * x) = a * sqrt x.
Proof. intro H. rewrite sqrt_mult_alt by apply pow2_ge_0. f_equal. apply (sqrt_pow2 a H). Qed.

Lemma agg_reorder n nr p ath ases vs ath' ases' vs' : shape ath = [n; nr] -> shape ath' = [n; nr] -> reorder nr p ->
  (forall t r, at_ ath' [t; r] = at_ ath [t; p r] /\ at_ ases' [t; r] = at_ ases [t; p r] /\ vs_at vs' n t r = vs_at vs n t (p r)) ->
  forall t, at_ (fst (aggregate_coefs_and_ses ath' ases' vs')) [t] = at_ (fst (aggregate_coefs_and_ses ath ases vs)) [t] /\
            at_ (snd (aggregate_coefs_and_ses ath' ases' vs')) [t] = at_ (snd (aggregate_coefs_and_ses ath ases vs)) [t].
Proof.
  intros S S' Hp H t. rewrite !(agg_s n nr) by assumption. rewrite !(agg_c n nr) by assumption.
  assert (E : medianf nr (fun r => at_ ath' [t; r]) = medianf nr (fun r => at_ ath [t; r])).
  { rewrite <- (medianf_reorder nr p (fun r => at_ ath [t; r]) Hp). apply medianf_ext. intros r _. apply H. }
  split; [exact E|]. rewrite E. f_equal.
  rewrite <- (medianf_reorder nr p (fun r => (at_ ases [t; r])^2 + (at_ ath [t; r] - medianf nr (fun q => at_ ath [t; q]))^2 / vs_at vs n t r) Hp).
  apply medianf_ext. intros r _. destruct (H t r) as (-> & -> & ->). reflexivity.
Qed.
Lemma agg_single n ath ases vs : shape ath = [n; 1%nat] -> forall t,
  at_ (fst (aggregate_coefs_and_ses ath ases vs)) [t] = at_ ath [t; 0%nat] /\
  at_ (snd (aggregate_coefs_and_ses ath ases vs)) [t] = Rabs (at_ ases [t; 0%nat]).
Proof.
  intros S t. rewrite (agg_s n 1) by assumption. rewrite (agg_c n 1) by assumption. rewrite !medianf_one. split; [reflexivity|].
  replace ((at_ ases [t; 0%nat])^2 + (at_ ath [t; 0%nat] - at_ ath [t; 0%nat])^2 / vs_at vs n t 0) with (Rsqr (at_ ases [t; 0%nat])) by (unfold Rsqr, Rdiv; ring).
  apply sqrt_Rsqr_abs.
Qed.
Lemma agg_affine n nr k a ath ases vs ath' ases' : shape ath = [n; nr] -> shape ath' = [n; nr] -> (0 < nr)%nat -> 0 <= a ->
  (forall t r, at_ ath' [t; r] = a * at_ ath [t; r] + k /\ at_ ases' [t; r] = a * at_ ases [t; r]) ->
  forall t, at_ (fst (aggregate_coefs_and_ses ath' ases' vs)) [t] = a * at_ (fst (aggregate_coefs_and_ses ath ases vs)) [t] + k /\
            at_ (snd (aggregate_coefs_and_ses ath' ases' vs)) [t] = a * at_ (snd (aggregate_coefs_and_ses ath ases vs)) [t].
Proof.
  intros S S' Hr Ha H t. rewrite !(agg_s n nr) by assumption. rewrite !(agg_c n nr) by assumption.
  assert (E : medianf nr (fun r => at_ ath' [t; r]) = a * medianf nr (fun r => at_ ath [t; r]) + k).
  { rewrite <- medianf_scale, <- medianf_shift by assumption. apply medianf_ext. intros r _. apply H. }
  split; [exact E|]. rewrite E. generalize (medianf nr (fun r => at_ ath [t; r])) as m. intro m.
  rewrite <- sqrt_mult_sq by exact Ha. f_equal. rewrite <- medianf_scale by (try exact Hr; apply pow2_ge_0).
  apply medianf_ext. intros r _. destruct (H t r) as [-> ->]. unfold Rdiv. ring.
Qed.

(** ** Bracket search *)
Lemma sign_cases x : (x < 0 /\ rsign x = -1) \/ (x = 0 /\ rsign x = 0) \/ (0 < x /\ rsign x = 1).
Proof. unfold rsign. destruct (Rlt_dec x 0); [left; auto|]. destruct (Rlt_dec 0 x); [right; right; auto|]. right; left. split; [lra|reflexivity]. Qed.
Lemma signs_differ_spec score b : signs_differ score b = true <-> rsign (score (fst b)) <> rsign (score (snd b)).
Proof. unfold signs_differ, reqb. destruct (Req_EM_T _ _); cbn; split; congruence. Qed.
Lemma signs_differ_change score b : signs_differ score b = true ->
  score (fst b) * score (snd b) <= 0 /\ ~ (score (fst b) = 0 /\ score (snd b) = 0).
Proof.
  rewrite signs_differ_spec. intro H. destruct (sign_cases (score (fst b))) as [[A B]|[[A B]|[A B]]], (sign_cases (score (snd b))) as [[C D]|[[C D]|[C D]]]; rewrite ?B, ?D in H; try congruence; split; nra.
Qed.
Definition tenth (k : nat) : R := INR k / 10.
Lemma tenth_S k : tenth k + 1 / 10 = tenth (S k).
Proof. unfold tenth. rewrite S_INR. field. Qed.
Lemma tenth_le k : rleb (tenth k) 1 = Nat.leb k 10.
Proof.
  destruct (Nat.leb_spec k 10) as [H|H].
  - apply rleb_true. unfold tenth. apply le_INR in H. replace (INR 10) with 10 in H by (cbn; ring). lra.
  - apply rleb_false. unfold tenth. assert (11 <= k)%nat as H' by lia. apply le_INR in H'. replace (INR 11) with 11 in H' by (cbn; ring). lra.
Qed.
Lemma bracket_stop fuel score start lo hi d b seen : (0 < fuel)%nat -> bracket_while fuel score start lo hi true d b seen = Some (true, b, seen).
Proof. destruct fuel; [lia|reflexivity]. Qed.
Lemma bracket_spec score start lo hi j : forall fuel b seen, (j <= 10)%nat -> (j + 1 <= fuel)%nat ->
  exists s b' seen', bracket_while fuel score start lo hi false (tenth (11 - j)) b seen = Some (s, b', seen') /\
    (length seen' <= length seen + j)%nat /\
    (forall x, In x seen' -> In x seen \/ exists k, (11 - j <= k <= 10)%nat /\ x = bracket_at (tenth k) start lo hi) /\
    (s = true -> signs_differ score b' = true /\ exists k, (11 - j <= k <= 10)%nat /\ b' = bracket_at (tenth k) start lo hi) /\
    (s = false -> forall k, (11 - j <= k <= 10)%nat -> signs_differ score (bracket_at (tenth k) start lo hi) = false).
Proof.
  induction j as [|j IH]; intros fuel b seen Hj Hf.
  - destruct fuel as [|fuel]; [lia|]. cbn [bracket_while negb andb]. rewrite tenth_le. cbn.
    exists false, b, seen. split; [reflexivity|]. split; [lia|]. split; [auto|]. split; [discriminate|]. intros _ k Hk. lia.
  - destruct fuel as [|fuel]; [lia|]. cbn [bracket_while negb andb]. rewrite tenth_le.
    replace (Nat.leb (11 - S j) 10) with true by (symmetry; apply Nat.leb_le; lia). rewrite tenth_S.
    set (c := bracket_at (tenth (11 - S j)) start lo hi). destruct (signs_differ score c) eqn:E.
    + rewrite bracket_stop by lia. exists true, c, (c :: seen). split; [reflexivity|]. split; [cbn; lia|]. split.
      * intros x [<- | X]; [right|left; exact X]. exists (11 - S j)%nat. split; [lia|reflexivity].
      * split; [|discriminate]. intros _. split; [exact E|]. exists (11 - S j)%nat. split; [lia|reflexivity].
    + replace (S (11 - S j)) with (11 - j)%nat by lia. destruct (IH fuel c (c :: seen) ltac:(lia) ltac:(lia)) as (s & b' & seen' & A & B & C & D & F).
      exists s, b', seen'. split; [exact A|]. split; [cbn in B; lia|]. split; [|split].
      * intros x X. destruct (C x X) as [[<- | Y]|(k & K & ->)]; [right|left; exact Y|right]; [exists (11 - S j)%nat|exists k]; (split; [lia|reflexivity]).
      * intro S. destruct (D S) as (P & k & K & Q). split; [exact P|]. exists k. split; [lia|exact Q].
      * intros Hs k K. assert (k = 11 - S j \/ 11 - j <= k)%nat as [-> | L] by lia; [exact E|apply F; [exact Hs|lia]].
Qed.
Lemma bracket_inside k start lo hi : lo <= start <= hi -> (1 <= k)%nat ->
  lo <= fst (bracket_at (tenth k) start lo hi) /\ fst (bracket_at (tenth k) start lo hi) <= start <= snd (bracket_at (tenth k) start lo hi) /\
  snd (bracket_at (tenth k) start lo hi) <= hi.
Proof.
  intros H Hk. cbn [bracket_at fst snd]. assert (0 <= tenth k * (hi - lo) / 2).
  { unfold tenth, Rdiv. pose proof (pos_INR k). assert (0 <= INR k * (hi - lo)) by nra. lra. }
  split; [apply Rmax_r|]. split; [split; [apply Rmax_lub; lra|apply Rmin_glb; lra]|apply Rmin_r].
Qed.
Lemma bracket_guess fuel score start lo hi : (11 <= fuel)%nat -> lo <= start <= hi ->
  exists s b seen, get_bracket_guess fuel score start lo hi = Some (s, b, seen) /\
    (length seen <= 10)%nat /\
    (forall x, In x seen -> lo <= fst x /\ fst x <= start <= snd x /\ snd x <= hi) /\
    (s = true -> lo <= fst b /\ fst b <= snd b /\ snd b <= hi /\ score (fst b) * score (snd b) <= 0 /\ ~ (score (fst b) = 0 /\ score (snd b) = 0)) /\
    (s = false -> forall k, (1 <= k <= 10)%nat -> signs_differ score (bracket_at (tenth k) start lo hi) = false).
Proof.
  intros Hf Hs. unfold get_bracket_guess. replace (1 / 10) with (tenth (11 - 10)) by (unfold tenth; cbn; field).
  destruct (bracket_spec score start lo hi 10 fuel (lo, hi) [] ltac:(lia) ltac:(lia)) as (s & b & seen & A & B & C & D & E).
  exists s, b, seen. split; [exact A|]. split; [cbn in B; lia|]. split; [|split; [|exact E]].
  - intros x X. destruct (C x X) as [[]|(k & K & ->)]. apply bracket_inside; [exact Hs|lia].
  - intro S. destruct (D S) as (P & k & K & ->). destruct (bracket_inside k start lo hi Hs ltac:(lia)) as (X & Y & Z).
    split; [exact X|]. split; [lra|]. split; [exact Z|]. apply signs_differ_change. exact P.
Qed.
(** A failed search from the midpoint means equal signs at the bounds. *)
Lemma bracket_midpoint fuel score lo hi b seen : (11 <= fuel)%nat -> lo <= hi ->
  get_bracket_guess fuel score ((lo + hi) / 2) lo hi = Some (false, b, seen) -> rsign (score lo) = rsign (score hi).
Proof.
  intros Hf Hl H. destruct (bracket_guess fuel score ((lo + hi) / 2) lo hi Hf ltac:(lra)) as (s & b' & seen' & A & _ & _ & _ & E).
  rewrite H in A. injection A as <- <- <-. specialize (E eq_refl 10%nat ltac:(lia)).
  assert (X : bracket_at (tenth 10) ((lo + hi) / 2) lo hi = (lo, hi)).
  { unfold bracket_at, tenth. replace (INR 10) with 10 by (cbn; ring). rewrite Rmax_right, Rmin_right by lra. reflexivity. }
  rewrite X in E. unfold signs_differ in E. cbn [fst snd] in E. unfold reqb in E. destruct (Req_EM_T _ _) as [Q|Q]; [exact Q|discriminate].
Qed.
Lemma nl_estimate sv fuel n cl psi psi_d start lo hi : (11 <= fuel)%nat -> lo <= start <= hi -> brentq_ok sv -> fmin_ok sv ->
  exists theta warn, nl_est_coef sv fuel n cl psi psi_d start (Some (lo, hi)) = Some (theta, warn) /\ lo <= theta <= hi /\
    (warn = false -> brentq_root sv -> (forall x, lo <= x <= hi -> continuity_pt (fun th => moment n cl (psi th)) x) -> moment n cl (psi theta) = 0).
Proof.
  intros Hf Hs Hb Hm. set (score := fun th => aggregate_obs n cl (psi th)).
  assert (Es : (fun th => moment n cl (psi th)) = score) by (apply functional_extensionality; intro; symmetry; apply moment_agg).
  assert (Good : forall b, lo <= fst b /\ fst b <= snd b /\ snd b <= hi /\ score (fst b) * score (snd b) <= 0 /\ ~ (score (fst b) = 0 /\ score (snd b) = 0) ->
     lo <= sv_brentq sv score b <= hi /\ (brentq_root sv -> (forall x, lo <= x <= hi -> continuity_pt score x) -> score (sv_brentq sv score b) = 0)).
  { intros [b1 b2] (A & B & C & D & _). cbn [fst snd] in *. split.
    - pose proof (Hb score b1 b2 B D). lra.
    - intros Hr Hc. apply Hr; try assumption. intros x Hx. apply Hc. lra. }
  assert (Ms : forall th, moment n cl (psi th) = score th) by (intro; symmetry; apply moment_agg).
  unfold nl_est_coef. fold score.
  destruct (bracket_guess fuel score start lo hi Hf Hs) as (s & b & seen & A & _ & _ & D & _). rewrite A. destruct s.
  - destruct (Good b (D eq_refl)) as [G1 G2]. do 2 eexists. split; [reflexivity|]. split; [exact G1|]. intros _ Hr Hc. rewrite Ms. apply G2; [exact Hr|]. rewrite <- Es. exact Hc.
  - set (alt := sv_fmin sv (fun theta => (meanf n (psi theta))^2) start (lo, hi)).
    assert (Ha : lo <= alt <= hi) by (apply Hm; exact Hs).
    destruct (bracket_guess fuel score alt lo hi Hf Ha) as (s & b2 & seen2 & A2 & _ & _ & D2 & _). rewrite A2. destruct s.
    + destruct (Good b2 (D2 eq_refl)) as [G1 G2]. do 2 eexists. split; [reflexivity|]. split; [exact G1|]. intros _ Hr Hc. rewrite Ms. apply G2; [exact Hr|]. rewrite <- Es. exact Hc.
    + destruct (rltb 0 (aggregate_obs n cl (psi alt))); do 2 eexists; (split; [reflexivity|]; split; [apply Hm; exact Hs|discriminate]).
Qed.

(** ** Statements for the property file *)
Lemma variance_weights_one n a cv c : ca_vars c = [cv] -> (forall g, In g (ca_smpls_cluster c) -> length (snd g) = 1%nat) ->
  forall psi, exists gamma, var_est n psi a (Some c) =
    Ok (1 / (INR (length (zuniq (map cv (seq 0 n)))) * (moment n (Some c) a / INR (ca_n_folds_per_cluster c))^2) * gamma,
        INR (length (zuniq (map cv (seq 0 n))))).
Proof.
  intros Hv Hg psi. unfold var_est. rewrite Hv. unfold var_est_one. cbv zeta. cbn [moment].
  rewrite <- (fold_sums_one (ca_smpls c) (ca_smpls_cluster c) a Hg). eexists. reflexivity.
Qed.
Lemma agg_reported n nr ath ases vs : shape ath = [n; nr] -> (0 < nr)%nat ->
  (forall t r, (t < n)%nat -> (r < nr)%nat -> 0 < vs_at vs n t r) ->
  let c := fst (aggregate_coefs_and_ses ath ases vs) in
  let s := snd (aggregate_coefs_and_ses ath ases vs) in
  forall t, (t < n)%nat ->
    is_median (map (fun r => at_ ath [t; r]) (seq 0 nr)) (at_ c [t]) /\
    (exists r1 r2, (r1 < nr)%nat /\ (r2 < nr)%nat /\ at_ ath [t; r1] <= at_ c [t] <= at_ ath [t; r2]) /\
    0 <= at_ s [t] /\
    is_median (map (fun r => (at_ ases [t; r])^2 + (at_ ath [t; r] - at_ c [t])^2 / vs_at vs n t r) (seq 0 nr)) ((at_ s [t])^2) /\
    medianf nr (fun r => (at_ ases [t; r])^2) <= (at_ s [t])^2.
Proof.
  intros S Hr Hv c s t Ht. split; [exact (agg_median n nr ath ases vs S Hr t)|]. split; [exact (agg_between n nr ath ases vs S Hr t)|].
  exact (agg_se_sq n nr ath ases vs S Hr Hv t Ht).
Qed.

(** ** A root finder with the assumed behaviour: the supremum of the points up to
    which the function keeps its sign at the left end. *)
Definition same_sign_to (f : R -> R) (a b x : R) : Prop :=
  x = a \/ (a <= x <= b /\ forall y, a <= y <= x -> 0 < f y * f a).
Lemma same_sign_bound f a b : bound (same_sign_to f a b).
Proof. exists (Rmax a b). intros x [-> | [[_ H] _]]; [apply Rmax_l|]. apply Rle_trans with b; [exact H|apply Rmax_r]. Qed.
Lemma same_sign_ne f a b : exists x, same_sign_to f a b x.
Proof. exists a. left. reflexivity. Qed.
Definition sup_root (f : R -> R) (p : R * R) : R :=
  proj1_sig (completeness _ (same_sign_bound f (fst p) (snd p)) (same_sign_ne f (fst p) (snd p))).
Definition ex_solvers : solvers :=
  {| sv_newton := fun _ _ x => (x, true); sv_brentq := sup_root; sv_fmin := fun _ x _ => x |}.
Lemma ex_brentq_ok : brentq_ok ex_solvers.
Proof.
  intros f a b Hab _. cbn. unfold sup_root. destruct (completeness _ _ _) as [s [U L]]. cbn [proj1_sig fst snd] in *. split.
  - apply U. left. reflexivity.
  - apply L. intros x [-> | [[_ H] _]]; assumption.
Qed.
Lemma ex_fmin_ok : fmin_ok ex_solvers.
Proof. intros f x lo hi H. exact H. Qed.
Lemma ex_brentq_root : brentq_root ex_solvers.
Proof.
  intros f a b Hab Hs Hc. pose proof (ex_brentq_ok f a b Hab Hs) as Hin. cbn in *. unfold sup_root in *.
  destruct (completeness _ _ _) as [s [U L]]. cbn [proj1_sig fst snd] in *.
  destruct (Req_dec (f s) 0) as [E|E]; [exact E|exfalso].
  destruct (Hc s Hin (Rabs (f s)) (Rabs_pos_lt _ E)) as (d & Hd & Hn). cbn in Hn. unfold R_dist in Hn.
  assert (Near : forall y, Rabs (y - s) < d -> 0 < f y * f s).
  { intros y Hy. destruct (Req_dec y s) as [-> |Hne]; [nra|]. assert (X : Rabs (f y - f s) < Rabs (f s)).
    { apply Hn. split; [|exact Hy]. split; [exact I|congruence]. }
    unfold Rabs in X. destruct (Rcase_abs (f y - f s)), (Rcase_abs (f s)); nra. }
  assert (Pt : exists x, same_sign_to f a b x /\ s - d < x <= s).
  { destruct (Rlt_dec (s - d) a) as [H|H]; [exists a; split; [left; reflexivity|]; lra|].
    apply not_all_not_ex. intro A. assert (s <= s - d); [|lra]. apply L. intros x Hx. specialize (A x). assert (x <= s) by (apply U; exact Hx).
    destruct (Rle_dec x (s - d)); [assumption|]. exfalso. apply A. split; [exact Hx|lra]. }
  destruct Pt as (x & Hx & Hxs).
  assert (Fa : f a <> 0).
  { intro Z. assert (same_sign_to f a b s -> s = a). { intros [H | [_ H]]; [exact H|]. specialize (H a ltac:(lra)). rewrite Z in H. lra. }
    assert (s <= a); [|assert (s = a) by lra; congruence]. apply L. intros y [-> | [Hy Hk]]; [lra|]. specialize (Hk a ltac:(lra)). rewrite Z in Hk. lra. }
  assert (Sx : forall y, a <= y <= x -> 0 < f y * f a).
  { destruct Hx as [-> | [_ H]]; [|exact H]. intros y Hy. assert (y = a) by lra. subst. nra. }
  assert (Ss : forall y, a <= y -> y < s + d -> 0 < f y * f a).
  { intros y Ha Hy. destruct (Rle_dec y x) as [H|H]; [apply Sx; lra|].
    assert (N1 : 0 < f y * f s) by (apply Near; apply Rabs_def1; lra).
    assert (N2 : 0 < f x * f s) by (apply Near; apply Rabs_def1; lra).
    assert (Ax : a <= x). { destruct Hx as [-> | [? _]]; lra. } pose proof (Sx x ltac:(lra)) as N3.
    assert (0 < (f y * f a) * ((f s * f s) * (f x * f x))) as Q.
    { replace ((f y * f a) * ((f s * f s) * (f x * f x))) with ((f y * f s) * (f x * f s) * (f x * f a)) by ring. apply Rmult_lt_0_compat; [apply Rmult_lt_0_compat|]; assumption. }
    apply Rnot_le_lt. intro NN.
    assert (0 <= (f s * f s) * (f x * f x)) by (apply Rmult_le_pos; apply Rle_0_sqr). nra. }
  set (z := Rmin (s + d / 2) b). assert (Hz : z <= s + d / 2 /\ z <= b) by (split; [apply Rmin_l|apply Rmin_r]).
  assert (Az : a <= z) by (apply Rmin_glb; lra).
  assert (z <= s). { apply U. right. split; [lra|]. intros y Hy. apply Ss; lra. }
  assert (z = b). { unfold z in *. unfold Rmin in *. destruct (Rle_dec (s + d / 2) b); lra. }
  pose proof (Ss b Hab ltac:(lra)). lra.
Qed.
Lemma ex_continuous : forall x, 0 <= x <= 4 -> continuity_pt (fun th => moment 2 None (fun i => th * th + - INR i)) x.
Proof.
  intros x _. replace (fun th => moment 2 None (fun i => th * th + - INR i)) with (fun th : R => th * th - 1 / 2).
  - reg.
  - apply functional_extensionality. intro th. cbn. field.
Qed.

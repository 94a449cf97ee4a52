(** Witnesses: simulated data sets on which documented statements fail, and concrete runs. *)
From Verif Require Export L_DatasetsOracle.
From Coq Require Import Lia Lra.
Local Open Scope R_scope.
Local Open Scope string_scope.

Ltac sums := unfold meanf, sumf; cbn [seq map Rsum]; cbn [INR].

(** ** Two values, eight rows *)
Definition w_x : mat := fun i _ => if Nat.even i then 0 else 1.
Definition w_a : vec := fun i => nth i [1; 1; -1; -1; 1; 1; -1; -1] 0 * / sqrt 3.
Definition w_e : vec := fun i => nth i [1; 1; 1; 1; -1; -1; -1; -1] 0.
Lemma sqrt3 : / sqrt 3 * / sqrt 3 = 1 / 3.
Proof. rewrite <- Rinv_mult, sqrt_sqrt by lra. lra. Qed.
Lemma exp_pos_gt : 1 < exp (1 / 2).
Proof. assert (H : exp 0 < exp (1 / 2)) by (apply exp_increasing; lra). now rewrite exp_0 in H. Qed.
Lemma w_raw j : (j < 4)%nat -> exists p q, p < q /\ forall i, raw w_x i j = if Nat.even i then p else q.
Proof.
  intro Hj. pose proof exp_pos_gt as E. pose proof (exp_pos 1) as E1.
  destruct j as [|[|[|[|j]]]]; [| | | |lia].
  - exists 1, (exp (1 / 2)). split; [exact E|]. intro i. cbn [raw]. unfold w_x. destruct (Nat.even i); [|reflexivity]. replace (0 / 2) with 0 by lra. apply exp_0.
  - exists 10, (10 + 1 / (1 + exp 1)). split; [assert (0 < 1 / (1 + exp 1)) by (apply Rdiv_lt_0_compat; lra); lra|]. intro i. cbn [raw]. unfold w_x. destruct (Nat.even i); [|reflexivity]. unfold Rdiv. ring.
  - exists ((6 / 10) ^ 3), ((6 / 10 + 1 / 25) ^ 3). split; [lra|]. intro i. cbn [raw]. unfold w_x. destruct (Nat.even i); f_equal; lra.
  - exists (20 ^ 2), (22 ^ 2). split; [lra|]. intro i. cbn [raw]. unfold w_x. destruct (Nat.even i); f_equal; lra.
Qed.
Lemma w_varied j : (j < 4)%nat -> varied 8 w_x j.
Proof. intro Hj. destruct (w_raw j Hj) as (p & q & L & E). exists 0%nat, 1%nat. rewrite !E. cbn [Nat.even]. repeat split; try lia. lra. Qed.
Lemma w_z z j : (j < 4)%nat -> standardised 8 w_x z j -> forall i, (i < 8)%nat -> z i j = if Nat.even i then -1 else 1.
Proof.
  intros Hj Z i Hi. rewrite (Z i Hi). destruct (w_raw j Hj) as (p & q & L & E).
  assert (M : meanf 8 (fun i => raw w_x i j) = (p + q) / 2) by (rewrite (meanf_ext 8 _ _ (fun i _ => E i)); sums; cbn [Nat.even]; field).
  assert (Sp : spread 8 (fun i => raw w_x i j) = (q - p) / 2).
  { unfold spread. rewrite M. rewrite (meanf_ext 8 _ (fun _ => ((q - p) / 2) ^ 2)); [|intros; rewrite E; destruct (Nat.even _); field]. rewrite meanf_const by lia. apply sqrt_pow2. lra. }
  rewrite M, Sp, E. destruct (Nat.even i); field; lra.
Qed.
Lemma goal_m n a e g : exists cf, f_m n cf a e g = 0.
Proof.
  set (c := (meanf n (fun i => (e i / 1) ^ 2) - meanf n (fun i => ((g * a i + e i) / (g ^ 2 * var_a + 1)) ^ 2)) / meanf n (fun i => ((g * a i + e i) / (g ^ 2 * var_a + 1)) ^ 2)).
  exists (c / (1 + c)). assert (E : forall v : R, (v - v) ^ 2 = 0) by (intro; ring). exact (E _).
Qed.
Lemma goal_g n g v a e d b : exists cf, f_g n cf g v a e d b = 0.
Proof.
  set (h := fun i : nat => b * (a i - g * (var_a / v) * d i)).
  exists (meanf n (fun i => h i ^ 2) / meanf n (fun i => (e i + h i) ^ 2)). assert (E : forall v : R, (v - v) ^ 2 = 0) by (intro; ring). exact (E _).
Qed.
(** The returned short regression is not the conditional expectation: its residual is correlated
    with the treatment although both objectives of the search are met. *)
Lemma short_regression_wrong : exists n k theta cf_y cf_d minimise x eps_y eps_d a c,
  make_conf_plr n k theta cf_y cf_d minimise x eps_y eps_d a = Ok c /\ (forall j, (j < k)%nat -> varied n x j) /\
  population_like n (cp_m_short c) a eps_d eps_y /\
  f_m n cf_d a eps_d (cp_gamma_a c) = 0 /\ f_g n cf_y (cp_gamma_a c) (var0 n (cp_d c)) a eps_y (cp_d c) (cp_beta_a c) = 0 /\
  ~ corr_free n (fun i => cp_y c i - cp_g_short c i) (fun i => cp_d c i - cp_m_short c i).
Proof.
  destruct (goal_m 8 w_a w_e 1) as (cfd & Hm).
  pose (d := fun i => - z_of 8 w_x i 0%nat + 5 / 10 * z_of 8 w_x i 1%nat - 25 / 100 * z_of 8 w_x i 2%nat - 1 / 10 * z_of 8 w_x i 3%nat + 1 * w_a i + w_e i).
  destruct (goal_g 8 1 (var0 8 d) w_a (fun _ => 0) d 1) as (cfy & Hg).
  destruct (make_conf_plr 8 4 1 cfy cfd (fun _ => 1) w_x (fun _ => 0) w_e w_a) as [c|e] eqn:H; [|discriminate H].
  assert (G : cp_gamma_a c = 1 /\ cp_beta_a c = 1 /\ cp_d c = d) by (injection H as <-; repeat split).
  destruct G as (G & B & D).
  destruct (conf_plr_simulated _ _ _ _ _ _ _ _ _ _ c H) as (_ & Z & Q).
  assert (M : forall i, (i < 8)%nat -> cp_m_short c i = if Nat.even i then 0.85 else -0.85).
  { intros i Hi. destruct (Q i Hi) as (-> & _). unfold index4. rewrite !(w_z (cp_z c)) by (auto; lia). destruct (Nat.even i); lra. }
  pose proof sqrt3 as S3. set (q := / sqrt 3) in *.
  assert (P : population_like 8 (cp_m_short c) w_a w_e (fun _ => 0)).
  { unfold population_like, corr_free. rewrite !(fun v : vec => meanf_ext 8 (fun i => cp_m_short c i * v i) (fun i => (if Nat.even i then 0.85 else -0.85) * v i)) by (intros; now rewrite M).
    repeat split; try (rewrite (meanf_ext 8 _ (fun _ => 0)) by (intros; ring); rewrite meanf_const by lia; reflexivity);
      unfold w_a, w_e; fold q; sums; cbn [nth Nat.even]; try field.
    replace ((1 * q) ^ 2) with (1 / 3) by (rewrite <- S3; ring). replace ((-1 * q) ^ 2) with (1 / 3) by (rewrite <- S3; ring). field. }
  exists 8%nat, 4%nat, 1, cfy, cfd, (fun _ => 1), w_x, (fun _ => 0), w_e, w_a, c. rewrite G, B, D. split; [exact H|]. split; [exact w_varied|].
  split; [exact P|]. split; [exact Hm|]. split; [exact Hg|]. unfold corr_free. rewrite <- D.
  apply (conf_plr_short_wrong 8 4 1 cfy cfd (fun _ => 1) w_x (fun _ => 0) w_e w_a c); auto; try lia; [rewrite G; lra|rewrite B; lra|].
  exists 0%nat. split; [lia|]. rewrite M by lia. cbn [Nat.even]. lra.
Qed.

(** ** Two rows *)
Definition w_2 : mat := fun i _ => 2 * INR i.
Lemma w_2_z z : standardised 2 w_2 z 4 -> z 0%nat 4%nat = -1.
Proof.
  intro Z. rewrite (Z 0%nat) by lia. assert (M : meanf 2 (fun i => raw w_2 i 4) = 1) by (sums; cbn [raw]; unfold w_2; cbn [INR]; field).
  assert (Sp : spread 2 (fun i => raw w_2 i 4) = 1).
  { unfold spread. rewrite M. replace (meanf 2 _) with (1 ^ 2) by (sums; cbn [raw]; unfold w_2; cbn [INR]; field). apply sqrt_pow2. lra. }
  rewrite M, Sp. cbn [raw]. unfold w_2. cbn [INR]. field.
Qed.
Lemma w_2_varied j : (j < 5)%nat -> varied 2 w_2 j.
Proof.
  intro Hj. exists 0%nat, 1%nat. split; [lia|]. split; [lia|]. assert (E0 : w_2 0%nat = fun _ => 2 * 0) by reflexivity. assert (E1 : w_2 1%nat = fun _ => 2 * 1) by reflexivity.
  destruct j as [|[|[|[|[|j]]]]]; [| | | | |lia]; cbn [raw]; rewrite ?E0, ?E1.
  - intro E. apply exp_inv in E. lra.
  - pose proof (exp_pos (2 * 1)). intro E. assert (0 < 2 * 1 / (1 + exp (2 * 1))) by (apply Rdiv_lt_0_compat; lra). unfold Rdiv in E at 1. rewrite Rmult_0_r, Rmult_0_l in E. lra.
  - lra.
  - lra.
  - lra.
Qed.
Lemma linear_effect_wrong : exists n k theta gamma_a beta_a trimming x eps a u c i,
  make_conf_irm n k theta gamma_a beta_a true trimming x eps a u = Ok c /\ (forall j, (j < k)%nat -> varied n x j) /\ (i < n)%nat /\
  ci_y c i <> theta * ci_d c i * (x i 4%nat + 1) + regression_c x i + beta_a * a i + eps i.
Proof.
  destruct (make_conf_irm 2 5 1 0 0 true None w_2 (fun _ => 0) (fun _ => 0) (fun _ => 0)) as [c|e] eqn:H; [|discriminate H].
  exists 2%nat, 5%nat, 1, 0, 0, None, w_2, (fun _ => 0), (fun _ => 0), (fun _ => 0), c, 0%nat. split; [exact H|]. split; [exact w_2_varied|]. split; [lia|].
  destruct (conf_irm_simulated _ _ _ _ _ _ _ _ _ _ _ c H) as (Z & Q). destruct (Q 0%nat ltac:(lia)) as (D & Y & _). rewrite Y. rewrite (w_2_z (ci_z c)) by (apply Z; lia).
  assert (One : ci_d c 0%nat = 1).
  { destruct D as [(D & _)|(_ & D)]; [exact D|]. exfalso. apply D. apply Rle_ge. destruct (conf_irm_propensity _ _ _ _ _ _ _ _ _ _ _ c H) as (_ & In & Out). cbv zeta in In, Out.
    set (p := propensity_c (features true w_2 (ci_z c))) in *.
    assert (Pp : 0 < p 0%nat) by (unfold p, propensity_c, logistic; match goal with |- 0 < exp ?v / _ => pose proof (exp_pos v) end; apply Rdiv_lt_0_compat; lra).
    destruct (Classical_Prop.classic (within 2 (kw None 0.01) 0 p (fun _ => 0))) as [W|W]; [destruct (In W 0%nat) as (-> & _); lra|destruct (Out W 0%nat) as (-> & _)].
    unfold kw. apply Rmin_glb; [|lra]. eapply Rle_trans; [|apply Rmax_l]. lra. }
  rewrite One. unfold features, w_2. cbn [INR]. lra.
Qed.
(** The covariates enter the outcome without the treatment as a factor. *)
Lemma ssm_documented_wrong : exists n k theta mar ret x e0 e1 w z o y d s,
  make_ssm n k theta mar ret x e0 e1 w z = Ok o /\ returned ret asks_data n (arrays_xyd n k x y d ++ [Some (column n z); Some (column n s)]) (cols_ssm k mar x y d z s) (roles_ssm k mar) o /\
  ssm_selection n k (if mar then 0 else 1) x z e0 w d s /\ ~ ssm_documented n k theta x e1 d s y.
Proof.
  pose (run := make_ssm 1 1 1 true RetArray (fun _ _ => 1) (fun _ => 1) (fun _ => 0) (fun _ => -1) (fun _ => 0)).
  destruct run as [o|e] eqn:H; [|discriminate H]. unfold run in H. destruct (ssm_simulated _ _ _ _ _ _ _ _ _ _ o H) as (y & d & s & Rt & Se & Ad).
  exists 1%nat, 1%nat, 1, true, RetArray, (fun _ _ => 1), (fun _ => 1), (fun _ => 0), (fun _ => -1), (fun _ => 0), o, y, d, s. split; [exact H|]. split; [exact Rt|]. split; [exact Se|].
  intro Do. assert (X : inner 1 (fun _ _ => 1) (fun j => 0.4 / INR (S j) ^ 2) 0 = 0.4) by (unfold inner; sums; field).
  destruct (Se 0%nat ltac:(lia)) as (Sd & Ss). cbv zeta in Sd, Ss. rewrite X in Sd, Ss. specialize (Ad 0%nat ltac:(lia)). rewrite X in Ad.
  destruct Sd as [(_ & Sd)|(Ed & _)]; [lra|]. destruct Ss as [(Es & _)|(_ & Ss)]; [|lra]. specialize (Do 0%nat ltac:(lia) Es). rewrite X in Do. rewrite Ed, Es in *. lra.
Qed.
(** Arrays of panel data have a fourth entry. *)
Lemma did_arrays_wrong : exists n dgp xi lambda_t ret x eps0 eps1 u nu u_t o,
  make_did n dgp false xi lambda_t ret x eps0 eps1 u nu u_t = Ok o /\ asks_arrays ret /\ (forall j, (j < 4)%nat -> varied n x j) /\ ~ exists z y d, o = OutArrays [z; y; d].
Proof.
  destruct (make_did 8 1 false None None RetArray w_x (fun _ => 0) (fun _ _ => 0) (fun _ => 0) (fun _ => 0) (fun _ => 0)) as [o|e] eqn:H; [|discriminate H].
  exists 8%nat, 1%Z, None, None, RetArray, w_x, (fun _ => 0), (fun _ _ => 0), (fun _ => 0), (fun _ => 0), (fun _ => 0), o. split; [exact H|]. split; [left; reflexivity|]. split; [exact w_varied|].
  intros (z & y & d & ->). discriminate H.
Qed.
(** ** Several levels *)
Lemma quantile_half a b c : a <= b -> b <= c -> quantile [a; b; c] (1 / 2) = b.
Proof.
  intros H1 H2. unfold quantile. cbn [length Nat.sub].
  assert (E : rsort [a; b; c] = [a; b; c]) by (cbn; destruct (Rle_dec b c); [|contradiction]; cbn; destruct (Rle_dec a b); [reflexivity|contradiction]).
  rewrite E. replace (1 / 2 * INR 2) with 1 by (cbn; lra).
  assert (E2 : Int_part 1 = 1%Z) by (unfold Int_part; rewrite <- (tech_up 1 2); [reflexivity|cbn; lra|cbn; lra]).
  rewrite E2. change (Z.to_nat 1) with 1%nat. cbn [nth Nat.min INR]. ring.
Qed.
Definition w_d : vec := fun i => match i with 0%nat => -1 | 1%nat => 0 | _ => 1 end.
Definition w_eta : vec := fun i => match i with 0%nat => 1 | 1%nat => 1 | _ => 0 end.
Definition w_levels (eta : vec) := make_discrete 3 5 (PInt 2) true (Some 0) w_2 (fun _ => 0) w_d eta.
Lemma w_levels_run eta : exists r, w_levels eta = Ok r /\ (forall i, (i < 3)%nat -> di_cont r i = w_d i) /\
  di_potential r 0%nat = 1 /\ di_potential r 1%nat = 2 /\ di_potential r 2%nat = 2 /\
  (forall i, di_d r i = if Rle_dec (1 / 2) (eta i) then di_potential r i else 0) /\
  (forall i, di_ite r i = computed_effect (di_cont r i)) /\ (forall i, di_y r i = if Rle_dec (1 / 2) (eta i) then di_y0 r i + di_ite r i else di_y0 r i).
Proof.
  destruct (w_levels eta) as [r|e] eqn:H; [|discriminate H]. exists r. split; [reflexivity|].
  unfold w_levels in H. destruct (discrete_simulated _ _ _ _ _ _ _ _ _ r H) as (k & z & Ek & _ & _ & _ & Q). assert (k = 2)%nat as -> by (cbn in Ek; lia). cbv zeta in Q.
  assert (C : forall i, di_cont r i = w_d i) by (intro i; destruct (Q i) as (-> & _); cbn [kw]; ring).
  assert (B : level_bound 3 r 2 1 = 0).
  { unfold level_bound. rewrite (map_ext _ w_d) by exact C. cbn [seq map w_d]. replace (INR 1 / INR 2) with (1 / 2) by (cbn; lra). apply quantile_half; lra. }
  split; [intros; apply C|].
  assert (P : forall i, di_potential r i = if Rle_dec 0 (w_d i) then 2 else 1).
  { intro i. destruct (Q i) as (_ & -> & _). cbn [Nat.sub seq]. unfold count_true. cbn [filter]. rewrite B, C. unfold rleb. destruct (Rle_dec 0 (w_d i)); cbn; lra. }
  rewrite !P. cbn [w_d]. replace (1 / 2) with (/ INR 2) by (cbn; lra).
  split; [destruct (Rle_dec 0 (-1)); lra|]. split; [destruct (Rle_dec 0 0); lra|]. split; [destruct (Rle_dec 0 1); lra|].
  split; [intro i; apply Q|]. split; [intro i; apply Q|intro i; apply Q].
Qed.
Lemma three_levels : exists n dim_x linear xi x eps_y eps_d eta r,
  make_discrete n dim_x (PInt 2) linear xi x eps_y eps_d eta = Ok r /\ exists i i' i'', (i < n)%nat /\ (i' < n)%nat /\ (i'' < n)%nat /\ di_d r i = 0 /\ di_d r i' = 1 /\ di_d r i'' = 2.
Proof.
  destruct (w_levels_run w_eta) as (r & H & C & P0 & P1 & P2 & D & _). exists 3%nat, 5%nat, true, (Some 0), w_2, (fun _ => 0), w_d, w_eta, r. split; [exact H|].
  exists 2%nat, 0%nat, 1%nat. rewrite !D, P0, P1, P2. cbn [w_eta]. destruct (Rle_dec (1 / 2) 0); [lra|]. destruct (Rle_dec (1 / 2) 1); [|lra]. repeat split; lia.
Qed.
Lemma level_effect_wrong : exists n dim_x n_levels linear xi x eps_y eps_d eta r i,
  make_discrete n dim_x n_levels linear xi x eps_y eps_d eta = Ok r /\ (i < n)%nat /\ di_d r i > 0 /\ ~ di_cont r i > 0 /\
  di_ite r i <> documented_effect (di_cont r i) /\ di_y r i <> di_y0 r i.
Proof.
  destruct (w_levels_run w_eta) as (r & H & C & P0 & P1 & P2 & D & I & Y). exists 3%nat, 5%nat, (PInt 2), true, (Some 0), w_2, (fun _ => 0), w_d, w_eta, r, 1%nat. split; [exact H|].
  split; [lia|]. rewrite D, Y, P1, I, C by lia. cbn [w_eta w_d]. destruct (Rle_dec (1 / 2) 1); [|lra]. split; [lra|]. split; [lra|].
  assert (E : 5.5 < computed_effect 0).
  { unfold computed_effect. rewrite cos_0. assert (L : exp (- (0 + 1.2 * 1)) < 1) by (apply (Rlt_le_trans _ (exp 0)); [apply exp_increasing; lra|rewrite exp_0; lra]). set (v := exp _) in *. assert (Pv : 0 < v) by apply exp_pos.
    assert (15 / 2 < 15 / (1 + v)); [|lra]. apply Rmult_lt_compat_l; [lra|]. apply Rinv_lt_contravar; nra. }
  unfold documented_effect. rewrite Rmult_0_r, exp_0, sin_0. split; lra.
Qed.
(** tau is not the effect at a cutoff other than zero. *)
Lemma rdd_effect_wrong : exists n p fuzzy cutoff a tau k score x e0 e1 u i, let r := make_rdd n p fuzzy false cutoff a tau k score x e0 e1 u in
  (i < n)%nat /\ score i = kw cutoff 0 /\ e0 i = 0 /\ e1 i = 0 /\ rs_y1 r i - rs_y0 r i <> kw tau 1.
Proof.
  exists 1%nat, 4%nat, false, (Some 1), None, None, 3%nat, (fun _ => 1), w_2, (fun _ => 0), (fun _ => 0), (fun _ => 0), 0%nat. cbv zeta.
  split; [lia|]. repeat (split; [reflexivity|]). rewrite (rdd_effect 1) by (auto; lia). cbn [kw]. lra.
Qed.

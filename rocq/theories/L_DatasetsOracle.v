(** Simulated data: the generators that return a dictionary with oracle values. *)
From Verif Require Export L_DatasetsMore.
From Coq Require Import Lia Lra.
Local Open Scope R_scope.
Local Open Scope string_scope.

(** ** make_confounded_irm_data *)
Section ConfIrm.
  Variables (n k : nat) (theta gamma_a beta_a : R) (linear : bool) (trimming : option R) (x : mat) (eps a u : vec).
  Notation run := (make_conf_irm n k theta gamma_a beta_a linear trimming x eps a u).
  Lemma f_reg_c_eq w i : f_reg_c w i = regression_c w i.
  Proof. unfold f_reg_c, regression_c. lra. Qed.
  Lemma propensity_eq w i : expit (f_ps_c (75 / 100) w i) = propensity_c w i.
  Proof. unfold propensity_c, f_ps_c. change expit with logistic. f_equal; lra. Qed.
  Lemma off_iff thr (p : vec) : existsb (fun i => rltb (p i + gamma_a * a i) thr || rltb (1 - thr) (p i + gamma_a * a i)) (seq 0 n) = false <-> within n thr gamma_a p a.
  Proof.
    unfold within. split.
    - intros H i Hi. destruct (rltb (p i + gamma_a * a i) thr || rltb (1 - thr) (p i + gamma_a * a i)) eqn:Q.
      + assert (existsb (fun i => rltb (p i + gamma_a * a i) thr || rltb (1 - thr) (p i + gamma_a * a i)) (seq 0 n) = true) by (apply existsb_exists; exists i; split; [apply in_seq; lia|exact Q]). congruence.
      + apply orb_false_iff in Q as (A & B). unfold rltb in A, B. destruct (Rlt_dec _ thr); [discriminate|]. destruct (Rlt_dec (1 - thr) _); [discriminate|]. lra.
    - intro H. destruct (existsb _ _) eqn:Q; [|reflexivity]. apply existsb_exists in Q as (i & Hi & Q). apply in_seq in Hi. specialize (H i ltac:(lia)).
      apply orb_true_iff in Q as [Q|Q]; unfold rltb in Q; destruct (Rlt_dec _ _); try discriminate; lra.
  Qed.
  (** Treatment and outcome. *)
  Lemma conf_irm_simulated c : run = Ok c ->
    (forall j, (j < 5)%nat -> standardised n x (ci_z c) j) /\
    forall i, (i < n)%nat -> let w := features linear x (ci_z c) in
      indicator (ci_d c i) (ci_m_long c i >= u i) /\
      ci_y c i = theta * ci_d c i * (ci_z c i 4%nat + 1) + regression_c w i + beta_a * a i + eps i /\
      ci_y0 c i = regression_c w i + beta_a * a i + eps i /\
      ci_y1 c i = theta * (ci_z c i 4%nat + 1) + regression_c w i + beta_a * a i + eps i /\
      ci_y c i = (if Req_EM_T (ci_d c i) 1 then ci_y1 c i else ci_y0 c i) /\
      ci_g_long c i = ci_y c i - eps i.
  Proof.
    unfold make_conf_irm. destruct (Nat.ltb 4 k); cbn [require]; [|discriminate]. cbv zeta. intro H. injection H as <-. cbn [ci_z ci_y ci_d ci_y0 ci_y1 ci_m_long ci_g_long].
    split; [intros j _; apply z_standardised|]. intros i _. cbv zeta. fold (features linear x (z_of n x)). rewrite f_reg_c_eq.
    match goal with |- context[ge01 ?m (u i)] => pose proof (ge01_indicator m (u i)) as D; generalize dependent (ge01 m (u i)) end.
    intros d D. split; [exact D|]. apply indicator_01 in D. split; [ring|]. split; [ring|]. split; [ring|]. split; [|ring].
    destruct D as [->| ->]; destruct (Req_EM_T _ 1); try lra; ring.
  Qed.
  (** Propensities. *)
  Lemma conf_irm_propensity c : run = Ok c -> let thr := kw trimming 0.01 in let p := propensity_c (features linear x (ci_z c)) in
    (ci_warns c = false <-> within n thr gamma_a p a) /\
    (within n thr gamma_a p a -> forall i, ci_m_long c i = p i + gamma_a * a i /\ ci_m_short c i = p i) /\
    (~ within n thr gamma_a p a -> forall i, ci_m_long c i = Rmin (Rmax (p i + gamma_a * a i) thr) (1 - thr) /\ ci_m_short c i = Rmin (Rmax (p i) thr) (1 - thr)).
  Proof.
    unfold make_conf_irm. destruct (Nat.ltb 4 k); cbn [require]; [|discriminate]. cbv zeta. intro H. injection H as <-. cbn [ci_z ci_m_long ci_m_short ci_warns].
    replace (1 / 100) with 0.01 by lra. fold (features linear x (z_of n x)).
    assert (E : forall (t : R), existsb (fun i => rltb (expit (f_ps_c (75 / 100) (features linear x (z_of n x)) i) + gamma_a * a i) t || rltb (1 - t) (expit (f_ps_c (75 / 100) (features linear x (z_of n x)) i) + gamma_a * a i)) (seq 0 n)
      = existsb (fun i => rltb (propensity_c (features linear x (z_of n x)) i + gamma_a * a i) t || rltb (1 - t) (propensity_c (features linear x (z_of n x)) i + gamma_a * a i)) (seq 0 n)).
    { intro t. induction (seq 0 n) as [|i l IH]; [reflexivity|]. cbn [existsb]. now rewrite IH, propensity_eq. }
    rewrite E. split; [apply off_iff|]. split.
    - intros W i. rewrite (proj2 (off_iff _ _) W). now rewrite propensity_eq.
    - intros W i. destruct (existsb _ _) eqn:Q; [|exfalso; apply W, off_iff, Q]. rewrite propensity_eq. split; reflexivity.
  Qed.
  (** The average effect in the sample is theta. *)
  Lemma conf_irm_effect c : (0 < n)%nat -> run = Ok c -> meanf n (fun i => ci_y1 c i - ci_y0 c i) = theta.
  Proof.
    intros Hn H. destruct (conf_irm_simulated c H) as (Z & Q).
    rewrite (meanf_ext n _ (fun i => theta * (ci_z c i 4%nat + 1))) by (intros i Hi; destruct (Q i Hi) as (_ & _ & -> & -> & _); ring).
    rewrite meanf_scal, meanf_plus, meanf_const, (standardised_mean n x (ci_z c) 4) by (auto; apply Z; lia). ring.
  Qed.
  Lemma conf_irm_short c i : run = Ok c -> let t i := ci_d c i * (ci_z c i 4%nat + 1) in
    ci_g_short c i = (theta + beta_a * (gamma_a * (1 / 3)) / meanf n (fun i => (t i - meanf n t) ^ 2)) * t i + regression_c (features linear x (ci_z c)) i.
  Proof.
    unfold make_conf_irm. destruct (Nat.ltb 4 k); cbn [require]; [|discriminate]. intro H. injection H as <-. cbv zeta. cbn [ci_g_short ci_d ci_z].
    replace var_a with (1 / 3) by (unfold var_a; lra). unfold features. change regression_c with f_reg_c. match goal with |- context[var0 n ?t] => fold (var0 n t) end. ring.
  Qed.
  Lemma conf_irm_strength c : run = Ok c ->
    ci_cf_y c = meanf n (fun i => (ci_g_long c i - ci_g_short c i) ^ 2) / meanf n (fun i => (ci_y c i - ci_g_short c i) ^ 2) /\
    (meanf n (fun i => / (ci_m_long c i * (1 - ci_m_long c i))) <> 0 ->
      ci_cf_d_ate c = 1 - meanf n (fun i => / (ci_m_short c i * (1 - ci_m_short c i))) / meanf n (fun i => / (ci_m_long c i * (1 - ci_m_long c i)))) /\
    (meanf n (fun i => ci_m_long c i / (1 - ci_m_long c i)) <> 0 ->
      ci_cf_d_atte c = 1 - meanf n (fun i => ci_m_short c i / (1 - ci_m_short c i)) / meanf n (fun i => ci_m_long c i / (1 - ci_m_long c i))).
  Proof.
    unfold make_conf_irm. destruct (Nat.ltb 4 k); cbn [require]; [|discriminate]. intro H. injection H as <-. cbn [ci_cf_y ci_cf_d_ate ci_cf_d_atte ci_g_long ci_g_short ci_y ci_m_long ci_m_short].
    split; [reflexivity|]. split; intro N.
    - rewrite !(fun v : vec => meanf_ext n (fun i => 1 / v i) (fun i => / v i)) by (intros; unfold Rdiv; ring). set (p := meanf n _) in *. set (q := meanf n _) in *. field. exact N.
    - set (p := meanf n _) in *. set (q := meanf n _) in *. field. exact N.
  Qed.
  Lemma conf_irm_runs : (exists c, run = Ok c) <-> (5 <= k)%nat.
  Proof. unfold make_conf_irm. destruct (Nat.ltb_spec 4 k); cbn [require]; split; intro H'; try lia; eauto; destruct H'; discriminate. Qed.
End ConfIrm.

(** ** make_confounded_plr_data *)
Section ConfPlr.
  Variables (n k : nat) (theta cf_y cf_d : R) (minimise : (R -> R) -> R) (x : mat) (eps_y eps_d a : vec).
  Notation run := (make_conf_plr n k theta cf_y cf_d minimise x eps_y eps_d a).
  Lemma conf_plr_simulated c : run = Ok c ->
    cp_theta c = theta /\ (forall j, standardised n x (cp_z c) j) /\
    forall i, (i < n)%nat ->
      cp_m_short c i = index4 (cp_z c) i /\ cp_m_long c i = index4 (cp_z c) i + cp_gamma_a c * a i /\
      cp_d c i = index4 (cp_z c) i + cp_gamma_a c * a i + eps_d i /\
      cp_g_long c i = theta * cp_d c i + regression (cp_z c) i + cp_beta_a c * a i /\
      cp_y c i = theta * cp_d c i + regression (cp_z c) i + cp_beta_a c * a i + eps_y i.
  Proof.
    unfold make_conf_plr. destruct (Nat.ltb 3 k); cbn [require]; [|discriminate]. cbv zeta. intro H. injection H as <-. cbn [cp_theta cp_z cp_m_short cp_m_long cp_d cp_g_long cp_y cp_gamma_a cp_beta_a].
    split; [reflexivity|]. split; [intro j; apply z_standardised|]. intros i _. rewrite !f_reg_eq. unfold index4. repeat split; lra.
  Qed.
  (** g_short as documented, with the sample variance of d. *)
  Lemma conf_plr_short c i : run = Ok c ->
    cp_g_short c i = (theta + cp_gamma_a c * cp_beta_a c * ((1 / 3) / meanf n (fun i => (cp_d c i - meanf n (cp_d c)) ^ 2))) * cp_d c i + regression (cp_z c) i.
  Proof.
    unfold make_conf_plr. destruct (Nat.ltb 3 k); cbn [require]; [|discriminate]. cbv zeta. intro H. injection H as <-. cbn [cp_theta cp_z cp_m_short cp_m_long cp_d cp_g_long cp_g_short cp_y cp_gamma_a cp_beta_a].
    rewrite f_reg_eq. unfold var0, Rdiv. f_equal. f_equal. f_equal. rewrite Rmult_assoc. f_equal. f_equal. unfold var_a. lra.
  Qed.
  Lemma conf_plr_chosen c : run = Ok c -> cp_gamma_a c = minimise (f_m n cf_d a eps_d) /\
    cp_beta_a c = minimise (f_g n cf_y (cp_gamma_a c) (var0 n (cp_d c)) a eps_y (cp_d c)).
  Proof.
    unfold make_conf_plr. destruct (Nat.ltb 3 k); cbn [require]; [|discriminate]. cbv zeta. intro H. injection H as <-. cbn [cp_d cp_gamma_a cp_beta_a]. split; reflexivity.
  Qed.
  (** If the minimum of the objective is 0, the requested strengths hold in the sample. *)
  Lemma conf_plr_strength c : run = Ok c -> f_g n cf_y (cp_gamma_a c) (var0 n (cp_d c)) a eps_y (cp_d c) (cp_beta_a c) = 0 ->
    meanf n (fun i => (cp_g_long c i - cp_g_short c i) ^ 2) / meanf n (fun i => (cp_y c i - cp_g_short c i) ^ 2) = cf_y.
  Proof.
    intros H F. destruct (conf_plr_simulated c H) as (_ & _ & Q).
    assert (G : forall i, (i < n)%nat -> cp_g_long c i - cp_g_short c i = cp_beta_a c * (a i - cp_gamma_a c * (var_a / var0 n (cp_d c)) * cp_d c i)).
    { intros i Hi. destruct (Q i Hi) as (_ & _ & _ & -> & _). rewrite (conf_plr_short c i H). replace (1 / 3) with var_a by (unfold var_a; lra). fold (var0 n (cp_d c)). ring. }
    unfold f_g in F. cbv zeta in F. assert (Fz : forall t : R, t ^ 2 = 0 -> t = 0) by (intros t Ht; nra). apply Fz in F.
    rewrite (meanf_ext n (fun i => (cp_g_long c i - cp_g_short c i) ^ 2) (fun i => (cp_beta_a c * (a i - cp_gamma_a c * (var_a / var0 n (cp_d c)) * cp_d c i)) ^ 2)) by (intros i Hi; now rewrite G).
    rewrite (meanf_ext n (fun i => (cp_y c i - cp_g_short c i) ^ 2) (fun i => (eps_y i + cp_beta_a c * (a i - cp_gamma_a c * (var_a / var0 n (cp_d c)) * cp_d c i)) ^ 2)).
    2:{ intros i Hi. rewrite <- (G i Hi). destruct (Q i Hi) as (_ & _ & _ & -> & ->). f_equal. ring. }
    lra.
  Qed.
  Lemma conf_plr_gain c : run = Ok c -> let v i := cp_d c i - cp_m_short c i in
    meanf n (fun i => eps_d i ^ 2) <> 0 -> meanf n (fun i => v i ^ 2) <> 0 ->
    f_m n cf_d a eps_d (cp_gamma_a c) = 0 ->
    1 - meanf n (fun i => (v i / (cp_gamma_a c ^ 2 * (1 / 3) + 1)) ^ 2) / meanf n (fun i => eps_d i ^ 2) = cf_d.
  Proof.
    intros H v L S F. destruct (conf_plr_simulated c H) as (_ & _ & Q).
    assert (Fz : forall t : R, t ^ 2 = 0 -> t = 0) by (intros t Ht; nra). unfold f_m in F. cbv zeta in F. apply Fz in F.
    rewrite (meanf_ext n (fun i => (eps_d i / 1) ^ 2) (fun i => eps_d i ^ 2)) in F by (intros; f_equal; field).
    rewrite (meanf_ext n (fun i => ((cp_gamma_a c * a i + eps_d i) / (cp_gamma_a c ^ 2 * var_a + 1)) ^ 2) (fun i => (v i / (cp_gamma_a c ^ 2 * (1 / 3) + 1)) ^ 2)) in F.
    2:{ intros i Hi. unfold v. destruct (Q i Hi) as (-> & _ & -> & _). replace var_a with (1 / 3) by (unfold var_a; lra). f_equal. f_equal. ring. }
    set (s := meanf n (fun i => (v i / (cp_gamma_a c ^ 2 * (1 / 3) + 1)) ^ 2)) in *. set (l := meanf n (fun i => eps_d i ^ 2)) in *.
    assert (D : 0 < cp_gamma_a c ^ 2 * (1 / 3) + 1) by (pose proof (pow2_ge_0 (cp_gamma_a c)); lra).
    assert (S0 : s <> 0).
    { unfold s. rewrite (meanf_ext n _ (fun i => v i ^ 2 / (cp_gamma_a c ^ 2 * (1 / 3) + 1) ^ 2)) by (intros; field; lra). rewrite meanf_div. intro E. apply S.
      apply Rmult_integral in E as [E|E]; [exact E|]. exfalso. revert E. apply Rinv_neq_0_compat, pow_nonzero. lra. }
    assert (E : (l - s) / s / (1 + (l - s) / s) = 1 - s / l) by (field; repeat split; auto; intro E0; apply L; lra). rewrite E in F. lra.
  Qed.
  (** Moments of d, and products of the residual d - m_short. *)
  Lemma conf_plr_variance c : (0 < n)%nat -> run = Ok c -> population_like n (cp_m_short c) a eps_d eps_y ->
    meanf n (fun i => (cp_d c i - meanf n (cp_d c)) ^ 2) = meanf n (fun i => cp_m_short c i ^ 2) + cp_gamma_a c ^ 2 * (1 / 3) + meanf n (fun i => eps_d i ^ 2).
  Proof.
    intros Hn H (Ma & Me & Va & C1 & C2 & C3 & C4 & C5 & C6). destruct (conf_plr_simulated c H) as (_ & Z & Q). unfold corr_free in *.
    set (m := cp_m_short c) in *. set (g := cp_gamma_a c) in *. set (d := cp_d c) in *.
    assert (D : forall i, (i < n)%nat -> d i = m i + g * a i + eps_d i) by (intros i Hi; destruct (Q i Hi) as (-> & _ & -> & _); reflexivity).
    assert (Mm : meanf n m = 0).
    { rewrite (meanf_ext n m (fun i => - cp_z c i 0%nat + 0.5 * cp_z c i 1%nat - 0.25 * cp_z c i 2%nat - 0.1 * cp_z c i 3%nat)).
      - rewrite !meanf_minus, meanf_plus, meanf_opp, !meanf_scal, !(standardised_mean n x (cp_z c)) by (auto; apply Z). ring.
      - intros i Hi. destruct (Q i Hi) as (-> & _). reflexivity. }
    assert (Md : meanf n d = 0) by (rewrite (meanf_ext n d _ D), !meanf_plus, meanf_scal, Mm, Ma, Me; ring).
    rewrite Md. rewrite (meanf_ext n _ (fun i => m i ^ 2 + g ^ 2 * a i ^ 2 + eps_d i ^ 2 + 2 * g * (m i * a i) + 2 * (m i * eps_d i) + 2 * g * (a i * eps_d i))) by (intros i Hi; rewrite (D i Hi); ring).
    rewrite !meanf_plus, !meanf_scal, Va, C1, C2, C3. ring.
  Qed.
  Lemma conf_plr_residual c : (0 < n)%nat -> run = Ok c -> population_like n (cp_m_short c) a eps_d eps_y -> meanf n (fun i => (cp_d c i - meanf n (cp_d c)) ^ 2) <> 0 ->
    meanf n (fun i => (cp_y c i - cp_g_short c i) * (cp_d c i - cp_m_short c i)) =
    cp_beta_a c * cp_gamma_a c * (1 / 3) * (meanf n (fun i => cp_m_short c i ^ 2) / meanf n (fun i => (cp_d c i - meanf n (cp_d c)) ^ 2)).
  Proof.
    intros Hn H P NV. pose proof (conf_plr_variance c Hn H P) as Vd. destruct P as (Ma & Me & Va & C1 & C2 & C3 & C4 & C5 & C6). destruct (conf_plr_simulated c H) as (_ & Z & Q). unfold corr_free in *.
    set (m := cp_m_short c) in *. set (g := cp_gamma_a c) in *. set (b := cp_beta_a c) in *. set (d := cp_d c) in *.
    assert (D : forall i, (i < n)%nat -> d i = m i + g * a i + eps_d i) by (intros i Hi; destruct (Q i Hi) as (-> & _ & -> & _); reflexivity).
    set (me := meanf n (fun i => eps_d i ^ 2)) in *. set (mm := meanf n (fun i => m i ^ 2)) in *. set (vd := meanf n (fun i => (d i - meanf n d) ^ 2)) in *.
    rewrite (meanf_ext n _ (fun i => b * g * a i ^ 2 + b * (a i * eps_d i) - g * b * ((1 / 3) / vd) * (g * (m i * a i) + m i * eps_d i + g ^ 2 * a i ^ 2 + 2 * g * (a i * eps_d i) + eps_d i ^ 2) + (g * (eps_y i * a i) + eps_y i * eps_d i))).
    2:{ intros i Hi. rewrite (conf_plr_short c i H). fold d g b vd. destruct (Q i Hi) as (_ & _ & _ & _ & Y). rewrite Y. fold d b. rewrite (D i Hi). ring. }
    rewrite meanf_plus, meanf_minus, !meanf_plus, !meanf_scal, !meanf_plus, !meanf_scal, Va, C1, C2, C3, C5, C6. fold me.
    replace mm with (vd - g ^ 2 * (1 / 3) - me) by lra. field. exact NV.
  Qed.
  Lemma conf_plr_short_wrong c : (0 < n)%nat -> run = Ok c -> population_like n (cp_m_short c) a eps_d eps_y -> cp_gamma_a c <> 0 -> cp_beta_a c <> 0 ->
    (exists i, (i < n)%nat /\ cp_m_short c i <> 0) -> meanf n (fun i => (cp_y c i - cp_g_short c i) * (cp_d c i - cp_m_short c i)) <> 0.
  Proof.
    intros Hn H P G B (i & Hi & Ne).
    assert (Mm : 0 < meanf n (fun i => cp_m_short c i ^ 2)) by (apply meanf_pos; [intros; apply pow2_ge_0|]; exists i; split; [exact Hi|]; rewrite <- Rsqr_pow2; now apply Rsqr_pos_lt).
    assert (Me : 0 <= meanf n (fun i => eps_d i ^ 2)) by (apply meanf_nonneg; [exact Hn|intros; apply pow2_ge_0]).
    pose proof (conf_plr_variance c Hn H P) as V. pose proof (pow2_ge_0 (cp_gamma_a c)) as G2.
    assert (NV : 0 < meanf n (fun i => (cp_d c i - meanf n (cp_d c)) ^ 2)) by lra.
    rewrite (conf_plr_residual c Hn H P) by lra. assert (Q : 0 < meanf n (fun i => cp_m_short c i ^ 2) / meanf n (fun i => (cp_d c i - meanf n (cp_d c)) ^ 2)) by (apply Rdiv_lt_0_compat; lra).
    set (q := _ / meanf n _) in *. intro E. apply Rmult_integral in E as [E|E]; [|lra]. apply Rmult_integral in E as [E|E]; [|lra]. apply Rmult_integral in E as [E|E]; auto.
  Qed.
  Lemma conf_plr_runs : (exists c, run = Ok c) <-> (4 <= k)%nat.
  Proof. unfold make_conf_plr. destruct (Nat.ltb_spec 3 k); cbn [require]; split; intro H'; try lia; eauto; destruct H'; discriminate. Qed.
End ConfPlr.

(** ** make_irm_data_discrete_treatments *)
Section Discrete.
  Lemma level_effect_eq d : level_effect d = computed_effect d.
  Proof. unfold level_effect, computed_effect. replace (- d - 12 / 10 * cos d) with (- (d + 1.2 * cos d)) by lra. unfold Rdiv. ring. Qed.
  Lemma inner_bounds {A} (f : nat -> A) k : (1 <= k)%nat -> removelast (map f (seq 1 k)) = map f (seq 1 (k - 1)).
  Proof. intro Hk. destruct k as [|k]; [lia|]. replace (S k - 1)%nat with k by lia. rewrite seq_S, map_app. cbn [map]. apply removelast_last. Qed.
  Lemma sum_true {A} (q : A -> R) (p : A -> bool) l : (forall b, q b = b2r (p b)) -> Rsum (map q l) = INR (length (filter p l)).
  Proof.
    intro H. induction l as [|b l IH]; [reflexivity|]. cbn [map Rsum filter]. rewrite IH, H. destruct (p b); cbn [b2r length]; [rewrite S_INR; ring|ring].
  Qed.
  Variables (n dim_x : nat) (n_levels : pyval) (linear : bool) (xi : option R) (x : mat) (eps_y eps_d eta : vec).
  Notation run := (make_discrete n dim_x n_levels linear xi x eps_y eps_d eta).
  Notation discrete_features := (features linear x (z_of n x)).
  Lemma discrete_simulated r : run = Ok r -> exists k z, int_val n_levels = Z.of_nat k /\ (2 <= k)%nat /\ (forall j, standardised n x z j) /\
    di_bounds r = map (level_bound n r k) (seq 0 (S k)) /\
    forall i, let w := features linear x z in
      di_cont r i = kw xi 0.3 * index4 w i + eps_d i /\
      di_potential r i = INR (1 + count_true (fun l => rleb (level_bound n r k l) (di_cont r i)) (seq 1 (k - 1))) /\
      di_d r i = (if Rle_dec (/ INR k) (eta i) then di_potential r i else 0) /\
      di_ite r i = computed_effect (di_cont r i) /\
      di_y0 r i = regression w i + eps_y i /\
      di_y r i = (if Rle_dec (/ INR k) (eta i) then di_y0 r i + di_ite r i else di_y0 r i).
  Proof.
    unfold make_discrete. destruct (is_int n_levels); cbn [require]; [|discriminate]. destruct (Z.leb_spec 2 (int_val n_levels)) as [L|L]; cbn [require]; [|discriminate].
    destruct (Nat.ltb 3 dim_x); cbn [require]; [|discriminate]. cbv zeta. intro H. injection H as <-. fold (features linear x (z_of n x)).
    exists (Z.to_nat (int_val n_levels)), (z_of n x). set (k := Z.to_nat (int_val n_levels)).
    split; [unfold k; rewrite Z2Nat.id; lia|]. split; [unfold k; lia|]. assert (Hk : (2 <= k)%nat) by (unfold k; lia).
    split; [intro j; apply z_standardised|].
    unfold level_bound. cbn [di_cont di_bounds di_potential di_d di_ite di_y0 di_y].
    split; [reflexivity|]. intro i. cbv zeta. rewrite f_ps_eq. replace (3 / 10) with 0.3 by lra. split; [reflexivity|].
    rewrite inner_bounds by lia. rewrite map_map.
    match goal with |- context[Rsum (map ?q ?l)] => assert (P : Rsum (map q l) + 1 = INR (1 + count_true (fun l0 => rleb (quantile (map (fun i0 => f_ps (kw xi 0.3) discrete_features i0 + eps_d i0) (seq 0 n)) (INR l0 / INR k)) (f_ps (kw xi 0.3) discrete_features i + eps_d i)) l)) end.
    { rewrite plus_INR. rewrite Rplus_comm. f_equal. apply sum_true. intro b. unfold ge01. rewrite f_ps_eq. reflexivity. }
    rewrite f_ps_eq in P. split; [exact P|]. rewrite level_effect_eq, f_reg_eq.
    assert (Pos : 0 < INR (1 + count_true (fun l0 => rleb (quantile (map (fun i0 => f_ps (kw xi 0.3) discrete_features i0 + eps_d i0) (seq 0 n)) (INR l0 / INR k)) (kw xi 0.3 * index4 discrete_features i + eps_d i)) (seq 1 (k - 1)))) by (apply lt_0_INR; lia).
    rewrite <- P in Pos. assert (G : ge01 (eta i) (1 / INR k) = if Rle_dec (/ INR k) (eta i) then 1 else 0) by (unfold ge01, rleb; replace (1 / INR k) with (/ INR k) by (unfold Rdiv; ring); destruct (Rle_dec _ _); reflexivity).
    rewrite G. unfold gt01, rltb. match goal with |- context[Rsum ?l] => set (q := Rsum l) in * end. destruct (Rle_dec (/ INR k) (eta i)).
    - split; [ring|]. split; [reflexivity|]. split; [reflexivity|]. destruct (Rlt_dec 0 _) as [Q|Q]; cbn [b2r]; [ring|]. exfalso. apply Q. rewrite Rmult_1_l. exact Pos.
    - split; [ring|]. split; [reflexivity|]. split; [reflexivity|]. destruct (Rlt_dec 0 _) as [Q|Q]; cbn [b2r]; [|ring]. exfalso. rewrite Rmult_0_l in Q. lra.
  Qed.
  (** The treatment takes the values 0, 1, …, n_levels, larger ones for larger continuous treatments. *)
  Lemma count_le p l : (count_true p l <= length l)%nat.
  Proof. unfold count_true. induction l as [|b l IH]; cbn [filter]; [lia|]. destruct (p b); cbn [length]; lia. Qed.
  Lemma count_mono p q l : (forall b, p b = true -> q b = true) -> (count_true p l <= count_true q l)%nat.
  Proof. intro H. unfold count_true. induction l as [|b l IH]; cbn [filter]; [lia|]. specialize (H b). destruct (p b), (q b); cbn [length]; try lia; discriminate (H eq_refl). Qed.
  Lemma discrete_levels r : run = Ok r -> forall i, exists l, di_d r i = INR l /\ (Z.of_nat l <= int_val n_levels)%Z.
  Proof.
    intros H i. destruct (discrete_simulated r H) as (k & z & Ek & Hk & _ & _ & Q). destruct (Q i) as (_ & Pt & D & _). rewrite D.
    destruct (Rle_dec _ _); [|exists 0%nat; split; [reflexivity|lia]]. eexists. split; [exact Pt|].
    pose proof (count_le (fun l => rleb (level_bound n r k l) (di_cont r i)) (seq 1 (k - 1))) as C. rewrite seq_length in C. lia.
  Qed.
  Lemma discrete_monotone r : run = Ok r -> forall i i', di_cont r i <= di_cont r i' -> di_potential r i <= di_potential r i'.
  Proof.
    intros H i i' L. destruct (discrete_simulated r H) as (k & z & Ek & Hk & _ & _ & Q). destruct (Q i) as (_ & -> & _). destruct (Q i') as (_ & -> & _).
    apply le_INR. apply (fun a b c => proj1 (Nat.add_le_mono_l b c a)). apply count_mono. intro b. unfold rleb. destruct (Rle_dec _ (di_cont r i)); [|discriminate]. destruct (Rle_dec _ (di_cont r i')); [reflexivity|lra].
  Qed.
  Lemma discrete_runs : (exists r, run = Ok r) <-> is_int n_levels = true /\ (2 <= int_val n_levels)%Z /\ (4 <= dim_x)%nat.
  Proof.
    unfold make_discrete. destruct (is_int n_levels); cbn [require]; [|split; [intros (? & Q); discriminate|intros (Q & _); discriminate]].
    destruct (Z.leb_spec 2 (int_val n_levels)); cbn [require]; [|split; [intros (? & Q); discriminate|lia]].
    destruct (Nat.ltb_spec 3 dim_x); cbn [require]; [|split; [intros (? & Q); discriminate|lia]]. split; [intros _; repeat split; auto; lia|intros _; eexists; reflexivity].
  Qed.
End Discrete.

(** ** make_simple_rdd_data *)
Section Rdd.
  Variables (n p : nat) (fuzzy binary : bool) (cutoff a tau : option R) (k : nat) (score : vec) (x : mat) (e0 e1 u : vec).
  Notation run := (make_rdd n p fuzzy binary cutoff a tau k score x e0 e1 u).
  Lemma draw01_01 v q : draw01 v q = 0 \/ draw01 v q = 1.
  Proof. unfold draw01. destruct (rltb v q); cbn [b2r]; auto. Qed.
  Lemma rdd_simulated : rs_score run = score /\ rs_x run = x /\
    (binary = false -> rdd_model n k p (kw tau 1) (kw a 0) score x e0 e1 (rs_y0 run) (rs_y1 run)) /\
    (binary = true -> forall i, (rs_y0 run i = 0 \/ rs_y0 run i = 1) /\ (rs_y1 run i = 0 \/ rs_y1 run i = 1)) /\
    (fuzzy = false -> forall i, indicator (rs_d run i) (score i >= kw cutoff 0)) /\
    (forall i, rs_d run i = 0 \/ rs_d run i = 1) /\
    (forall i, rs_y run i = if Req_EM_T (rs_d run i) 1 then rs_y1 run i else rs_y0 run i).
  Proof.
    unfold make_rdd. cbn [rs_score rs_x rs_y0 rs_y1 rs_d rs_y]. split; [reflexivity|]. split; [reflexivity|].
    split; [intros -> i _; cbv zeta; unfold M_Datasets.poly; split; lra|]. split; [intros -> i; split; apply draw01_01|].
    split; [intros -> i; apply ge01_indicator|].
    assert (D : forall i, (if fuzzy then draw01 (u i) (rclip 0 1 (3 / 10 + 4 / 10 * ge01 (score i) (kw cutoff 0) + 1 / 100 * score i ^ 2 - 2 / 100 * score i ^ 2 * ge01 (score i) (kw cutoff 0) + 2 / 10 * (if (p =? 0)%nat then 0 else sumf k (fun j => M_Datasets.poly p (x i j))))) else ge01 (score i) (kw cutoff 0)) = 0 \/ (if fuzzy then draw01 (u i) (rclip 0 1 (3 / 10 + 4 / 10 * ge01 (score i) (kw cutoff 0) + 1 / 100 * score i ^ 2 - 2 / 100 * score i ^ 2 * ge01 (score i) (kw cutoff 0) + 2 / 10 * (if (p =? 0)%nat then 0 else sumf k (fun j => M_Datasets.poly p (x i j))))) else ge01 (score i) (kw cutoff 0)) = 1).
    { intro i. destruct fuzzy; [apply draw01_01|exact (indicator_01 _ _ (ge01_indicator _ _))]. }
    split; [exact D|]. intro i. destruct (D i) as [->| ->]; destruct (Req_EM_T _ 1); try lra; ring.
  Qed.
  (** The effect of a row at the cutoff. *)
  Lemma rdd_effect i : (i < n)%nat -> binary = false -> score i = kw cutoff 0 ->
    rs_y1 run i - rs_y0 run i = kw tau 1 - 0.5 * kw cutoff 0 ^ 2 + kw a 0 * sumf k (x i) * kw cutoff 0 + (e1 i - e0 i).
  Proof.
    intros Hi B E. destruct rdd_simulated as (_ & _ & M & _). destruct (M B i Hi) as (-> & ->). rewrite E. ring.
  Qed.
End Rdd.

(** ** Differences in differences *)
Lemma did_differences n xi w_reg w_ps eps0 eps1 u nu d y0 y1 : did_model n xi w_reg w_ps eps0 eps1 u nu d y0 y1 -> forall i, (i < n)%nat ->
  y1 1%nat i - y1 0%nat i = eps1 i 1%nat - eps1 i 0%nat /\ y1 (arm_of (d i)) i - y0 i = regression w_reg i + eps1 i (arm_of (d i)) - eps0 i.
Proof.
  intros M i Hi. destruct (M i Hi) as (_ & -> & Y). rewrite !Y by lia. split; [ring|]. rewrite Y by (unfold arm_of; destruct (Req_EM_T _ _); lia). ring.
Qed.

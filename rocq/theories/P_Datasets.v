(** Properties of the data generators: C96 (equations), C97 (returned values), C98 (effects and oracle values). *)
From Verif Require Import L_DatasetsWitness.
From Coq Require Import Lia Lra.
Local Open Scope R_scope.
Local Open Scope string_scope.

(** ** C96: every row satisfies the documented equations *)
(** make_plr_CCDDHNR2018. *)
Theorem C96_plr : forall (n k : nat) (alpha : R) (a0 a1 s1 b0 b1 s2 : option R) (ret : ret_arg) (x : mat) (v zeta : vec), forall o, (make_plr n k alpha a0 a1 s1 b0 b1 s2 ret x v zeta) = Ok o ->
  exists y d, returned ret asks_data n (arrays_xyd n k x y d) (cols_xyd k x y d) (roles_xyd k) o /\
  plr_model n alpha (kw a0 1) (kw a1 0.25) (kw s1 1) (kw b0 1) (kw b1 0.25) (kw s2 1) x v zeta y d.
Proof. exact @plr_simulated. Qed.
Print Assumptions C96_plr.

(** make_plr_turrell2018. *)
Theorem C96_turrell : forall (n k : nat) (theta : R) (nu gamma : option R) (ret : ret_arg) (x : mat) (v u : vec), forall o, (make_turrell n k theta nu gamma ret x v u) = Ok o ->
  exists y d, returned ret asks_data n (arrays_xyd n k x y d) (cols_xyd k x y d) (roles_xyd k) o /\
  turrell_model n k theta (kw nu 0) (kw gamma 1) x v u y d.
Proof. exact @turrell_simulated. Qed.
Print Assumptions C96_turrell.

(** make_irm_data; the shares of explained variance are those asked for. *)
Theorem C96_irm : forall (n k : nat) (theta r2_d r2_y : R) (ret : ret_arg) (x : mat) (v zeta : vec), forall o, (0 < k)%nat -> 0 <= r2_d < 1 -> 0 <= r2_y < 1 -> (make_irm n k theta r2_d r2_y ret x v zeta) = Ok o ->
  exists y d, returned ret asks_data n (arrays_xyd n k x y d) (cols_xyd k x y d) (roles_xyd k) o /\ irm_model n k theta r2_d r2_y x v zeta y d.
Proof. exact @irm_simulated. Qed.
Print Assumptions C96_irm.

(** make_iivm_data. *)
Theorem C96_iivm : forall (n k : nat) (theta alpha_x : R) (ret : ret_arg) (x : mat) (u v z : vec), forall o, (make_iivm n k theta alpha_x ret x u v z) = Ok o ->
  exists y d, returned ret asks_data n (arrays_xyd n k x y d ++ [Some (column n z)]) (cols_xydz k x y d z) (roles_xydz k) o /\
  iivm_model n k theta alpha_x x u v z y d.
Proof. exact @iivm_simulated. Qed.
Print Assumptions C96_iivm.

(** make_pliv_CHS2015. *)
Theorem C96_pliv : forall (n : nat) (alpha : R) (k kz : nat) (ret : ret_arg) (x : mat) (eps u : vec) (xi : mat), forall o, (make_pliv n alpha k kz ret x eps u xi) = Ok o ->
  exists y d z, returned ret asks_data n (arrays_xyd n k x y d ++ [Some (matrix n kz z)]) (cols_pliv k kz x z y d) (roles_pliv k kz) o /\
  pliv_model n k kz alpha x z eps u xi y d.
Proof. exact @pliv_simulated. Qed.
Print Assumptions C96_pliv.

(** make_pliv_multiway_cluster_CKMS2021: one row per cell of the two cluster variables. *)
Theorem C96_multiway : forall (n m k : nat) (theta : R) (pi10 : option R) (zeta0 pi20 xi0 : option vec) (ox oe ov oV : option (R * R)) (ret : ret_arg) (ax : cluster_parts (nat -> R)) (aeps av aV : cluster_parts R), forall o, (make_multiway n m k theta pi10 zeta0 pi20 xi0 ox oe ov oV ret ax aeps av aV) = Ok o ->
  exists (ci cj : nat -> nat) (vi vj : vec) x y d z, cells n m ci cj /\ (forall r, (r < n * m)%nat -> vi r = INR (ci r) /\ vj r = INR (cj r)) /\
  returned ret asks_cluster (n * m) (arrays_multi (n * m) k x y d vi vj z) (cols_multi k vi vj x y d z) (roles_multi k) o /\
  multiway_model n m k theta (kw pi10 1) (kw_vec zeta0 (fun j => 0.5 ^ S j)) (kw_vec pi20 (fun j => 0.5 ^ S j)) (kw_vec xi0 (fun j => 0.5 ^ S j))
  (kw_pair ox) (kw_pair oe) (kw_pair ov) (kw_pair oV) ax aeps av aV ci cj x y d z.
Proof. exact @multiway_simulated. Qed.
Print Assumptions C96_multiway.

(** make_did_SZ2020, panel and cross-sectional data. *)
Theorem C96_did : forall (n : nat) (dgp : Z) (cross : bool) (xi lambda_t : option R) (ret : ret_arg) (x : mat) (eps0 : vec) (eps1 : mat) (u nu u_t : vec), forall o, (forall j, (j < 4)%nat -> varied n x j) -> (make_did n dgp cross xi lambda_t ret x eps0 eps1 u nu u_t) = Ok o ->
  exists z w_reg w_ps d y0 y1, dgp_features dgp x z = Some (w_reg, w_ps) /\ (forall j, (j < 4)%nat -> standardised n x z j) /\
  did_model n (kw xi 0.75) w_reg w_ps eps0 eps1 u nu d y0 y1 /\ did_outcome n cross lambda_t ret u_t o z d y0 y1.
Proof. exact @did_simulated. Qed.
Print Assumptions C96_did.

(** make_ssm_data: the covariates enter the outcome additively. *)
Theorem C96_sample_selection : forall (n k : nat) (theta : R) (mar : bool) (ret : ret_arg) (x : mat) (e0 e1 w z : vec), forall o, (make_ssm n k theta mar ret x e0 e1 w z) = Ok o ->
  exists y d s, returned ret asks_data n (arrays_xyd n k x y d ++ [Some (column n z); Some (column n s)]) (cols_ssm k mar x y d z s) (roles_ssm k mar) o /\
  ssm_selection n k (if mar then 0 else 1) x z e0 w d s /\ ssm_additive n k theta x e1 d s y.
Proof. exact @ssm_simulated. Qed.
Print Assumptions C96_sample_selection.

(** The documented outcome equation, with the covariates multiplied by the treatment, fails. *)
Theorem C96_sample_selection_refuted : exists n k theta mar ret x e0 e1 w z o y d s,
  make_ssm n k theta mar ret x e0 e1 w z = Ok o /\ returned ret asks_data n (arrays_xyd n k x y d ++ [Some (column n z); Some (column n s)]) (cols_ssm k mar x y d z s) (roles_ssm k mar) o /\
  ssm_selection n k (if mar then 0 else 1) x z e0 w d s /\ ~ ssm_documented n k theta x e1 d s y.
Proof. exact @ssm_documented_wrong. Qed.
Print Assumptions C96_sample_selection_refuted.

(** make_heterogeneous_data. *)
Theorem C96_heterogeneous : forall (n p support_size : nat) (n_x : Z) (binary : pyval) (support : list nat) (coefs_y coefs_d : list R) (eps eta : vec) (x : mat), NoDup support /\ length support = support_size /\ (forall s, In s support -> (s < p)%nat) -> length coefs_y = support_size -> length coefs_d = support_size ->
  forall h, (make_heterogeneous n p support_size n_x binary support coefs_y coefs_d eps eta x) = Ok h ->
  exists (b : bool) y d gamma0 beta0, binary = PBool b /\
  holds n ([("y", y); ("d", d)] ++ map (fun j => ("X_" ++ decimal j, fun i => x i j)) (seq 0 p)) (h_data h) /\
  (forall v, h_effect h v = if (n_x =? 1)%Z then effect_1 v else effect_2 v) /\
  (forall i, (i < n)%nat -> h_effects h i = h_effect h (x i)) /\
  sparse support coefs_y gamma0 /\ sparse support coefs_d beta0 /\
  heterogeneous_model n p b (h_effect h) gamma0 beta0 eps eta x y d.
Proof. exact @heterogeneous_simulated. Qed.
Print Assumptions C96_heterogeneous.

(** make_confounded_irm_data; Z5 in the effect is standardised, whether or not the model is linear. *)
Theorem C96_confounded_irm : forall (n k : nat) (theta gamma_a beta_a : R) (linear : bool) (trimming : option R) (x : mat) (eps a u : vec), forall c, (make_conf_irm n k theta gamma_a beta_a linear trimming x eps a u) = Ok c ->
  (forall j, (j < 5)%nat -> standardised n x (ci_z c) j) /\
  forall i, (i < n)%nat -> let w := features linear x (ci_z c) in
  indicator (ci_d c i) (ci_m_long c i >= u i) /\
  ci_y c i = theta * ci_d c i * (ci_z c i 4%nat + 1) + regression_c w i + beta_a * a i + eps i /\
  ci_y0 c i = regression_c w i + beta_a * a i + eps i /\
  ci_y1 c i = theta * (ci_z c i 4%nat + 1) + regression_c w i + beta_a * a i + eps i /\
  ci_y c i = (if Req_EM_T (ci_d c i) 1 then ci_y1 c i else ci_y0 c i) /\
  ci_g_long c i = ci_y c i - eps i.
Proof. exact @conf_irm_simulated. Qed.
Print Assumptions C96_confounded_irm.

(** For a linear model Z is documented to be X; the effect still uses the standardised Z5. *)
Theorem C96_confounded_irm_refuted : exists n k theta gamma_a beta_a trimming x eps a u c i,
  make_conf_irm n k theta gamma_a beta_a true trimming x eps a u = Ok c /\ (forall j, (j < k)%nat -> varied n x j) /\ (i < n)%nat /\
  ci_y c i <> theta * ci_d c i * (x i 4%nat + 1) + regression_c x i + beta_a * a i + eps i.
Proof. exact @linear_effect_wrong. Qed.
Print Assumptions C96_confounded_irm_refuted.

(** make_confounded_plr_data. *)
Theorem C96_confounded_plr : forall (n k : nat) (theta cf_y cf_d : R) (minimise : (R -> R) -> R) (x : mat) (eps_y eps_d a : vec), forall c, (make_conf_plr n k theta cf_y cf_d minimise x eps_y eps_d a) = Ok c ->
  cp_theta c = theta /\ (forall j, standardised n x (cp_z c) j) /\
  forall i, (i < n)%nat ->
  cp_m_short c i = index4 (cp_z c) i /\ cp_m_long c i = index4 (cp_z c) i + cp_gamma_a c * a i /\
  cp_d c i = index4 (cp_z c) i + cp_gamma_a c * a i + eps_d i /\
  cp_g_long c i = theta * cp_d c i + regression (cp_z c) i + cp_beta_a c * a i /\
  cp_y c i = theta * cp_d c i + regression (cp_z c) i + cp_beta_a c * a i + eps_y i.
Proof. exact @conf_plr_simulated. Qed.
Print Assumptions C96_confounded_plr.

(** make_irm_data_discrete_treatments. *)
Theorem C96_levels : forall (n dim_x : nat) (n_levels : pyval) (linear : bool) (xi : option R) (x : mat) (eps_y eps_d eta : vec), forall r, (make_discrete n dim_x n_levels linear xi x eps_y eps_d eta) = Ok r -> exists k z, int_val n_levels = Z.of_nat k /\ (2 <= k)%nat /\ (forall j, standardised n x z j) /\
  di_bounds r = map (level_bound n r k) (seq 0 (S k)) /\
  forall i, let w := features linear x z in
  di_cont r i = kw xi 0.3 * index4 w i + eps_d i /\
  di_potential r i = INR (1 + count_true (fun l => rleb (level_bound n r k l) (di_cont r i)) (seq 1 (k - 1))) /\
  di_d r i = (if Rle_dec (/ INR k) (eta i) then di_potential r i else 0) /\
  di_ite r i = computed_effect (di_cont r i) /\
  di_y0 r i = regression w i + eps_y i /\
  di_y r i = (if Rle_dec (/ INR k) (eta i) then di_y0 r i + di_ite r i else di_y0 r i).
Proof. exact @discrete_simulated. Qed.
Print Assumptions C96_levels.

(** The documented effect of a level and the condition on a positive continuous treatment fail. *)
Theorem C96_level_effect_refuted : exists n dim_x n_levels linear xi x eps_y eps_d eta r i,
  make_discrete n dim_x n_levels linear xi x eps_y eps_d eta = Ok r /\ (i < n)%nat /\ di_d r i > 0 /\ ~ di_cont r i > 0 /\
  di_ite r i <> documented_effect (di_cont r i) /\ di_y r i <> di_y0 r i.
Proof. exact @level_effect_wrong. Qed.
Print Assumptions C96_level_effect_refuted.

(** The treatment is a whole number from 0 to n_levels. *)
Theorem C96_levels_range : forall (n dim_x : nat) (n_levels : pyval) (linear : bool) (xi : option R) (x : mat) (eps_y eps_d eta : vec), forall r, (make_discrete n dim_x n_levels linear xi x eps_y eps_d eta) = Ok r -> forall i, exists l, di_d r i = INR l /\ (Z.of_nat l <= int_val n_levels)%Z.
Proof. exact @discrete_levels. Qed.
Print Assumptions C96_levels_range.

(** Two levels: three different treatments. *)
Theorem C96_levels_refuted : exists n dim_x linear xi x eps_y eps_d eta r,
  make_discrete n dim_x (PInt 2) linear xi x eps_y eps_d eta = Ok r /\ exists i i' i'', (i < n)%nat /\ (i' < n)%nat /\ (i'' < n)%nat /\ di_d r i = 0 /\ di_d r i' = 1 /\ di_d r i'' = 2.
Proof. exact @three_levels. Qed.
Print Assumptions C96_levels_refuted.

(** A larger continuous treatment never has a smaller level. *)
Theorem C96_levels_ordered : forall (n dim_x : nat) (n_levels : pyval) (linear : bool) (xi : option R) (x : mat) (eps_y eps_d eta : vec), forall r, (make_discrete n dim_x n_levels linear xi x eps_y eps_d eta) = Ok r -> forall i i', di_cont r i <= di_cont r i' -> di_potential r i <= di_potential r i'.
Proof. exact @discrete_monotone. Qed.
Print Assumptions C96_levels_ordered.

(** make_simple_rdd_data. *)
Theorem C96_rdd : forall (n p : nat) (fuzzy binary : bool) (cutoff a tau : option R) (k : nat) (score : vec) (x : mat) (e0 e1 u : vec), rs_score (make_rdd n p fuzzy binary cutoff a tau k score x e0 e1 u) = score /\ rs_x (make_rdd n p fuzzy binary cutoff a tau k score x e0 e1 u) = x /\
  (binary = false -> rdd_model n k p (kw tau 1) (kw a 0) score x e0 e1 (rs_y0 (make_rdd n p fuzzy binary cutoff a tau k score x e0 e1 u)) (rs_y1 (make_rdd n p fuzzy binary cutoff a tau k score x e0 e1 u))) /\
  (binary = true -> forall i, (rs_y0 (make_rdd n p fuzzy binary cutoff a tau k score x e0 e1 u) i = 0 \/ rs_y0 (make_rdd n p fuzzy binary cutoff a tau k score x e0 e1 u) i = 1) /\ (rs_y1 (make_rdd n p fuzzy binary cutoff a tau k score x e0 e1 u) i = 0 \/ rs_y1 (make_rdd n p fuzzy binary cutoff a tau k score x e0 e1 u) i = 1)) /\
  (fuzzy = false -> forall i, indicator (rs_d (make_rdd n p fuzzy binary cutoff a tau k score x e0 e1 u) i) (score i >= kw cutoff 0)) /\
  (forall i, rs_d (make_rdd n p fuzzy binary cutoff a tau k score x e0 e1 u) i = 0 \/ rs_d (make_rdd n p fuzzy binary cutoff a tau k score x e0 e1 u) i = 1) /\
  (forall i, rs_y (make_rdd n p fuzzy binary cutoff a tau k score x e0 e1 u) i = if Req_EM_T (rs_d (make_rdd n p fuzzy binary cutoff a tau k score x e0 e1 u) i) 1 then rs_y1 (make_rdd n p fuzzy binary cutoff a tau k score x e0 e1 u) i else rs_y0 (make_rdd n p fuzzy binary cutoff a tau k score x e0 e1 u) i).
Proof. exact @rdd_simulated. Qed.
Print Assumptions C96_rdd.

(** Standardised features have sample mean zero … *)
Theorem C96_centred : forall n x z j, (0 < n)%nat -> standardised n x z j -> meanf n (fun i => z i j) = 0.
Proof. exact @standardised_mean. Qed.
Print Assumptions C96_centred.

(** … and sample variance one. *)
Theorem C96_scaled : forall n x z j, (0 < n)%nat -> varied n x j -> standardised n x z j -> meanf n (fun i => z i j ^ 2) = 1.
Proof. exact @standardised_square. Qed.
Print Assumptions C96_scaled.

Example C96_case_plr : exists o y d, make_plr 2 3 1 None None None None None None RetFrame (fun i _ => INR i) (fun _ => 1) (fun _ => 2) = Ok o /\
  returned RetFrame asks_data 2 (arrays_xyd 2 3 (fun i _ => INR i) y d) (cols_xyd 3 (fun i _ => INR i) y d) (roles_xyd 3) o /\ d 0%nat = 1 + 0.25 / 2 /\ y 0%nat = d 0%nat + 1 / 2 + 2.
Proof.
  destruct (proj2 (plr_simulates 2 3 1 None None None None None None RetFrame (fun i _ => INR i) (fun _ => 1) (fun _ => 2))) as (o & H); [split; [lia|right; left; left; reflexivity]|].
  destruct (plr_simulated _ _ _ _ _ _ _ _ _ _ _ _ _ o H) as (y & d & Rt & M). exists o, y, d. split; [exact H|]. split; [exact Rt|].
  destruct (M 0%nat ltac:(lia)) as (D & Y). cbn [kw INR] in D, Y. unfold logistic in D, Y. rewrite exp_0 in D, Y. split; [rewrite D|rewrite Y]; lra.
Qed.
Example C96_case_did : (forall j, (j < 4)%nat -> varied 8 w_x j) /\ exists o, make_did 8 2 true None None RetData w_x (fun _ => 0) (fun _ _ => 0) (fun _ => 0) (fun _ => 0) (fun _ => 0) = Ok o.
Proof. split; [exact w_varied|]. apply did_simulates. split; [lia|right; right; left; reflexivity]. Qed.
Example C96_case_levels : exists r, w_levels w_eta = Ok r /\ di_d r 0%nat = 1 /\ di_d r 1%nat = 2 /\ di_d r 2%nat = 0.
Proof.
  destruct (w_levels_run w_eta) as (r & H & _ & P0 & P1 & P2 & D & _). exists r. split; [exact H|]. rewrite !D, P0, P1, P2. cbn [w_eta].
  destruct (Rle_dec (1 / 2) 0); [lra|]. destruct (Rle_dec (1 / 2) 1); [|lra]. auto.
Qed.
Example C96_case_multiway : exists o, make_multiway 3 2 2 1 None None None None None None None None RetClusterData
  {| own := fun r j => INR (r + j); per_i := fun _ _ => 1; per_j := fun _ _ => 0 |} {| own := INR; per_i := INR; per_j := INR |} {| own := INR; per_i := INR; per_j := INR |} {| own := INR; per_i := INR; per_j := INR |} = Ok o.
Proof. apply multiway_simulates. right; right; left; reflexivity. Qed.
Example C96_case_heterogeneous : exists h, make_heterogeneous 2 3 2 2 (PBool true) [2%nat; 0%nat] [1; 2] [3; 4] (fun _ => 0) (fun _ => 1) (fun i j => INR (i + j)) = Ok h.
Proof. eapply heterogeneous_simulates. split; [right; reflexivity|]. split; [lia|]. split; [now exists true|lia]. Qed.

(** ** C97: the returned value has the asked type; other arguments are refused *)
(** make_plr_CCDDHNR2018 reads the third covariate. *)
Theorem C97_plr : forall (n k : nat) (alpha : R) (a0 a1 s1 b0 b1 s2 : option R) (ret : ret_arg) (x : mat) (v zeta : vec), (exists o, (make_plr n k alpha a0 a1 s1 b0 b1 s2 ret x v zeta) = Ok o) <-> (3 <= k)%nat /\ (asks_arrays ret \/ asks_frame ret \/ asks_data ret).
Proof. exact @plr_simulates. Qed.
Print Assumptions C97_plr.

(** Its exceptions. *)
Theorem C97_plr_error : forall (n k : nat) (alpha : R) (a0 a1 s1 b0 b1 s2 : option R) (ret : ret_arg) (x : mat) (v zeta : vec), forall e, (make_plr n k alpha a0 a1 s1 b0 b1 s2 ret x v zeta) = Err e -> e = if (k <? 3)%nat then IndexError else ValueError.
Proof. exact @plr_refused. Qed.
Print Assumptions C97_plr_error.

(** make_plr_turrell2018. *)
Theorem C97_turrell : forall (n k : nat) (theta : R) (nu gamma : option R) (ret : ret_arg) (x : mat) (v u : vec), (exists o, (make_turrell n k theta nu gamma ret x v u) = Ok o) <-> asks_arrays ret \/ asks_frame ret \/ asks_data ret.
Proof. exact @turrell_simulates. Qed.
Print Assumptions C97_turrell.

(** Its exceptions. *)
Theorem C97_turrell_error : forall (n k : nat) (theta : R) (nu gamma : option R) (ret : ret_arg) (x : mat) (v u : vec), forall e, (make_turrell n k theta nu gamma ret x v u) = Err e -> e = ValueError.
Proof. exact @turrell_refused. Qed.
Print Assumptions C97_turrell_error.

(** make_irm_data. *)
Theorem C97_irm : forall (n k : nat) (theta r2_d r2_y : R) (ret : ret_arg) (x : mat) (v zeta : vec), (exists o, (make_irm n k theta r2_d r2_y ret x v zeta) = Ok o) <-> asks_arrays ret \/ asks_frame ret \/ asks_data ret.
Proof. exact @irm_simulates. Qed.
Print Assumptions C97_irm.

(** Its exceptions. *)
Theorem C97_irm_error : forall (n k : nat) (theta r2_d r2_y : R) (ret : ret_arg) (x : mat) (v zeta : vec), forall e, (make_irm n k theta r2_d r2_y ret x v zeta) = Err e -> e = ValueError.
Proof. exact @irm_refused. Qed.
Print Assumptions C97_irm_error.

(** make_iivm_data. *)
Theorem C97_iivm : forall (n k : nat) (theta alpha_x : R) (ret : ret_arg) (x : mat) (u v z : vec), (exists o, (make_iivm n k theta alpha_x ret x u v z) = Ok o) <-> asks_arrays ret \/ asks_frame ret \/ asks_data ret.
Proof. exact @iivm_simulates. Qed.
Print Assumptions C97_iivm.

(** Its exceptions. *)
Theorem C97_iivm_error : forall (n k : nat) (theta alpha_x : R) (ret : ret_arg) (x : mat) (u v z : vec), forall e, (make_iivm n k theta alpha_x ret x u v z) = Err e -> e = ValueError.
Proof. exact @iivm_refused. Qed.
Print Assumptions C97_iivm_error.

(** make_pliv_CHS2015: not more instruments than covariates. *)
Theorem C97_pliv : forall (n : nat) (alpha : R) (k kz : nat) (ret : ret_arg) (x : mat) (eps u : vec) (xi : mat), (exists o, (make_pliv n alpha k kz ret x eps u xi) = Ok o) <-> (kz <= k)%nat /\ (asks_arrays ret \/ asks_frame ret \/ asks_data ret).
Proof. exact @pliv_simulates. Qed.
Print Assumptions C97_pliv.

(** Its exceptions. *)
Theorem C97_pliv_error : forall (n : nat) (alpha : R) (k kz : nat) (ret : ret_arg) (x : mat) (eps u : vec) (xi : mat), forall e, (make_pliv n alpha k kz ret x eps u xi) = Err e -> e = if (kz <=? k)%nat then ValueError else AssertionError.
Proof. exact @pliv_refused. Qed.
Print Assumptions C97_pliv_error.

(** make_pliv_multiway_cluster_CKMS2021 returns cluster data. *)
Theorem C97_multiway : forall (n m k : nat) (theta : R) (pi10 : option R) (zeta0 pi20 xi0 : option vec) (ox oe ov oV : option (R * R)) (ret : ret_arg) (ax : cluster_parts (nat -> R)) (aeps av aV : cluster_parts R), (exists o, (make_multiway n m k theta pi10 zeta0 pi20 xi0 ox oe ov oV ret ax aeps av aV) = Ok o) <-> asks_arrays ret \/ asks_frame ret \/ asks_cluster ret.
Proof. exact @multiway_simulates. Qed.
Print Assumptions C97_multiway.

(** Its exceptions. *)
Theorem C97_multiway_error : forall (n m k : nat) (theta : R) (pi10 : option R) (zeta0 pi20 xi0 : option vec) (ox oe ov oV : option (R * R)) (ret : ret_arg) (ax : cluster_parts (nat -> R)) (aeps av aV : cluster_parts R), forall e, (make_multiway n m k theta pi10 zeta0 pi20 xi0 ox oe ov oV ret ax aeps av aV) = Err e -> e = ValueError.
Proof. exact @multiway_refused. Qed.
Print Assumptions C97_multiway_error.

(** make_did_SZ2020. *)
Theorem C97_did : forall (n : nat) (dgp : Z) (cross : bool) (xi lambda_t : option R) (ret : ret_arg) (x : mat) (eps0 : vec) (eps1 : mat) (u nu u_t : vec), (exists o, (make_did n dgp cross xi lambda_t ret x eps0 eps1 u nu u_t) = Ok o) <-> (1 <= dgp <= 6)%Z /\ (asks_arrays ret \/ asks_frame ret \/ asks_data ret).
Proof. exact @did_simulates. Qed.
Print Assumptions C97_did.

(** Its exceptions. *)
Theorem C97_did_error : forall (n : nat) (dgp : Z) (cross : bool) (xi lambda_t : option R) (ret : ret_arg) (x : mat) (eps0 : vec) (eps1 : mat) (u nu u_t : vec), forall e, (make_did n dgp cross xi lambda_t ret x eps0 eps1 u nu u_t) = Err e -> e = ValueError.
Proof. exact @did_refused. Qed.
Print Assumptions C97_did_error.

(** make_ssm_data. *)
Theorem C97_ssm : forall (n k : nat) (theta : R) (mar : bool) (ret : ret_arg) (x : mat) (e0 e1 w z : vec), (exists o, (make_ssm n k theta mar ret x e0 e1 w z) = Ok o) <-> asks_arrays ret \/ asks_frame ret \/ asks_data ret.
Proof. exact @ssm_simulates. Qed.
Print Assumptions C97_ssm.

(** Its exceptions. *)
Theorem C97_ssm_error : forall (n k : nat) (theta : R) (mar : bool) (ret : ret_arg) (x : mat) (e0 e1 w z : vec), forall e, (make_ssm n k theta mar ret x e0 e1 w z) = Err e -> e = ValueError.
Proof. exact @ssm_refused. Qed.
Print Assumptions C97_ssm_error.

(** make_heterogeneous_data. *)
Theorem C97_heterogeneous : forall (n p support_size : nat) (n_x : Z) (binary : pyval) (support : list nat) (coefs_y coefs_d : list R) (eps eta : vec) (x : mat), (exists h, (make_heterogeneous n p support_size n_x binary support coefs_y coefs_d eps eta x) = Ok h) <->
  (n_x = 1%Z \/ n_x = 2%Z) /\ (support_size <= p)%nat /\ (exists b, binary = PBool b) /\ (n_x <= Z.of_nat p)%Z.
Proof. exact @heterogeneous_simulates. Qed.
Print Assumptions C97_heterogeneous.

(** Its exceptions. *)
Theorem C97_heterogeneous_error : forall (n p support_size : nat) (n_x : Z) (binary : pyval) (support : list nat) (coefs_y coefs_d : list R) (eps eta : vec) (x : mat), forall e, (make_heterogeneous n p support_size n_x binary support coefs_y coefs_d eps eta x) = Err e -> e = AssertionError \/ e = IndexError.
Proof. exact @heterogeneous_refused. Qed.
Print Assumptions C97_heterogeneous_error.

(** Panel data as arrays are documented as (x, y, d); a fourth entry None is returned. *)
Theorem C97_panel_arrays_refuted : exists n dgp xi lambda_t ret x eps0 eps1 u nu u_t o,
  make_did n dgp false xi lambda_t ret x eps0 eps1 u nu u_t = Ok o /\ asks_arrays ret /\ (forall j, (j < 4)%nat -> varied n x j) /\ ~ exists z y d, o = OutArrays [z; y; d].
Proof. exact @did_arrays_wrong. Qed.
Print Assumptions C97_panel_arrays_refuted.

(** make_confounded_irm_data reads the fifth covariate, … *)
Theorem C97_confounded_irm : forall (n k : nat) (theta gamma_a beta_a : R) (linear : bool) (trimming : option R) (x : mat) (eps a u : vec), (exists c, (make_conf_irm n k theta gamma_a beta_a linear trimming x eps a u) = Ok c) <-> (5 <= k)%nat.
Proof. exact @conf_irm_runs. Qed.
Print Assumptions C97_confounded_irm.

(** … make_confounded_plr_data the fourth. *)
Theorem C97_confounded_plr : forall (n k : nat) (theta cf_y cf_d : R) (minimise : (R -> R) -> R) (x : mat) (eps_y eps_d a : vec), (exists c, (make_conf_plr n k theta cf_y cf_d minimise x eps_y eps_d a) = Ok c) <-> (4 <= k)%nat.
Proof. exact @conf_plr_runs. Qed.
Print Assumptions C97_confounded_plr.

(** make_irm_data_discrete_treatments. *)
Theorem C97_levels : forall (n dim_x : nat) (n_levels : pyval) (linear : bool) (xi : option R) (x : mat) (eps_y eps_d eta : vec), (exists r, (make_discrete n dim_x n_levels linear xi x eps_y eps_d eta) = Ok r) <-> is_int n_levels = true /\ (2 <= int_val n_levels)%Z /\ (4 <= dim_x)%nat.
Proof. exact @discrete_runs. Qed.
Print Assumptions C97_levels.

Example C97_case : (exists o, make_plr 2 20 1 None None None None None None (RetStr "DoubleMLData") (fun _ _ => 0) (fun _ => 0) (fun _ => 0) = Ok o) /\
  ~ (exists o, make_plr 2 20 1 None None None None None None (RetStr "doubleml") (fun _ _ => 0) (fun _ => 0) (fun _ => 0) = Ok o) /\
  ~ (exists o, make_plr 2 2 1 None None None None None None RetData (fun _ _ => 0) (fun _ => 0) (fun _ => 0) = Ok o).
Proof.
  rewrite !plr_simulates. split; [split; [lia|right; right; right; reflexivity]|]. split; [|intros (H & _); lia].
  intros (_ & [[H|(s & H & I)]|[[H|(s & H & I)]|[H|H]]]); try discriminate; injection H as <-; cbn in I; intuition discriminate.
Qed.
Example C97_case_refused : make_pliv 2 1 3 4 RetData (fun _ _ => 0) (fun _ => 0) (fun _ => 0) (fun _ _ => 0) = Err AssertionError.
Proof. reflexivity. Qed.

(** ** C98: stated effects and oracle values *)
(** Confounded interactive data: the individual effects average to theta, exactly. *)
Theorem C98_confounded_irm_effect : forall (n k : nat) (theta gamma_a beta_a : R) (linear : bool) (trimming : option R) (x : mat) (eps a u : vec), forall c, (0 < n)%nat -> (make_conf_irm n k theta gamma_a beta_a linear trimming x eps a u) = Ok c -> meanf n (fun i => ci_y1 c i - ci_y0 c i) = theta.
Proof. exact @conf_irm_effect. Qed.
Print Assumptions C98_confounded_irm_effect.

(** The propensity scores are the documented ones unless some lie outside the bounds: then a warning is issued and all are clipped. *)
Theorem C98_confounded_irm_propensity : forall (n k : nat) (theta gamma_a beta_a : R) (linear : bool) (trimming : option R) (x : mat) (eps a u : vec), forall c, (make_conf_irm n k theta gamma_a beta_a linear trimming x eps a u) = Ok c -> let thr := kw trimming 0.01 in let p := propensity_c (features linear x (ci_z c)) in
  (ci_warns c = false <-> within n thr gamma_a p a) /\
  (within n thr gamma_a p a -> forall i, ci_m_long c i = p i + gamma_a * a i /\ ci_m_short c i = p i) /\
  (~ within n thr gamma_a p a -> forall i, ci_m_long c i = Rmin (Rmax (p i + gamma_a * a i) thr) (1 - thr) /\ ci_m_short c i = Rmin (Rmax (p i) thr) (1 - thr)).
Proof. exact @conf_irm_propensity. Qed.
Print Assumptions C98_confounded_irm_propensity.

(** Its short regression, … *)
Theorem C98_confounded_irm_short : forall (n k : nat) (theta gamma_a beta_a : R) (linear : bool) (trimming : option R) (x : mat) (eps a u : vec), forall c i, (make_conf_irm n k theta gamma_a beta_a linear trimming x eps a u) = Ok c -> let t i := ci_d c i * (ci_z c i 4%nat + 1) in
  ci_g_short c i = (theta + beta_a * (gamma_a * (1 / 3)) / meanf n (fun i => (t i - meanf n t) ^ 2)) * t i + regression_c (features linear x (ci_z c)) i.
Proof. exact @conf_irm_short. Qed.
Print Assumptions C98_confounded_irm_short.

(** … and the returned strengths of confounding: shares of the residual variation and gains of the Riesz representer. *)
Theorem C98_confounded_irm_strength : forall (n k : nat) (theta gamma_a beta_a : R) (linear : bool) (trimming : option R) (x : mat) (eps a u : vec), forall c, (make_conf_irm n k theta gamma_a beta_a linear trimming x eps a u) = Ok c ->
  ci_cf_y c = meanf n (fun i => (ci_g_long c i - ci_g_short c i) ^ 2) / meanf n (fun i => (ci_y c i - ci_g_short c i) ^ 2) /\
  (meanf n (fun i => / (ci_m_long c i * (1 - ci_m_long c i))) <> 0 ->
  ci_cf_d_ate c = 1 - meanf n (fun i => / (ci_m_short c i * (1 - ci_m_short c i))) / meanf n (fun i => / (ci_m_long c i * (1 - ci_m_long c i)))) /\
  (meanf n (fun i => ci_m_long c i / (1 - ci_m_long c i)) <> 0 ->
  ci_cf_d_atte c = 1 - meanf n (fun i => ci_m_short c i / (1 - ci_m_short c i)) / meanf n (fun i => ci_m_long c i / (1 - ci_m_long c i))).
Proof. exact @conf_irm_strength. Qed.
Print Assumptions C98_confounded_irm_strength.

(** Confounded partially linear data: the returned short regression … *)
Theorem C98_confounded_plr_short : forall (n k : nat) (theta cf_y cf_d : R) (minimise : (R -> R) -> R) (x : mat) (eps_y eps_d a : vec), forall c i, (make_conf_plr n k theta cf_y cf_d minimise x eps_y eps_d a) = Ok c ->
  cp_g_short c i = (theta + cp_gamma_a c * cp_beta_a c * ((1 / 3) / meanf n (fun i => (cp_d c i - meanf n (cp_d c)) ^ 2))) * cp_d c i + regression (cp_z c) i.
Proof. exact @conf_plr_short. Qed.
Print Assumptions C98_confounded_plr_short.

(** … explains cf_y less of the residual variation if the search succeeds, … *)
Theorem C98_confounded_plr_outcome : forall (n k : nat) (theta cf_y cf_d : R) (minimise : (R -> R) -> R) (x : mat) (eps_y eps_d a : vec), forall c, (make_conf_plr n k theta cf_y cf_d minimise x eps_y eps_d a) = Ok c -> f_g n cf_y (cp_gamma_a c) (var0 n (cp_d c)) a eps_y (cp_d c) (cp_beta_a c) = 0 ->
  meanf n (fun i => (cp_g_long c i - cp_g_short c i) ^ 2) / meanf n (fun i => (cp_y c i - cp_g_short c i) ^ 2) = cf_y.
Proof. exact @conf_plr_strength. Qed.
Print Assumptions C98_confounded_plr_outcome.

(** … and the Riesz representer varies by cf_d more. *)
Theorem C98_confounded_plr_treatment : forall (n k : nat) (theta cf_y cf_d : R) (minimise : (R -> R) -> R) (x : mat) (eps_y eps_d a : vec), forall c, (make_conf_plr n k theta cf_y cf_d minimise x eps_y eps_d a) = Ok c -> let v i := cp_d c i - cp_m_short c i in
  meanf n (fun i => eps_d i ^ 2) <> 0 -> meanf n (fun i => v i ^ 2) <> 0 ->
  f_m n cf_d a eps_d (cp_gamma_a c) = 0 ->
  1 - meanf n (fun i => (v i / (cp_gamma_a c ^ 2 * (1 / 3) + 1)) ^ 2) / meanf n (fun i => eps_d i ^ 2) = cf_d.
Proof. exact @conf_plr_gain. Qed.
Print Assumptions C98_confounded_plr_treatment.

(** In a sample with the documented moments the residual of the short regression is correlated with that of the treatment … *)
Theorem C98_confounded_plr_residual : forall (n k : nat) (theta cf_y cf_d : R) (minimise : (R -> R) -> R) (x : mat) (eps_y eps_d a : vec), forall c, (0 < n)%nat -> (make_conf_plr n k theta cf_y cf_d minimise x eps_y eps_d a) = Ok c -> population_like n (cp_m_short c) a eps_d eps_y -> meanf n (fun i => (cp_d c i - meanf n (cp_d c)) ^ 2) <> 0 ->
  meanf n (fun i => (cp_y c i - cp_g_short c i) * (cp_d c i - cp_m_short c i)) =
  cp_beta_a c * cp_gamma_a c * (1 / 3) * (meanf n (fun i => cp_m_short c i ^ 2) / meanf n (fun i => (cp_d c i - meanf n (cp_d c)) ^ 2)).
Proof. exact @conf_plr_residual. Qed.
Print Assumptions C98_confounded_plr_residual.

(** … unless a coefficient or the index vanishes. *)
Theorem C98_short_regression_correlated : forall (n k : nat) (theta cf_y cf_d : R) (minimise : (R -> R) -> R) (x : mat) (eps_y eps_d a : vec), forall c, (0 < n)%nat -> (make_conf_plr n k theta cf_y cf_d minimise x eps_y eps_d a) = Ok c -> population_like n (cp_m_short c) a eps_d eps_y -> cp_gamma_a c <> 0 -> cp_beta_a c <> 0 ->
  (exists i, (i < n)%nat /\ cp_m_short c i <> 0) -> meanf n (fun i => (cp_y c i - cp_g_short c i) * (cp_d c i - cp_m_short c i)) <> 0.
Proof. exact @conf_plr_short_wrong. Qed.
Print Assumptions C98_short_regression_correlated.

(** The returned short regression is not the conditional expectation. *)
Theorem C98_short_regression_refuted : exists n k theta cf_y cf_d minimise x eps_y eps_d a c,
  make_conf_plr n k theta cf_y cf_d minimise x eps_y eps_d a = Ok c /\ (forall j, (j < k)%nat -> varied n x j) /\
  population_like n (cp_m_short c) a eps_d eps_y /\
  f_m n cf_d a eps_d (cp_gamma_a c) = 0 /\ f_g n cf_y (cp_gamma_a c) (var0 n (cp_d c)) a eps_y (cp_d c) (cp_beta_a c) = 0 /\
  ~ corr_free n (fun i => cp_y c i - cp_g_short c i) (fun i => cp_d c i - cp_m_short c i).
Proof. exact @short_regression_wrong. Qed.
Print Assumptions C98_short_regression_refuted.

(** Differences in differences: the effects of all rows are pure noise, in panel data the outcome is the trend plus noise. *)
Theorem C98_did_effect : forall n xi w_reg w_ps eps0 eps1 u nu d y0 y1, did_model n xi w_reg w_ps eps0 eps1 u nu d y0 y1 -> forall i, (i < n)%nat ->
  y1 1%nat i - y1 0%nat i = eps1 i 1%nat - eps1 i 0%nat /\ y1 (arm_of (d i)) i - y0 i = regression w_reg i + eps1 i (arm_of (d i)) - eps0 i.
Proof. exact @did_differences. Qed.
Print Assumptions C98_did_effect.

(** Regression discontinuity: effect of a row at the cutoff. *)
Theorem C98_rdd_effect : forall (n p : nat) (fuzzy binary : bool) (cutoff a tau : option R) (k : nat) (score : vec) (x : mat) (e0 e1 u : vec), forall i, (i < n)%nat -> binary = false -> score i = kw cutoff 0 ->
  rs_y1 (make_rdd n p fuzzy binary cutoff a tau k score x e0 e1 u) i - rs_y0 (make_rdd n p fuzzy binary cutoff a tau k score x e0 e1 u) i = kw tau 1 - 0.5 * kw cutoff 0 ^ 2 + kw a 0 * sumf k (x i) * kw cutoff 0 + (e1 i - e0 i).
Proof. exact @rdd_effect. Qed.
Print Assumptions C98_rdd_effect.

(** tau is documented to be the effect at the cutoff; it is so for cutoff zero only. *)
Theorem C98_rdd_effect_refuted : exists n p fuzzy cutoff a tau k score x e0 e1 u i, let r := make_rdd n p fuzzy false cutoff a tau k score x e0 e1 u in
  (i < n)%nat /\ score i = kw cutoff 0 /\ e0 i = 0 /\ e1 i = 0 /\ rs_y1 r i - rs_y0 r i <> kw tau 1.
Proof. exact @rdd_effect_wrong. Qed.
Print Assumptions C98_rdd_effect_refuted.

Example C98_case_effect : exists c, make_conf_irm 2 5 3 0 1 false None w_2 (fun _ => 1) (fun _ => 1) (fun _ => 0) = Ok c /\ meanf 2 (fun i => ci_y1 c i - ci_y0 c i) = 3.
Proof.
  destruct (proj2 (conf_irm_runs 2 5 3 0 1 false None w_2 (fun _ => 1) (fun _ => 1) (fun _ => 0)) ltac:(lia)) as (c & H). exists c. split; [exact H|]. eapply conf_irm_effect; [lia|exact H].
Qed.
(** The hypotheses of the statements on the short regression are met: C98_short_regression_refuted. *)
Example C98_case_rdd : rs_y1 (make_rdd 1 4 false false None None (Some 2) 3 (fun _ => 0) w_2 (fun _ => 0) (fun _ => 0) (fun _ => 0)) 0%nat - rs_y0 (make_rdd 1 4 false false None None (Some 2) 3 (fun _ => 0) w_2 (fun _ => 0) (fun _ => 0) (fun _ => 0)) 0%nat = 2.
Proof. rewrite rdd_effect by (auto; lia). cbn [kw]. ring. Qed.

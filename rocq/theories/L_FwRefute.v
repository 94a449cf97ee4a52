(** Concrete frameworks showing that two expected framework properties fail,
    and the parts of them that hold. *)
From Verif Require Export L_Inference L_VarEst.
Local Open Scope R_scope.

(** ** Scalar multiples *)
(** One repetition, four observations, estimate 1, standard error 1. *)
Definition unit_fw : framework :=
  {| fw_n_obs := 4; fw_n_thetas := 1; fw_n_rep := 1;
     fw_thetas := mk1 1 (fun _ => 1); fw_ses := mk1 1 (fun _ => 1);
     fw_all_thetas := mk2 1 1 (fun _ _ => 1); fw_all_ses := mk2 1 1 (fun _ _ => 1);
     fw_vs := mk1 1 (fun _ => 4); fw_scaled_psi := mk3 4 1 1 (fun i _ _ => if Nat.even i then 2 else -2);
     fw_cluster := None; fw_sens := None; fw_names := None; fw_boot := None; fw_sens_params := None |}.
Lemma sqrt_of_sq x y : 0 <= y -> x = y * y -> sqrt x = y.
Proof. intros H ->. apply sqrt_square. exact H. Qed.
Lemma unit_fw_ok : fw_wf unit_fw /\ fw_aggregated unit_fw /\ fw_ses_from_scores unit_fw /\ fw_vs_pos unit_fw /\ fw_ses_nonneg unit_fw.
Proof.
  split; [constructor; cbn; auto; discriminate|]. split; [|split; [|split]].
  - intros t Ht. cbn in Ht. cbn [unit_fw fw_thetas fw_ses fw_n_rep fw_all_thetas fw_all_ses fw_vs mk1 mk2 at_ nth].
    rewrite !medianf_one. split; [reflexivity|]. symmetry. apply sqrt_of_sq; lra.
  - intros t r Ht Hr. cbn. unfold meanf, sumf. cbn. symmetry. apply sqrt_of_sq; [lra|]. field.
  - intros t Ht. cbn. lra.
  - intros t r Ht Hr. cbn. lra.
Qed.
Lemma mul_negative : exists h, fw_mul unit_fw (PFloat (-1)) = Ok h /\ at_ (fw_ses h) [0%nat] = -1 /\
  forall ppf, 0 < ppf (1 - (1 - 19 / 20) / 2) ->
    exists ci', confint ppf h (PBool false) (PFloat (19 / 20)) = Ok ci' /\ at_ ci' [0%nat; 1%nat] < at_ ci' [0%nat; 0%nat].
Proof.
  destruct unit_fw_ok as [W _]. exists (mul_result (-1) unit_fw).
  split; [apply fw_mul_ok; auto|]. split; [cbn; lra|]. intros ppf Hp.
  destruct (confint_total ppf (mul_result (-1) unit_fw) false (19 / 20)) as [ci' H]; [lra|discriminate|].
  exists ci'. split; [exact H|]. apply confint_inv in H. destruct H as (_ & _ & _ & A & B). rewrite A, B.
  change (fw_n_rep (mul_result (-1) unit_fw)) with 1%nat. rewrite !medianf_one. unfold ci_crit. cbn. cbn in Hp. lra.
Qed.
Lemma mul_nonneg_scalar f v c : (0 < fw_n_rep f)%nat -> 0 <= c -> scalar_val v = Some c -> fw_wf f -> fw_vs_pos f -> fw_aggregated f -> fw_ses_nonneg f ->
  exists h, fw_mul f v = Ok h /\ fw_wf h /\ fw_aggregated h /\ fw_ses_nonneg h /\
    (forall t, at_ (fw_thetas h) [t] = c * at_ (fw_thetas f) [t]) /\ (forall t, at_ (fw_ses h) [t] = Rabs c * at_ (fw_ses f) [t]) /\
    forall ppf lv ci t, ppf_ok ppf -> (t < fw_n_thetas f)%nat -> confint ppf h (PBool false) (PFloat lv) = Ok ci -> at_ ci [t; 0%nat] <= at_ ci [t; 1%nat].
Proof.
  intros Hr Hc Hv Hf Hvs Ha Hs. exists (mul_result c f). rewrite (Rabs_pos_eq c) by exact Hc.
  assert (A := mul_aggregated c f Hr Hc Hf Hvs Ha).
  assert (S : fw_ses_nonneg (mul_result c f)).
  { intros t r Ht Hlr. cbn in *. apply Rmult_le_pos; [exact Hc|]. apply Hs; assumption. }
  split; [apply fw_mul_ok; assumption|]. split; [apply mul_wf; assumption|]. split; [exact A|]. split; [exact S|].
  split; [reflexivity|]. split; [reflexivity|]. intros ppf lv ci t Hp Ht H.
  destruct (ci_contains ppf (mul_result c f) false lv ci t) as [X Y]; try assumption; [|lra].
  intros b m k E. discriminate.
Qed.

(** ** Clustered data *)
(** Four observations in two clusters, two folds with one cluster each. *)
Definition cl_dict : cluster_dict :=
  {| cd_smpls := [[([2; 3], [0; 1]); ([0; 1], [2; 3])]]%nat;
     cd_smpls_cluster := [[([[1]], [[0]]); ([[0]], [[1]])]]%Z;
     cd_vars := [fun i => if Nat.ltb i 2 then 0%Z else 1%Z]; cd_n_folds_per_cluster := 2 |}.
Definition cl_psi (i : nat) : R := match i with 0%nat => 1 | 2%nat => -1 | _ => 0 end.
Definition cl_fw : framework :=
  {| fw_n_obs := 4; fw_n_thetas := 1; fw_n_rep := 1;
     fw_thetas := mk1 1 (fun _ => 1); fw_ses := mk1 1 (fun _ => sqrt (1 / 8));
     fw_all_thetas := mk2 1 1 (fun _ _ => 1); fw_all_ses := mk2 1 1 (fun _ _ => sqrt (1 / 8));
     fw_vs := mk1 1 (fun _ => 2); fw_scaled_psi := mk3 4 1 1 (fun i _ _ => cl_psi i);
     fw_cluster := Some cl_dict; fw_sens := None; fw_names := None; fw_boot := None; fw_sens_params := None |}.
Lemma cl_var psi : var_est 4 psi (fun _ => 1) (cluster_args_rep (Some cl_dict) 0) = Ok (((psi 0%nat + psi 1%nat) ^ 2 + (psi 2%nat + psi 3%nat) ^ 2) / 16, 2).
Proof.
  unfold var_est, cluster_args_rep, cl_dict. cbn [cd_vars ca_vars]. unfold var_est_one. cbv zeta.
  cbn [ca_smpls ca_smpls_cluster ca_n_folds_per_cluster cd_smpls cd_smpls_cluster cd_n_folds_per_cluster nth combine map fst snd length].
  rewrite !outer_sum_sq. unfold mask_sel.
  assert (Z01 : zuniq (map (fun i => if Nat.ltb i 2 then 0%Z else 1%Z) (seq 0 4)) = [0; 1]%Z) by reflexivity.
  rewrite Z01. cbn. f_equal. f_equal. field.
Qed.
Lemma cl_fw_ok : fw_wf cl_fw /\ fw_aggregated cl_fw /\ fw_ses_robust cl_fw /\ fw_vs_pos cl_fw.
Proof.
  split; [constructor; cbn; auto; discriminate|]. split; [|split].
  - intros t Ht. cbn [cl_fw fw_thetas fw_ses fw_n_rep fw_all_thetas fw_all_ses fw_vs mk1 mk2 at_ nth].
    rewrite !medianf_one. split; [reflexivity|]. replace (_ + _ / _) with (sqrt (1 / 8) ^ 2) by (unfold Rdiv; ring).
    symmetry. apply sqrt_sq_nonneg, sqrt_pos.
  - intros t r Ht Hr. cbn in Hr. replace r with 0%nat by lia. eexists _, _. split; [apply cl_var|].
    cbn. f_equal. field.
  - intros t Ht. cbn. lra.
Qed.
Lemma sqrt_lt_1 x y : 0 <= x -> x < y -> sqrt x < sqrt y.
Proof. intros. apply sqrt_lt_1; lra. Qed.
Lemma cl_sum_not_robust : exists h h2, fw_add cl_fw (OpFw cl_fw) = Ok h /\ fw_mul cl_fw (PInt 2) = Ok h2 /\
  at_ (fw_all_ses h2) [0%nat; 0%nat] < at_ (fw_all_ses h) [0%nat; 0%nat] /\ at_ (fw_ses h2) [0%nat] < at_ (fw_ses h) [0%nat] /\
  fw_scaled_psi h = nd_map2 Rplus (fw_scaled_psi cl_fw) (fw_scaled_psi cl_fw) /\ ~ fw_ses_robust h.
Proof.
  destruct cl_fw_ok as (W & A & S & V). exists (comb_result Rplus cl_fw cl_fw), (mul_result 2 cl_fw).
  assert (Es : at_ (fw_all_ses (comb_result Rplus cl_fw cl_fw)) [0%nat; 0%nat] = 1).
  { cbn [comb_result fw_all_ses]. rewrite comb_ses_at. apply sqrt_of_sq; [lra|]. unfold meanf, sumf. cbn. field. }
  assert (Ea : at_ (fw_ses (comb_result Rplus cl_fw cl_fw)) [0%nat] = 1).
  { destruct (comb_aggregated Rplus cl_fw cl_fw W 0%nat) as [X Y]; [cbn; lia|]. rewrite Y, X.
    change (fw_n_rep (comb_result Rplus cl_fw cl_fw)) with 1%nat. rewrite !medianf_one, Es. apply sqrt_of_sq; [lra|]. unfold Rdiv. ring. }
  assert (L : 2 * sqrt (1 / 8) < 1).
  { replace 2 with (sqrt 4) by (apply sqrt_of_sq; lra). rewrite <- sqrt_mult by lra. rewrite <- sqrt_1 at 2. apply sqrt_lt_1; lra. }
  split. { apply combine_fw_ok; auto. repeat split. intros t Ht. apply vs_equal_close; [|assumption]. intros ? ?; reflexivity. }
  split; [apply fw_mul_ok; auto|]. rewrite Es, Ea. split; [exact L|]. split; [exact L|]. split; [reflexivity|].
  intro H. destruct (H 0%nat 0%nat) as (s2 & v & H1 & H2); [cbn; lia|cbn; lia|].
  change (fw_cluster (comb_result Rplus cl_fw cl_fw)) with (Some cl_dict) in H1. change (fw_n_obs (comb_result Rplus cl_fw cl_fw)) with 4%nat in H1.
  rewrite cl_var in H1. injection H1 as <- <-. rewrite Es in H2. cbn in H2.
  assert (X : sqrt (1 / 2) < 1) by (rewrite <- sqrt_1 at 2; apply sqrt_lt_1; lra).
  match type of H2 with _ = sqrt ?e => replace e with (1 / 2) in H2 by field end. lra.
Qed.
Lemma mul_robust f c h : 0 <= c -> fw_wf f -> fw_ses_robust f -> fw_mul f (PFloat c) = Ok h -> fw_ses_robust h.
Proof.
  intros Hc Hf Hs H. rewrite (fw_mul_ok f (PFloat c) c Hf eq_refl) in H. injection H as <-. intros t r Ht Hr.
  destruct (Hs t r Ht Hr) as (s2 & v & H1 & H2). exists (c ^ 2 * s2), v. split; [apply (var_est_scale _ _ _ _ _ _ c) in H1; exact H1|].
  cbn [mul_result fw_all_ses nd_map at_]. rewrite H2. rewrite sqrt_mult_alt by apply pow2_ge_0. rewrite sqrt_sq_nonneg by exact Hc. reflexivity.
Qed.
(** Unclustered scores: robust and score-based standard errors are the same notion. *)
Lemma robust_unclustered f : (0 < fw_n_obs f)%nat -> fw_cluster f = None ->
  (forall t, (t < fw_n_thetas f)%nat -> at_ (fw_vs f) [t] = INR (fw_n_obs f)) -> (fw_ses_robust f <-> fw_ses_from_scores f).
Proof.
  intros Hn Hc Hv. unfold fw_ses_robust, fw_ses_from_scores. rewrite Hc. cbn [cluster_args_rep var_est].
  assert (E : forall t r, (t < fw_n_thetas f)%nat ->
     1 / (INR (fw_n_obs f) * meanf (fw_n_obs f) (fun _ => 1) ^ 2) * meanf (fw_n_obs f) (fun i => at_ (fw_scaled_psi f) [i; t; r] ^ 2)
     = meanf (fw_n_obs f) (fun i => at_ (fw_scaled_psi f) [i; t; r] ^ 2) / at_ (fw_vs f) [t]).
  { intros t r Ht. rewrite meanf_const by exact Hn. rewrite (Hv t Ht). generalize (meanf (fw_n_obs f) (fun i => at_ (fw_scaled_psi f) [i; t; r] ^ 2)).
    intro g. field. apply INR_neq0. exact Hn. }
  split; intros H t r Ht Hr.
  - destruct (H t r Ht Hr) as (s2 & v & H1 & H2). rewrite E in H1 by exact Ht. injection H1 as E1 E2. rewrite H2. f_equal. symmetry. exact E1.
  - eexists _, _. split; [reflexivity|]. rewrite E by exact Ht. apply H; assumption.
Qed.

(** Framework algebra: sums, differences, scalar multiples. *)
From Verif Require Export L_Framework.
Local Open Scope R_scope.

Lemma agg_spec ath ases vs n m : shape ath = [n; m] -> shape vs = [n] ->
  let p := aggregate_coefs_and_ses ath ases vs in
  shape (fst p) = [n] /\ shape (snd p) = [n] /\
  (forall t, at_ (fst p) [t] = medianf m (fun r => at_ ath [t; r])) /\
  (forall t, at_ (snd p) [t] = sqrt (medianf m (fun r => (at_ ases [t; r])^2
       + (at_ ath [t; r] - medianf m (fun r => at_ ath [t; r]))^2 / at_ vs [t]))).
Proof.
  intros H1 H2. unfold aggregate_coefs_and_ses, dim. rewrite H1, H2. cbn [nth].
  rewrite shape_eqb_refl. cbn. auto.
Qed.

Lemma comb_aggregated op f g : fw_wf f -> fw_aggregated (comb_result op f g).
Proof.
  intros Hf t Ht. unfold comb_result in *. cbn [fw_thetas fw_ses fw_n_rep fw_all_thetas fw_all_ses fw_vs fw_n_thetas] in *.
  destruct (agg_spec (nd_map2 op (fw_all_thetas f) (fw_all_thetas g)) (comb_ses op f g) (fw_vs f) (fw_n_thetas f) (fw_n_rep f))
    as (A & B & C & D); [apply (wf_all_thetas f Hf)|apply (wf_vs f Hf)|].
  split; [apply C|]. rewrite D. rewrite C. reflexivity.
Qed.
Lemma comb_wf op f g : fw_wf f -> fw_wf (comb_result op f g).
Proof.
  intros Hf.
  destruct (agg_spec (nd_map2 op (fw_all_thetas f) (fw_all_thetas g)) (comb_ses op f g) (fw_vs f) (fw_n_thetas f) (fw_n_rep f))
    as (A & B & C & D); [apply (wf_all_thetas f Hf)|apply (wf_vs f Hf)|].
  constructor; cbn; try assumption; try reflexivity.
  - apply (wf_all_thetas f Hf).
  - apply (wf_vs f Hf).
  - apply (wf_psi f Hf).
  - unfold sens_add. intros e He. destruct (fw_sens f) as [a|] eqn:Ea, (fw_sens g) as [b|] eqn:Eb; try discriminate.
    injection He as <-. cbn. destruct (wf_sens f Hf a Ea) as (P & Q & _). split; [assumption|]. split; [assumption|]. discriminate.
  - discriminate.
Qed.
Lemma comb_ses_at op f g t r : at_ (comb_ses op f g) [t; r] =
  sqrt (meanf (fw_n_obs f) (fun i => (op (at_ (fw_scaled_psi f) [i; t; r]) (at_ (fw_scaled_psi g) [i; t; r]))^2) / at_ (fw_vs f) [t]).
Proof. reflexivity. Qed.

(** Full description of a successful sum or difference. *)
Lemma combine_spec op f g h : fw_wf f -> fw_wf g -> combine_fw op f (OpFw g) = Ok h ->
  fw_wf h /\ fw_aggregated h /\
  fw_n_obs h = fw_n_obs f /\ fw_n_thetas h = fw_n_thetas f /\ fw_n_rep h = fw_n_rep f /\
  (forall t r, at_ (fw_all_thetas h) [t; r] = op (at_ (fw_all_thetas f) [t; r]) (at_ (fw_all_thetas g) [t; r])) /\
  (forall i t r, at_ (fw_scaled_psi h) [i; t; r] = op (at_ (fw_scaled_psi f) [i; t; r]) (at_ (fw_scaled_psi g) [i; t; r])) /\
  fw_ses_from_scores h.
Proof.
  intros Hf Hg H. apply combine_fw_inv in H. destruct H as (g' & E & _ & _ & _ & ->). injection E as <-.
  split; [apply comb_wf; assumption|]. split; [apply comb_aggregated; assumption|].
  repeat split; reflexivity.
Qed.

(** Observation-level extensionality of [comb_result]. *)
Lemma nd_eq_refl a : nd_eq a a.
Proof. split; auto. Qed.
Lemma nd_eq1 a b n : shape a = [n] -> shape b = [n] -> (forall t, (t < n)%nat -> at_ a [t] = at_ b [t]) -> nd_eq a b.
Proof.
  intros Ha Hb H. split; [congruence|]. intros idx Hi. rewrite Ha in Hi. apply in_shape1 in Hi. destruct Hi as [t [-> Ht]]. auto.
Qed.
Lemma nd_eq2 a b n m : shape a = [n; m] -> shape b = [n; m] ->
  (forall t r, (t < n)%nat -> (r < m)%nat -> at_ a [t; r] = at_ b [t; r]) -> nd_eq a b.
Proof.
  intros Ha Hb H. split; [congruence|]. intros idx Hi. rewrite Ha in Hi. apply in_shape2 in Hi.
  destruct Hi as (t & r & -> & Ht & Hr). auto.
Qed.
Lemma nd_eq3 a b n m k : shape a = [n; m; k] -> shape b = [n; m; k] ->
  (forall i t r, (i < n)%nat -> (t < m)%nat -> (r < k)%nat -> at_ a [i; t; r] = at_ b [i; t; r]) -> nd_eq a b.
Proof.
  intros Ha Hb H. split; [congruence|]. intros idx Hi. rewrite Ha in Hi. apply in_shape3 in Hi.
  destruct Hi as (i & t & r & -> & ?). apply H; tauto.
Qed.

(** Two aggregated frameworks with the same repetition values agree. *)
Lemma aggregated_eq f g : fw_aggregated f -> fw_aggregated g ->
  fw_n_thetas f = fw_n_thetas g -> fw_n_rep f = fw_n_rep g ->
  (forall t r, (t < fw_n_thetas f)%nat -> (r < fw_n_rep f)%nat -> at_ (fw_all_thetas f) [t; r] = at_ (fw_all_thetas g) [t; r]) ->
  (forall t r, (t < fw_n_thetas f)%nat -> (r < fw_n_rep f)%nat -> at_ (fw_all_ses f) [t; r] = at_ (fw_all_ses g) [t; r]) ->
  (forall t, (t < fw_n_thetas f)%nat -> at_ (fw_vs f) [t] = at_ (fw_vs g) [t]) ->
  forall t, (t < fw_n_thetas f)%nat -> at_ (fw_thetas f) [t] = at_ (fw_thetas g) [t] /\ at_ (fw_ses f) [t] = at_ (fw_ses g) [t].
Proof.
  intros Hf Hg Ht Hr Hth Hs Hv t Hlt. destruct (Hf t Hlt) as [F1 F2]. destruct (Hg t) as [G1 G2]; [lia|].
  assert (E : at_ (fw_thetas f) [t] = at_ (fw_thetas g) [t]).
  { rewrite F1, G1, <- Hr. apply medianf_ext. intros. apply Hth; assumption. }
  split; [exact E|]. rewrite F2, G2, <- Hr, E. f_equal. apply medianf_ext. intros r Hlr.
  rewrite Hth, Hs, Hv by assumption. reflexivity.
Qed.

(** Generic equality of two aggregated frameworks of the same dimensions. *)
Lemma obs_eq_intro f g : fw_wf f -> fw_wf g -> fw_aggregated f -> fw_aggregated g ->
  fw_n_obs f = fw_n_obs g -> fw_n_thetas f = fw_n_thetas g -> fw_n_rep f = fw_n_rep g ->
  (forall t r, (t < fw_n_thetas f)%nat -> (r < fw_n_rep f)%nat -> at_ (fw_all_thetas f) [t; r] = at_ (fw_all_thetas g) [t; r]) ->
  (forall t r, (t < fw_n_thetas f)%nat -> (r < fw_n_rep f)%nat -> at_ (fw_all_ses f) [t; r] = at_ (fw_all_ses g) [t; r]) ->
  (forall t, (t < fw_n_thetas f)%nat -> at_ (fw_vs f) [t] = at_ (fw_vs g) [t]) ->
  (forall i t r, (i < fw_n_obs f)%nat -> (t < fw_n_thetas f)%nat -> (r < fw_n_rep f)%nat -> at_ (fw_scaled_psi f) [i; t; r] = at_ (fw_scaled_psi g) [i; t; r]) ->
  fw_names f = fw_names g ->
  match fw_sens f, fw_sens g with
  | None, None => True
  | Some a, Some b => nd_eq (se_max_bias a) (se_max_bias b) /\ nd_eq (se_psi_max_bias a) (se_psi_max_bias b)
  | _, _ => False
  end -> fw_obs_eq f g.
Proof.
  intros Wf Wg Af Ag No Nt Nr E1 E2 E3 E4 En Es.
  assert (Eagg := aggregated_eq f g Af Ag Nt Nr E1 E2 E3).
  unfold fw_obs_eq. repeat (split; [assumption|]).
  split; [eapply nd_eq1; [apply (wf_thetas f Wf)|rewrite Nt; apply (wf_thetas g Wg)|intros; apply Eagg; assumption]|].
  split; [eapply nd_eq1; [apply (wf_ses f Wf)|rewrite Nt; apply (wf_ses g Wg)|intros; apply Eagg; assumption]|].
  split; [eapply nd_eq2; [apply (wf_all_thetas f Wf)|rewrite Nt, Nr; apply (wf_all_thetas g Wg)|assumption]|].
  split; [eapply nd_eq2; [apply (wf_all_ses f Wf)|rewrite Nt, Nr; apply (wf_all_ses g Wg)|assumption]|].
  split; [eapply nd_eq1; [apply (wf_vs f Wf)|rewrite Nt; apply (wf_vs g Wg)|assumption]|].
  split; [eapply nd_eq3; [apply (wf_psi f Wf)|rewrite No, Nt, Nr; apply (wf_psi g Wg)|assumption]|].
  auto.
Qed.

Lemma vs_equal_close f g t : vs_equal f g -> (t < fw_n_thetas f)%nat ->
  Rabs (at_ (fw_vs f) [t] - at_ (fw_vs g) [t]) <= 1 / 100000000 + 1 / 100000 * Rabs (at_ (fw_vs g) [t]).
Proof.
  intros H Ht. rewrite (H t Ht), Rminus_diag_eq, Rabs_R0 by reflexivity. pose proof (Rabs_pos (at_ (fw_vs g) [t])). lra.
Qed.

Lemma add_comm f g h : fw_wf f -> fw_wf g -> vs_equal f g -> fw_add f (OpFw g) = Ok h ->
  exists h', fw_add g (OpFw f) = Ok h' /\ fw_obs_eq h h'.
Proof.
  intros Hf Hg Hv H. pose proof H as Hi. apply combine_fw_inv in Hi.
  destruct Hi as (g' & E & _ & _ & (Ho & Hr & Ht & Hc & _) & ->). injection E as <-.
  exists (comb_result Rplus g f). split.
  - apply combine_fw_ok; try assumption. repeat split; try congruence.
    intros t Hlt. apply vs_equal_close; [|assumption]. intros s Hs. symmetry. apply Hv. lia.
  - set (h1 := comb_result Rplus f g). set (h2 := comb_result Rplus g f).
    assert (W1 : fw_wf h1) by (apply comb_wf; assumption). assert (W2 : fw_wf h2) by (apply comb_wf; assumption).
    assert (Nt : fw_n_thetas h1 = fw_n_thetas h2) by (cbn; assumption).
    assert (Nr : fw_n_rep h1 = fw_n_rep h2) by (cbn; assumption).
    assert (No : fw_n_obs h1 = fw_n_obs h2) by (cbn; assumption).
    assert (Eth : forall t r, at_ (fw_all_thetas h1) [t; r] = at_ (fw_all_thetas h2) [t; r]) by (intros; cbn; lra).
    assert (Eses : forall t r, (t < fw_n_thetas h1)%nat -> at_ (fw_all_ses h1) [t; r] = at_ (fw_all_ses h2) [t; r]).
    { intros t r Hlt. cbn [h1 h2 comb_result fw_all_ses]. rewrite !comb_ses_at. rewrite (Hv t) by assumption. rewrite Ho. f_equal. f_equal.
      apply meanf_ext. intros. f_equal. lra. }
    assert (Evs : forall t, (t < fw_n_thetas h1)%nat -> at_ (fw_vs h1) [t] = at_ (fw_vs h2) [t]) by (intros; apply Hv; assumption).
    apply obs_eq_intro; try assumption; try reflexivity.
    + apply comb_aggregated; assumption.
    + apply comb_aggregated; assumption.
    + intros; apply Eth.
    + intros; apply Eses; assumption.
    + intros; cbn; lra.
    + cbn [h1 h2 comb_result fw_sens]. unfold sens_add.
      destruct (fw_sens f) as [a|] eqn:Ea, (fw_sens g) as [b|] eqn:Eb; try exact I.
      destruct (wf_sens f Hf a Ea) as (A1 & A2 & _). destruct (wf_sens g Hg b Eb) as (B1 & B2 & _). cbn.
      split; (split; [cbn; congruence|]); intros; cbn; lra.
Qed.

Lemma sqr_opp x : (- x)^2 = x^2. Proof. ring. Qed.
Lemma sub_antisym f g h : (0 < fw_n_rep f)%nat -> fw_wf f -> fw_wf g -> vs_equal f g -> fw_sub f (OpFw g) = Ok h ->
  exists h', fw_sub g (OpFw f) = Ok h' /\
    (forall t r, at_ (fw_all_thetas h') [t; r] = - at_ (fw_all_thetas h) [t; r]) /\
    (forall t r, (t < fw_n_thetas f)%nat -> at_ (fw_all_ses h') [t; r] = at_ (fw_all_ses h) [t; r]) /\
    (forall t, (t < fw_n_thetas f)%nat -> at_ (fw_thetas h') [t] = - at_ (fw_thetas h) [t]) /\
    (forall t, (t < fw_n_thetas f)%nat -> at_ (fw_ses h') [t] = at_ (fw_ses h) [t]).
Proof.
  intros Hpos Hf Hg Hv H. pose proof H as Hi. apply combine_fw_inv in Hi.
  destruct Hi as (g' & E & _ & _ & (Ho & Hr & Ht & Hc & _) & ->). injection E as <-.
  exists (comb_result Rminus g f).
  assert (Eth : forall t r, at_ (fw_all_thetas (comb_result Rminus g f)) [t; r] = - at_ (fw_all_thetas (comb_result Rminus f g)) [t; r]).
  { intros; cbn; lra. }
  assert (Eses : forall t r, (t < fw_n_thetas f)%nat -> at_ (fw_all_ses (comb_result Rminus g f)) [t; r] = at_ (fw_all_ses (comb_result Rminus f g)) [t; r]).
  { intros t r Hlt. cbn [comb_result fw_all_ses]. rewrite !comb_ses_at. rewrite (Hv t) by assumption. rewrite Ho. f_equal. f_equal.
    apply meanf_ext. intros. ring. }
  assert (Em : forall t, (t < fw_n_thetas f)%nat -> at_ (fw_thetas (comb_result Rminus g f)) [t] = - at_ (fw_thetas (comb_result Rminus f g)) [t]).
  { intros t Hlt.
    destruct (comb_aggregated Rminus g f Hg t) as [A1 _]; [cbn; lia|].
    destruct (comb_aggregated Rminus f g Hf t) as [B1 _]; [cbn; lia|].
    rewrite A1, B1. change (fw_n_rep (comb_result Rminus g f)) with (fw_n_rep g). change (fw_n_rep (comb_result Rminus f g)) with (fw_n_rep f).
    rewrite <- Hr, <- medianf_opp by assumption. apply medianf_ext. intros; apply Eth. }
  split; [|split; [exact Eth|split; [exact Eses|split; [exact Em|]]]].
  - apply combine_fw_ok; try assumption. repeat split; try congruence.
    intros t Hlt. apply vs_equal_close; [|assumption]. intros s Hs. symmetry. apply Hv. lia.
  - intros t Hlt.
    destruct (comb_aggregated Rminus g f Hg t) as [A1 A2]; [cbn; lia|].
    destruct (comb_aggregated Rminus f g Hf t) as [B1 B2]; [cbn; lia|].
    rewrite A2, B2, Em by assumption. change (fw_n_rep (comb_result Rminus g f)) with (fw_n_rep g). change (fw_n_rep (comb_result Rminus f g)) with (fw_n_rep f).
    rewrite <- Hr. f_equal. apply medianf_ext. intros r Hlr. rewrite Eses by assumption. rewrite Eth.
    change (fw_vs (comb_result Rminus g f)) with (fw_vs g). change (fw_vs (comb_result Rminus f g)) with (fw_vs f).
    rewrite (Hv t) by assumption. f_equal. f_equal. ring.
Qed.

Lemma sub_self f : (0 < fw_n_rep f)%nat -> fw_wf f ->
  exists h, fw_sub f (OpFw f) = Ok h /\
    (forall t r, at_ (fw_all_thetas h) [t; r] = 0 /\ at_ (fw_all_ses h) [t; r] = 0) /\
    (forall t, (t < fw_n_thetas f)%nat -> at_ (fw_thetas h) [t] = 0 /\ at_ (fw_ses h) [t] = 0).
Proof.
  intros Hpos Hf. exists (comb_result Rminus f f).
  assert (E : forall t r, at_ (fw_all_thetas (comb_result Rminus f f)) [t; r] = 0) by (intros; cbn; lra).
  assert (Es : forall t r, at_ (fw_all_ses (comb_result Rminus f f)) [t; r] = 0).
  { intros. cbn [comb_result fw_all_ses]. rewrite comb_ses_at.
    rewrite (meanf_ext _ _ (fun _ => 0)) by (intros; ring). unfold meanf. rewrite sumf_const.
    rewrite Rmult_0_r. unfold Rdiv. rewrite !Rmult_0_l. apply sqrt_0. }
  split; [|split].
  - apply combine_fw_ok; auto. repeat split; auto. intros t Ht. apply vs_equal_close; [|assumption]. intros ? ?; reflexivity.
  - auto.
  - intros t Hlt. destruct (comb_aggregated Rminus f f Hf t) as [A1 A2]; [assumption|].
    assert (Em : at_ (fw_thetas (comb_result Rminus f f)) [t] = 0).
    { rewrite A1. apply medianf_zero; [assumption|]. intros; apply E. }
    split; [exact Em|]. rewrite A2, Em. rewrite medianf_zero; [apply sqrt_0|assumption|].
    intros r Hr. rewrite E, Es. unfold Rdiv. ring.
Qed.

(** ** Scalar multiples *)
Definition sens_scale (c : R) (s : option sens_elems) : option sens_elems :=
  match s with
  | None => None
  | Some a => Some {| se_max_bias := nd_map (Rmult (Rabs c)) (se_max_bias a);
                      se_psi_max_bias := nd_map (Rmult (Rabs c)) (se_psi_max_bias a);
                      se_bench := match se_bench a with Some (s2, n2) => Some (s2, nd_map (Rmult (c^2)) n2) | None => None end |}
  end.
Definition mul_result (c : R) (f : framework) : framework :=
  {| fw_n_obs := fw_n_obs f; fw_n_thetas := fw_n_thetas f; fw_n_rep := fw_n_rep f;
     fw_thetas := nd_map (Rmult c) (fw_thetas f); fw_ses := nd_map (Rmult c) (fw_ses f);
     fw_all_thetas := nd_map (Rmult c) (fw_all_thetas f); fw_all_ses := nd_map (Rmult c) (fw_all_ses f);
     fw_vs := fw_vs f; fw_scaled_psi := nd_map (Rmult c) (fw_scaled_psi f);
     fw_cluster := fw_cluster f; fw_sens := sens_scale c (fw_sens f); fw_names := None;
     fw_boot := None; fw_sens_params := None |}.

Lemma fw_mul_ok f v c : fw_wf f -> scalar_val v = Some c -> fw_mul f v = Ok (mul_result c f).
Proof.
  intros Hf Hv. unfold fw_mul. rewrite Hv. unfold mul_result.
  eapply mk_fw_ok; cbn [k_thetas k_ses k_all_thetas k_all_ses k_vs k_scaled_psi k_is_cluster k_cluster k_sens k_names];
    try reflexivity; cbn [shape nd_map]; try apply Hf.
  - apply check_cluster_entry; reflexivity.
  - unfold check_sens. cbn [k_sens]. destruct (fw_sens f) as [a|] eqn:Ea; [|reflexivity].
    cbn [sens_scale present si_max_bias si_psi_max_bias andb require need_array bind].
    unfold check_benchmark. destruct (se_bench a) as [[s2 n2]|] eqn:Eb; [|reflexivity].
    cbn [si_sigma2 si_nu2 present andb need_array bind].
    destruct (wf_sens f Hf a Ea) as (_ & _ & C). destruct (C s2 n2 Eb) as (_ & _ & P & Q).
    rewrite (proj2 (any_neg_false s2)) by exact P.
    rewrite (proj2 (any_neg_false (nd_map (Rmult (c^2)) n2))); [reflexivity|].
    intros idx Hi. cbn. apply Rmult_le_pos; [pose proof (pow2_ge_0 c); cbn in *; lra|]. apply Q. exact Hi.
  - intros e He. destruct (fw_sens f) as [a|] eqn:Ea; [|discriminate]. cbn in He. injection He as <-. cbn.
    destruct (wf_sens f Hf a Ea) as (A & B & C). split; [assumption|]. split; [assumption|].
    intros s2 n2 H. destruct (se_bench a) as [[s2' n2']|] eqn:Eb; [|discriminate]. injection H as <- <-. cbn.
    destruct (C _ _ eq_refl) as (P & Q & _). auto.
Qed.
Lemma mul_wf c f : fw_wf f -> fw_wf (mul_result c f).
Proof.
  intro Hf. assert (H := fw_mul_ok f (PFloat c) c Hf eq_refl). unfold fw_mul in H. cbn [scalar_val] in H.
  apply mk_fw_inv in H. apply H.
Qed.

Lemma mul_aggregated c f : (0 < fw_n_rep f)%nat -> 0 <= c -> fw_wf f -> fw_vs_pos f -> fw_aggregated f -> fw_aggregated (mul_result c f).
Proof.
  intros Hr Hc Hf Hv Ha t Ht. cbn in Ht. destruct (Ha t Ht) as [A B].
  cbn [mul_result fw_thetas fw_ses fw_all_thetas fw_all_ses fw_n_rep fw_vs nd_map at_].
  split.
  - rewrite A. rewrite medianf_scale by assumption. reflexivity.
  - rewrite B. set (m := at_ (fw_thetas f) [t]).
    rewrite (medianf_ext _ (fun r => (c * at_ (fw_all_ses f) [t; r])^2 + _) (fun r => c^2 * ((at_ (fw_all_ses f) [t; r])^2 + (at_ (fw_all_thetas f) [t; r] - m)^2 / at_ (fw_vs f) [t]))).
    2:{ intros r Hlr. unfold Rdiv. ring. }
    rewrite medianf_scale by (try assumption; apply pow2_ge_0).
    rewrite sqrt_mult_alt by apply pow2_ge_0. rewrite sqrt_pow2 by assumption. reflexivity.
Qed.
Lemma mul_ses_from_scores c f : 0 <= c -> fw_vs_pos f -> fw_ses_from_scores f -> fw_ses_from_scores (mul_result c f).
Proof.
  intros Hc Hv Hs t r Ht Hr. cbn in Ht, Hr. cbn [mul_result fw_all_ses fw_scaled_psi fw_n_obs fw_vs nd_map at_].
  rewrite (Hs t r Ht Hr).
  rewrite (meanf_ext _ (fun i => (c * at_ (fw_scaled_psi f) [i; t; r])^2) (fun i => c^2 * (at_ (fw_scaled_psi f) [i; t; r])^2)) by (intros; ring).
  rewrite meanf_scal. replace (c^2 * meanf (fw_n_obs f) (fun i => at_ (fw_scaled_psi f) [i; t; r] ^ 2) / at_ (fw_vs f) [t])
    with (c^2 * (meanf (fw_n_obs f) (fun i => at_ (fw_scaled_psi f) [i; t; r] ^ 2) / at_ (fw_vs f) [t])) by (unfold Rdiv; ring).
  rewrite sqrt_mult_alt by apply pow2_ge_0. rewrite sqrt_pow2 by assumption. reflexivity.
Qed.

Lemma mul_distr f a b : (0 < fw_n_rep f)%nat -> 0 <= a -> 0 <= b -> fw_wf f -> fw_vs_pos f -> fw_aggregated f -> fw_ses_from_scores f ->
  exists h1 h2 h3 h4, fw_mul f (PFloat (a + b)) = Ok h1 /\
    fw_mul f (PFloat a) = Ok h2 /\ fw_mul f (PFloat b) = Ok h3 /\ fw_add h2 (OpFw h3) = Ok h4 /\ fw_obs_eq h1 h4.
Proof.
  intros Hr Ha Hb Hf Hv Hag Hs.
  exists (mul_result (a + b) f), (mul_result a f), (mul_result b f), (comb_result Rplus (mul_result a f) (mul_result b f)).
  assert (Wa := mul_wf a f Hf). assert (Wb := mul_wf b f Hf). assert (Wab := mul_wf (a + b) f Hf).
  split; [apply fw_mul_ok; auto|]. split; [apply fw_mul_ok; auto|]. split; [apply fw_mul_ok; auto|].
  split.
  { apply combine_fw_ok; auto. repeat split. intros t Ht. apply vs_equal_close; [|assumption]. intros ? ?; reflexivity. }
  apply obs_eq_intro; try assumption; try reflexivity.
  - apply comb_wf; assumption.
  - apply mul_aggregated; auto; lra.
  - apply comb_aggregated; assumption.
  - intros; cbn; lra.
  - intros t r Ht Hlr. rewrite (mul_ses_from_scores (a + b) f) by (auto; lra).
    cbn [comb_result fw_all_ses]. rewrite comb_ses_at. cbn. f_equal. f_equal. apply meanf_ext. intros; ring.
  - intros; cbn; lra.
  - cbn. unfold sens_scale, sens_add. destruct (fw_sens f) as [s|] eqn:Es; [|exact I].
    cbn. rewrite (Rabs_pos_eq a), (Rabs_pos_eq b), (Rabs_pos_eq (a + b)) by lra.
    split; (split; [reflexivity|]); intros; cbn; lra.
Qed.
Lemma add_self_double f : (0 < fw_n_rep f)%nat -> fw_wf f -> fw_vs_pos f -> fw_aggregated f -> fw_ses_from_scores f ->
  exists h1 h2, fw_mul f (PInt 2) = Ok h1 /\ fw_add f (OpFw f) = Ok h2 /\ fw_obs_eq h1 h2.
Proof.
  intros Hr Hf Hv Hag Hs. exists (mul_result 2 f), (comb_result Rplus f f).
  split; [apply fw_mul_ok; auto|]. split.
  { apply combine_fw_ok; auto. repeat split. intros t Ht. apply vs_equal_close; [|assumption]. intros ? ?; reflexivity. }
  apply obs_eq_intro; try reflexivity.
  - apply mul_wf; assumption.
  - apply comb_wf; assumption.
  - apply mul_aggregated; auto; lra.
  - apply comb_aggregated; assumption.
  - intros; cbn; lra.
  - intros t r Ht Hlr. rewrite (mul_ses_from_scores 2 f) by (auto; lra).
    cbn [comb_result fw_all_ses]. rewrite comb_ses_at. cbn. f_equal. f_equal. apply meanf_ext. intros; ring.
  - intros; cbn; lra.
  - cbn. unfold sens_scale, sens_add. destruct (fw_sens f) as [s|] eqn:Es; [|exact I].
    cbn. rewrite (Rabs_pos_eq 2) by lra.
    split; (split; [reflexivity|]); intros; cbn; lra.
Qed.

(** The framework lemmas in the form used by the property files. *)
From Verif Require Export L_FwExamples.
Local Open Scope R_scope.

Lemma compatible_ok f g : compatible f g -> comb_ok f g.
Proof.
  intros (A & B & C & D & E). split; [exact A|]. split; [exact B|]. split; [exact C|]. split; [exact D|].
  intros t Ht. apply vs_equal_close; assumption.
Qed.
Lemma compatible_sym f g : compatible f g -> compatible g f.
Proof. intros (A & B & C & D & E). repeat split; try congruence. intros t Ht. symmetry. apply E. congruence. Qed.

Lemma sum_diff op f g : fw_wf f -> fw_wf g -> compatible f g ->
  exists h, combine_fw op f (OpFw g) = Ok h /\ fw_wf h /\ fw_aggregated h /\ fw_ses_from_scores h /\
    fw_n_obs h = fw_n_obs f /\ fw_n_thetas h = fw_n_thetas f /\ fw_n_rep h = fw_n_rep f /\
    (forall t r, at_ (fw_all_thetas h) [t; r] = op (at_ (fw_all_thetas f) [t; r]) (at_ (fw_all_thetas g) [t; r])) /\
    (forall i t r, at_ (fw_scaled_psi h) [i; t; r] = op (at_ (fw_scaled_psi f) [i; t; r]) (at_ (fw_scaled_psi g) [i; t; r])).
Proof.
  intros Hf Hg Hc. exists (comb_result op f g). assert (H := combine_fw_ok op f g Hf Hg (compatible_ok f g Hc)).
  split; [exact H|]. destruct (combine_spec op f g _ Hf Hg H) as (A & B & C & D & E & F & G & I). tauto.
Qed.
Lemma sum_comm f g : fw_wf f -> fw_wf g -> compatible f g ->
  exists h h', fw_add f (OpFw g) = Ok h /\ fw_add g (OpFw f) = Ok h' /\ fw_obs_eq h h'.
Proof.
  intros Hf Hg Hc. exists (comb_result Rplus f g). assert (H := combine_fw_ok Rplus f g Hf Hg (compatible_ok f g Hc)).
  destruct (add_comm f g _ Hf Hg (proj2 (proj2 (proj2 (proj2 Hc)))) H) as (h' & A & B). exists h'. auto.
Qed.
Lemma diff_antisym f g : (0 < fw_n_rep f)%nat -> fw_wf f -> fw_wf g -> compatible f g ->
  exists h h', fw_sub f (OpFw g) = Ok h /\ fw_sub g (OpFw f) = Ok h' /\
    (forall t r, at_ (fw_all_thetas h') [t; r] = - at_ (fw_all_thetas h) [t; r]) /\
    (forall t r, (t < fw_n_thetas f)%nat -> at_ (fw_all_ses h') [t; r] = at_ (fw_all_ses h) [t; r]) /\
    (forall t, (t < fw_n_thetas f)%nat -> at_ (fw_thetas h') [t] = - at_ (fw_thetas h) [t]) /\
    (forall t, (t < fw_n_thetas f)%nat -> at_ (fw_ses h') [t] = at_ (fw_ses h) [t]).
Proof.
  intros Hr Hf Hg Hc. exists (comb_result Rminus f g). assert (H := combine_fw_ok Rminus f g Hf Hg (compatible_ok f g Hc)).
  destruct (sub_antisym f g _ Hr Hf Hg (proj2 (proj2 (proj2 (proj2 Hc)))) H) as (h' & A & B). exists h'. auto.
Qed.
Lemma mul_negative_refuted : exists f h, fw_wf f /\ fw_aggregated f /\ fw_ses_from_scores f /\ fw_ses_nonneg f /\ fw_vs_pos f /\
  fw_mul f (PFloat (-1)) = Ok h /\ at_ (fw_ses h) [0%nat] < 0 /\
  forall ppf, 0 < ppf (1 - (1 - 19 / 20) / 2) ->
    exists ci, confint ppf h (PBool false) (PFloat (19 / 20)) = Ok ci /\ at_ ci [0%nat; 1%nat] < at_ ci [0%nat; 0%nat].
Proof.
  destruct unit_fw_ok as (A & B & C & D & E). destruct mul_negative as (h & F & G & H). exists unit_fw, h.
  repeat (split; [assumption|]). split; [rewrite G; lra|]. intros ppf Hp. exact (H ppf Hp).
Qed.
Lemma cluster_sum_refuted : exists f h h2, fw_wf f /\ fw_aggregated f /\ fw_ses_robust f /\ fw_cluster f <> None /\
  fw_add f (OpFw f) = Ok h /\ fw_mul f (PInt 2) = Ok h2 /\ at_ (fw_ses h2) [0%nat] < at_ (fw_ses h) [0%nat] /\ ~ fw_ses_robust h.
Proof.
  destruct cl_fw_ok as (A & B & C & D). destruct cl_sum_not_robust as (h & h2 & E & F & _ & G & _ & H).
  exists cl_fw, h, h2. repeat (split; [assumption|]). split; [discriminate|]. auto.
Qed.

(** Concatenation keeps aggregation and pointwise intervals. *)
Lemma block_split fs j : (j < list_sum (map fw_n_thetas fs))%nat ->
  exists k f t, nth_error fs k = Some f /\ (t < fw_n_thetas f)%nat /\ j = (block fs k + t)%nat.
Proof.
  revert j. induction fs as [|f fs IH]; intro j; cbn [map]; [cbn; lia|]. rewrite lsum_cons. intro H.
  destruct (Nat.lt_ge_cases j (fw_n_thetas f)) as [L|L].
  - exists 0%nat, f, j. split; [reflexivity|]. split; [exact L|]. reflexivity.
  - destruct (IH (j - fw_n_thetas f)%nat) as (k & g & t & A & B & C); [lia|].
    exists (S k), g, t. split; [exact A|]. split; [exact B|]. unfold block in *. cbn [firstn map]. rewrite lsum_cons. lia.
Qed.
Lemma concat_aggregated fs h : fs <> [] -> concat_of fs h -> (forall f, In f fs -> fw_aggregated f) -> fw_aggregated h.
Proof.
  intros Hn C Ha j Hj. rewrite (co_n_thetas _ _ C) in Hj. destruct (block_split fs j Hj) as (k & f & t & Ek & Ht & ->).
  destruct (co_vals _ _ C k f t Ek Ht) as (A1 & A2 & A3 & A4 & A5 & A6).
  assert (Hi : In f fs) by (eapply nth_error_In; exact Ek). destruct (Ha f Hi t Ht) as [B1 B2].
  destruct (co_dims _ _ C f Hi) as [_ Er]. rewrite A1, A2, A3, Er, B2. split.
  - rewrite B1. apply medianf_ext. intros; symmetry; apply A4.
  - f_equal. apply medianf_ext. intros r _. rewrite A4, A5. reflexivity.
Qed.
Lemma concat_confint ppf fs h lv ci : concat_of fs h -> confint ppf h (PBool false) (PFloat lv) = Ok ci ->
  forall k f t, nth_error fs k = Some f -> (t < fw_n_thetas f)%nat ->
  exists cf, confint ppf f (PBool false) (PFloat lv) = Ok cf /\
    at_ ci [(block fs k + t)%nat; 0%nat] = at_ cf [t; 0%nat] /\ at_ ci [(block fs k + t)%nat; 1%nat] = at_ cf [t; 1%nat].
Proof.
  intros C H k f t Ek Ht. apply confint_inv in H. destruct H as (Hl & _ & _ & A & B).
  destruct (confint_total ppf f false lv Hl ltac:(discriminate)) as [cf Hf]. exists cf. split; [exact Hf|].
  apply confint_inv in Hf. destruct Hf as (_ & _ & _ & A' & B'). rewrite A, B, A', B'.
  destruct (co_vals _ _ C k f t Ek Ht) as (_ & _ & _ & A4 & A5 & _).
  assert (Hi : In f fs) by (eapply nth_error_In; exact Ek). destruct (co_dims _ _ C f Hi) as [_ Er]. rewrite Er.
  split; apply medianf_ext; intros r _; rewrite A4, A5; reflexivity.
Qed.
Lemma concat_components fs : fs <> [] -> (forall g, In g fs -> fw_wf g /\ fw_cluster g = None) -> compat_all fs ->
  exists h, fw_concat (map OpFw fs) = Ok h /\ fw_wf h /\ concat_of fs h /\
    ((forall f, In f fs -> fw_aggregated f) -> fw_aggregated h) /\
    (forall ppf lv ci k f t, confint ppf h (PBool false) (PFloat lv) = Ok ci -> nth_error fs k = Some f -> (t < fw_n_thetas f)%nat ->
       exists cf, confint ppf f (PBool false) (PFloat lv) = Ok cf /\
       at_ ci [(block fs k + t)%nat; 0%nat] = at_ cf [t; 0%nat] /\ at_ ci [(block fs k + t)%nat; 1%nat] = at_ cf [t; 1%nat]).
Proof.
  intros Hn H Hc. destruct (concat_ok fs Hn H Hc) as (h & A & B & C). exists h. split; [exact A|]. split; [exact B|]. split; [exact C|]. split.
  - intro. apply (concat_aggregated fs); assumption.
  - intros ppf lv ci k f t X. apply (concat_confint ppf fs h lv ci C X).
Qed.
(** Confidence intervals of one kind in one statement. *)
Lemma confint_spec ppf f jt lv ci : (0 < fw_n_rep f)%nat -> ppf_ok ppf -> fw_boot_wf f -> fw_ses_nonneg f -> fw_aggregated f ->
  confint ppf f (PBool jt) (PFloat lv) = Ok ci ->
  forall t, (t < fw_n_thetas f)%nat ->
  at_ ci [t; 0%nat] <= at_ (fw_thetas f) [t] <= at_ ci [t; 1%nat] /\
  (fw_n_rep f = 1%nat -> at_ (fw_thetas f) [t] - at_ ci [t; 0%nat] = at_ ci [t; 1%nat] - at_ (fw_thetas f) [t]) /\
  (forall lv' ci', lv <= lv' -> confint ppf f (PBool jt) (PFloat lv') = Ok ci' -> at_ ci' [t; 0%nat] <= at_ ci [t; 0%nat] /\ at_ ci [t; 1%nat] <= at_ ci' [t; 1%nat]).
Proof.
  intros Hr Hp Hb Hs Ha H t Ht. split; [eapply ci_contains; eassumption|]. split.
  - intro. eapply ci_symmetric; eassumption.
  - intros lv' ci' Hl H'. eapply ci_nested; eassumption.
Qed.
Lemma confint_accepts ppf f jt lv : (exists ci, confint ppf f (PBool jt) (PFloat lv) = Ok ci) <->
  0 < lv < 1 /\ (jt = true -> exists b m k, fw_boot f = Some (b, m, k) /\ (0 < dim 1 b)%nat).
Proof.
  split; [|intros [A B]; apply confint_total; assumption]. intros [ci H]. apply confint_inv in H. tauto.
Qed.
Lemma bootstrap_then_joint ppf w f m k lv f' : (0 < fw_n_thetas f)%nat -> bootstrap_m w m k f = (f', Ok tt) -> 0 < lv < 1 ->
  exists ci b s nb, confint ppf f' (PBool true) (PFloat lv) = Ok ci /\ fw_boot f' = Some (b, s, nb) /\ nb = Z.to_nat (int_val k) /\ (0 < nb)%nat /\
    forall r, (r < fw_n_rep f)%nat -> exists crit,
      (forall t, (t < fw_n_thetas f)%nat -> quantile (map (fun d => Rabs (at_ b [d; t; r])) (seq 0 nb)) lv <= crit) /\
      lv * INR (nb - 1) < INR (rcount (all_below b (fw_n_thetas f) r crit) (seq 0 nb)) /\
      (1 - lv) * INR (nb - 1) <= INR (rcount (some_above b (fw_n_thetas f) r crit) (seq 0 nb)) /\
      (fw_n_rep f = 1%nat -> forall t, (t < fw_n_thetas f)%nat ->
         at_ ci [t; 0%nat] = at_ (fw_all_thetas f) [t; r] - at_ (fw_all_ses f) [t; r] * crit /\
         at_ ci [t; 1%nat] = at_ (fw_all_thetas f) [t; r] + at_ (fw_all_ses f) [t; r] * crit).
Proof.
  intros Hnt H Hl. rewrite bootstrap_m_spec in H. destruct (bootstrap w f m k) as [g|] eqn:E; [|discriminate]. injection H as <-.
  assert (Hk : (0 < Z.to_nat (int_val k))%nat).
  { pose proof E as E'. apply bootstrap_inv in E'. destruct E' as (s & nb & _ & _ & _ & P & -> & _). lia. }
  destruct (bootstrap_frame w f m k g E) as (Sb & Wb & b & s & Eb & _ & Sh).
  destruct Sb as (S1 & S2 & S3 & S4 & S5 & S6 & S7 & _).
  destruct (confint_total ppf g true lv Hl) as [ci Hci].
  { intros _. exists b, s, (Z.to_nat (int_val k)). split; [exact Eb|]. unfold dim. rewrite Sh. exact Hnt. }
  exists ci, b, s, (Z.to_nat (int_val k)). split; [exact Hci|]. split; [exact Eb|]. split; [reflexivity|]. split; [exact Hk|].
  intros r Hr. exists (joint_crit b lv r). split; [|split; [|split]].
  - intros t Ht. eapply joint_crit_single; eassumption.
  - eapply joint_crit_count; eassumption.
  - eapply (joint_crit_count b lv r (Z.to_nat (int_val k)) (fw_n_thetas f) (fw_n_rep f)); eassumption.
  - intros H1 t Ht. apply confint_inv in Hci. destruct Hci as (_ & _ & _ & A & B). rewrite A, B, S3, H1, !medianf_one.
    unfold ci_crit. rewrite Eb, S6, S7. assert (r = 0%nat) by lia. subst r. auto.
Qed.
Lemma rw_spec cdf argsort mt f m p all : argsort_ok argsort -> (0 < fw_n_rep f)%nat -> p_adjust cdf argsort mt f (PStr m) true = Ok (p, all) ->
  exists b s k, fw_boot f = Some (b, s, k) /\ shape p = [fw_n_thetas f] /\ shape all = [fw_n_thetas f; fw_n_rep f] /\
  (forall t, at_ p [t] = medianf (fw_n_rep f) (fun r => at_ all [t; r])) /\
  (forall t, (t < fw_n_thetas f)%nat -> 0 <= at_ p [t] <= 1) /\
  forall r, (r < fw_n_rep f)%nat ->
    let abs_t := fun t => Rabs (at_ (fw_all_thetas f) [t; r] / at_ (fw_all_ses f) [t; r]) in
    (forall t, (t < fw_n_thetas f)%nat -> 0 <= at_ all [t; r] <= 1 /\
        rshare (fun d => rleb (abs_t t) (Rabs (at_ b [d; t; r]))) (seq 0 (dim 0 b)) <= at_ all [t; r]) /\
    (forall t u, (t < fw_n_thetas f)%nat -> (u < fw_n_thetas f)%nat -> abs_t u < abs_t t -> at_ all [t; r] <= at_ all [u; r]) /\
    ((forall t u, (t < fw_n_thetas f)%nat -> (u < fw_n_thetas f)%nat -> abs_t t = abs_t u -> t = u) ->
     forall t, (t < fw_n_thetas f)%nat ->
       (forall s, (s < fw_n_thetas f)%nat -> abs_t t <= abs_t s -> rw_raw (fw_n_thetas f) (dim 0 b) (fun d u => at_ b [d; u; r]) abs_t s <= at_ all [t; r]) /\
       exists s, (s < fw_n_thetas f)%nat /\ abs_t t <= abs_t s /\ at_ all [t; r] = rw_raw (fw_n_thetas f) (dim 0 b) (fun d u => at_ b [d; u; r]) abs_t s).
Proof.
  intros Has Hr H. destruct (p_adjust_rw _ _ _ _ _ _ _ H Hr) as (b & s & k & Eb & Sp & Sa & Hm & Hall).
  exists b, s, k. split; [exact Eb|]. split; [exact Sp|]. split; [exact Sa|]. split; [exact Hm|].
  assert (Rg : forall t r, (t < fw_n_thetas f)%nat -> (r < fw_n_rep f)%nat -> 0 <= at_ all [t; r] <= 1).
  { intros t r Ht Hlr. rewrite Hall by exact Hlr. apply rw_range; assumption. }
  split. { intros t Ht. rewrite Hm. split; [apply medianf_ge|apply medianf_le]; try exact Hr; intros; apply Rg; assumption. }
  intros r Hlr abs_t. split; [|split].
  - intros t Ht. split; [apply Rg; assumption|]. rewrite Hall by exact Hlr. subst abs_t. apply (rw_ge_unadjusted argsort Has (fw_n_thetas f) (dim 0 b) (fun d u => at_ b [d; u; r]) (fun u => Rabs (at_ (fw_all_thetas f) [u; r] / at_ (fw_all_ses f) [u; r]))); assumption.
  - intros t u Ht Hu L. rewrite !Hall by exact Hlr. apply rw_order; assumption.
  - intros Hd t Ht. rewrite !Hall by exact Hlr. apply rw_exact; assumption.
Qed.
Lemma pval_two_rep_refuted cdf ppf : cdf_strict cdf -> cdf_symmetric cdf -> cdf_inverse cdf ppf ->
  exists f lv ci, fw_wf f /\ fw_aggregated f /\ fw_ses_from_scores f /\
   at_ (fw_pvals cdf f) [0%nat] <> model_pval cdf (at_ (fw_thetas f) [0%nat]) (at_ (fw_ses f) [0%nat]) /\
   confint ppf f (PBool false) (PFloat lv) = Ok ci /\ at_ (fw_pvals cdf f) [0%nat] < 1 - lv /\ at_ ci [0%nat; 0%nat] < 0 < at_ ci [0%nat; 1%nat].
Proof.
  intros Hs Hy Hi. destruct two_rep_wf as (W & A & S). pose proof (two_rep_pval cdf Hs Hy) as P.
  pose proof (sym_zero cdf Hy) as C0. pose proof (Hs 0 1 ltac:(lra)) as C1.
  set (lv := Rmin (cdf 1 - 1 / 2) (1 / 2)).
  assert (L : 0 < lv <= cdf 1 - 1 / 2 /\ lv <= 1 / 2).
  { subst lv. pose proof (Rmin_l (cdf 1 - 1 / 2) (1 / 2)). pose proof (Rmin_r (cdf 1 - 1 / 2) (1 / 2)).
    split; [split|]; try assumption. apply Rmin_glb_lt; lra. }
  destruct (confint_total ppf two_rep false lv ltac:(lra) ltac:(discriminate)) as [ci Hci].
  exists two_rep, lv, ci. split; [exact W|]. split; [exact A|]. split; [exact S|]. split; [lra|]. split; [exact Hci|]. split.
  - cbn [fw_pvals mk1 at_ nth two_rep fw_n_rep]. rewrite medianf_two. cbn.
    replace (-1 / 1) with (-1) by field. replace (1 / 1) with 1 by field.
    assert (Ha : Rabs (-1) = 1) by (unfold Rabs; destruct (Rcase_abs (-1)); lra). rewrite ?Ha, ?Rabs_R1. lra.
  - apply confint_inv in Hci. destruct Hci as (_ & _ & _ & X & Y). rewrite X, Y.
    cbn [two_rep fw_n_rep]. rewrite !medianf_two. unfold ci_crit. cbn.
    assert (Q : 0 < ppf (1 - (1 - lv) / 2)).
    { destruct (Rle_lt_dec (ppf (1 - (1 - lv) / 2)) 0) as [B|B]; [|exact B].
      pose proof (Hi (1 - (1 - lv) / 2) ltac:(lra)) as E. destruct B as [B|B].
      - pose proof (Hs _ _ B). lra.
      - rewrite B in E. lra. }
    lra.
Qed.

Ltac med3 := unfold medianf, median; cbn; unfold rleb; repeat (destruct (Rle_dec _ _); cbn; try lra).
(** Three repetitions: the interval of the sum need not contain sums. *)
Definition rep3 (a b c : R) : framework := built 1 1 3 (fun _ r => match r with 0%nat => a | 1%nat => b | _ => c end) (fun _ _ _ => 1) (fun _ _ => 0) (fun _ _ _ => 0).
Lemma sens_median_refuted ppf : exists f g h rf rg rh x y, fw_wf f /\ fw_wf g /\ compatible f g /\ bias_nonneg f /\ bias_nonneg g /\ fw_add f (OpFw g) = Ok h /\
  calc_sensitivity ppf f (PFloat (1/10)) (PFloat (1/10)) (PFloat 1) (PFloat (19/20)) = Ok rf /\
  calc_sensitivity ppf g (PFloat (1/10)) (PFloat (1/10)) (PFloat 1) (PFloat (19/20)) = Ok rg /\
  calc_sensitivity ppf h (PFloat (1/10)) (PFloat (1/10)) (PFloat 1) (PFloat (19/20)) = Ok rh /\
  sens_bounds_contain rf 0 x /\ sens_bounds_contain rg 0 y /\ ~ sens_bounds_contain rh 0 (x + y).
Proof.
  set (f := rep3 0 0 1). set (g := rep3 0 1 0).
  assert (Wf : fw_wf f) by apply built_wf. assert (Wg : fw_wf g) by apply built_wf.
  assert (C : compatible f g) by apply built_compatible.
  destruct (sum_diff Rplus f g Wf Wg C) as (h & Hh & Wh & _ & _ & _ & _ & Hr & Ht & _).
  pose proof (sens_comb Rplus f g h Wf Wg Hh) as S. cbn [f g rep3 built fw_sens] in S. destruct S as (sh & Eh & Mh & _).
  assert (K : forall k, fw_wf k -> (0 < fw_n_rep k * fw_n_thetas k)%nat -> fw_sens k <> None -> fw_cluster k = None ->
     exists res, calc_sensitivity ppf k (PFloat (1/10)) (PFloat (1/10)) (PFloat 1) (PFloat (19/20)) = Ok res).
  { intros k Wk Pk Sk Ck. assert (is_ok (calc_sensitivity ppf k (PFloat (1/10)) (PFloat (1/10)) (PFloat 1) (PFloat (19/20))) = true).
    { apply calc_ok_iff; [exact Pk|]. split; [destruct (fw_sens k); [eauto|congruence]|]. split; [rewrite Ck; reflexivity|].
      do 4 eexists. repeat (split; [reflexivity|]). unfold conf_ok. lra. }
    destruct (calc_sensitivity ppf k _ _ _ _); [eauto|discriminate]. }
  destruct (K f Wf) as [rf Rf]; [cbn; lia|discriminate|reflexivity|].
  destruct (K g Wg) as [rg Rg]; [cbn; lia|discriminate|reflexivity|].
  assert (Nt : fw_n_thetas h = 1%nat /\ fw_cluster h = None).
  { pose proof (combine_fw_ok Rplus f g Wf Wg (compatible_ok f g C)) as X. assert (E : h = comb_result Rplus f g) by congruence. rewrite E. auto. }
  destruct Nt as [Nt Nc].
  destruct (K h Wh) as [rh Rh]; [rewrite Hr, Nt; cbn; lia|congruence|exact Nc|].
  exists f, g, h, rf, rg, rh, 0, 0. split; [exact Wf|]. split; [exact Wg|]. split; [exact C|].
  split; [apply built_bias; intros; lra|]. split; [apply built_bias; intros; lra|]. split; [exact Hh|]. split; [exact Rf|]. split; [exact Rg|]. split; [exact Rh|].
  destruct (calc_bounds _ _ _ _ _ _ _ _ Wf Rf eq_refl) as [Lf Uf]. destruct (calc_bounds _ _ _ _ _ _ _ _ Wg Rg eq_refl) as [Lg Ug].
  destruct (calc_bounds _ _ _ _ _ _ _ _ Wh Rh Eh) as [Lh Uh].
  unfold sens_bounds_contain. rewrite Lf, Uf, Lg, Ug, Lh, Uh, Hr. clear - Ht Mh.
  rewrite (medianf_ext (fw_n_rep f) (fun r => at_ (fw_all_thetas h) [0%nat; r] - conf_strength (1 / 10) (1 / 10) 1 * at_ (se_max_bias sh) [0%nat; 0%nat; r])
     (fun r => match r with 0%nat => 0 | _ => 1 end)).
  2:{ intros r _. rewrite Ht, Mh. cbn. destruct r as [|[|r]]; lra. }
  generalize (conf_strength (1 / 10) (1 / 10) 1) as cs. intro cs. cbn [f g rep3 built fw_n_rep b_sens se_max_bias fw_all_thetas mk2 mk3 at_ nth].
  rewrite !Rmult_0_r. rewrite (medianf_ext 3 (fun r => match r with 0%nat => 0 | 1%nat => 0 | _ => 1 end - 0) (fun r => match r with 0%nat => 0 | 1%nat => 0 | _ => 1 end)) by (intros; lra).
  rewrite (medianf_ext 3 (fun r => match r with 0%nat => 0 | 1%nat => 0 | _ => 1 end + 0) (fun r => match r with 0%nat => 0 | 1%nat => 0 | _ => 1 end)) by (intros; lra).
  rewrite (medianf_ext 3 (fun r => match r with 0%nat => 0 | 1%nat => 1 | _ => 0 end - 0) (fun r => match r with 0%nat => 0 | 1%nat => 1 | _ => 0 end)) by (intros; lra).
  rewrite (medianf_ext 3 (fun r => match r with 0%nat => 0 | 1%nat => 1 | _ => 0 end + 0) (fun r => match r with 0%nat => 0 | 1%nat => 1 | _ => 0 end)) by (intros; lra).
  assert (M1 : medianf 3 (fun r => match r with 0%nat => 0 | 1%nat => 0 | _ => 1 end) = 0) by med3.
  assert (M2 : medianf 3 (fun r => match r with 0%nat => 0 | 1%nat => 1 | _ => 0 end) = 0) by med3.
  assert (M3 : medianf 3 (fun r => match r with 0%nat => 0 | _ => 1 end) = 1) by med3.
  rewrite M1, M2, M3. lra.
Qed.

Lemma calc_exists ppf k cy cd rh lv : (0 < fw_n_rep k * fw_n_thetas k)%nat -> fw_sens k <> None -> fw_cluster k = None -> conf_ok cy cd rh -> 0 < lv < 1 ->
  exists res, calc_sensitivity ppf k (PFloat cy) (PFloat cd) (PFloat rh) (PFloat lv) = Ok res.
Proof.
  intros Pk Sk Ck Hc Hl. assert (is_ok (calc_sensitivity ppf k (PFloat cy) (PFloat cd) (PFloat rh) (PFloat lv)) = true).
  { apply calc_ok_iff; [exact Pk|]. split; [destruct (fw_sens k); [eauto|congruence]|]. split; [rewrite Ck; reflexivity|].
    do 4 eexists. repeat (split; [reflexivity|]). auto. }
  destruct (calc_sensitivity ppf k _ _ _ _); [eauto|discriminate].
Qed.
Lemma ex_sum_sens : exists h rf rg rh, fw_wf ex_f /\ fw_wf ex_g /\ (0 < fw_n_rep ex_f <= 2)%nat /\ fw_add ex_f (OpFw ex_g) = Ok h /\
  calc_sensitivity ex_ppf ex_f (PFloat (1/10)) (PFloat (1/10)) (PFloat 1) (PFloat (9/10)) = Ok rf /\
  calc_sensitivity ex_ppf ex_g (PFloat (1/10)) (PFloat (1/10)) (PFloat 1) (PFloat (9/10)) = Ok rg /\
  calc_sensitivity ex_ppf h (PFloat (1/10)) (PFloat (1/10)) (PFloat 1) (PFloat (9/10)) = Ok rh.
Proof.
  assert (Wf : fw_wf ex_f) by apply built_wf. assert (Wg : fw_wf ex_g) by apply built_wf.
  pose proof (combine_fw_ok Rplus ex_f ex_g Wf Wg (compatible_ok _ _ (built_compatible _ _ _ _ _ _ _ _ _ _ _))) as X.
  exists (comb_result Rplus ex_f ex_g).
  destruct (calc_exists ex_ppf ex_f (1/10) (1/10) 1 (9/10)) as [rf Rf]; [cbn; lia|discriminate|reflexivity|unfold conf_ok; lra|lra|].
  destruct (calc_exists ex_ppf ex_g (1/10) (1/10) 1 (9/10)) as [rg Rg]; [cbn; lia|discriminate|reflexivity|unfold conf_ok; lra|lra|].
  destruct (calc_exists ex_ppf (comb_result Rplus ex_f ex_g) (1/10) (1/10) 1 (9/10)) as [rh Rh]; [cbn; lia|discriminate|reflexivity|unfold conf_ok; lra|lra|].
  exists rf, rg, rh. split; [exact Wf|]. split; [exact Wg|]. split; [cbn; lia|]. auto.
Qed.

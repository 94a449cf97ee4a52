(** C17-C21: confidence intervals, bootstrap and p-values. *)
From Verif Require Import L_FwProps.
Local Open Scope R_scope.

(** ** C17 *)
Theorem C17_confint : forall ppf f (jt : bool) lv ci,
  (0 < fw_n_rep f)%nat -> ppf_ok ppf -> fw_boot_wf f -> fw_ses_nonneg f -> fw_aggregated f ->
  confint ppf f (PBool jt) (PFloat lv) = Ok ci ->
  forall t, (t < fw_n_thetas f)%nat ->
  at_ ci [t; 0%nat] <= at_ (fw_thetas f) [t] <= at_ ci [t; 1%nat] /\
  (fw_n_rep f = 1%nat -> at_ (fw_thetas f) [t] - at_ ci [t; 0%nat] = at_ ci [t; 1%nat] - at_ (fw_thetas f) [t]) /\
  (forall lv' ci', lv <= lv' -> confint ppf f (PBool jt) (PFloat lv') = Ok ci' ->
     at_ ci' [t; 0%nat] <= at_ ci [t; 0%nat] /\ at_ ci [t; 1%nat] <= at_ ci' [t; 1%nat]).
Proof. exact confint_spec. Qed.
Print Assumptions C17_confint.

Theorem C17_confint_accepts : forall ppf f (jt : bool) lv,
  (exists ci, confint ppf f (PBool jt) (PFloat lv) = Ok ci) <->
  0 < lv < 1 /\ (jt = true -> exists b m k, fw_boot f = Some (b, m, k) /\ (0 < dim 1 b)%nat).
Proof. exact confint_accepts. Qed.
Print Assumptions C17_confint_accepts.

Example C17_case : exists g ci, bootstrap ex_w ex_f (PStr "normal") (PInt 5) = Ok g /\ ppf_ok ex_ppf /\ fw_boot_wf g /\ fw_ses_nonneg g /\ fw_aggregated g /\
  confint ex_ppf g (PBool true) (PFloat (9 / 10)) = Ok ci.
Proof.
  eexists. destruct (confint_total ex_ppf (set_boot ex_f (Some (boot_t ex_f ex_w 5, "normal"%string, 5%nat))) true (9 / 10)) as [ci H]; [lra| |].
  - intros _. do 3 eexists. split; [reflexivity|]. cbn. lia.
  - exists ci. split; [reflexivity|]. split; [exact ex_ppf_ok|]. split; [|split; [|split]].
    + intros b m k E. injection E as <- <- <-. exists 5%nat. split; [lia|reflexivity].
    + exact (built_nonneg _ _ _ _ _ _ _).
    + exact (built_aggregated _ _ _ _ _ _ _).
    + exact H.
Qed.

(** ** C18 *)
Theorem C18_joint_refused : forall ppf f lv, 0 < lv < 1 -> fw_boot f = None ->
  confint ppf f (PBool true) (PFloat lv) = Err ValueError.
Proof. exact joint_refused. Qed.
Print Assumptions C18_joint_refused.

Theorem C18_joint_maximal : forall ppf w f m k lv f',
  (0 < fw_n_thetas f)%nat -> bootstrap_m w m k f = (f', Ok tt) -> 0 < lv < 1 ->
  exists ci b s nb, confint ppf f' (PBool true) (PFloat lv) = Ok ci /\ fw_boot f' = Some (b, s, nb) /\
    nb = Z.to_nat (int_val k) /\ (0 < nb)%nat /\
    forall r, (r < fw_n_rep f)%nat -> exists crit,
      (forall t, (t < fw_n_thetas f)%nat -> quantile (map (fun d => Rabs (at_ b [d; t; r])) (seq 0 nb)) lv <= crit) /\
      lv * INR (nb - 1) < INR (rcount (all_below b (fw_n_thetas f) r crit) (seq 0 nb)) /\
      (1 - lv) * INR (nb - 1) <= INR (rcount (some_above b (fw_n_thetas f) r crit) (seq 0 nb)) /\
      (fw_n_rep f = 1%nat -> forall t, (t < fw_n_thetas f)%nat ->
         at_ ci [t; 0%nat] = at_ (fw_all_thetas f) [t; r] - at_ (fw_all_ses f) [t; r] * crit /\
         at_ ci [t; 1%nat] = at_ (fw_all_thetas f) [t; r] + at_ (fw_all_ses f) [t; r] * crit).
Proof. exact bootstrap_then_joint. Qed.
Print Assumptions C18_joint_maximal.
Example C18_case : (0 < fw_n_thetas ex_f)%nat /\ exists f', bootstrap_m ex_w (PStr "wild") (PInt 7) ex_f = (f', Ok tt).
Proof. split; [cbn; lia|]. eexists. reflexivity. Qed.

(** ** C19 *)
Theorem C19_frame : forall w f m k g, bootstrap w f m k = Ok g ->
  same_but_boot f g /\ fw_boot_wf g /\ exists b s, fw_boot g = Some (b, s, Z.to_nat (int_val k)) /\ m = PStr s /\
    shape b = [Z.to_nat (int_val k); fw_n_thetas f; fw_n_rep f].
Proof. exact bootstrap_frame. Qed.
Print Assumptions C19_frame.

Theorem C19_scale_free : forall w f c fc m k g, 0 < c -> fw_wf f -> fw_vs_pos f ->
  (forall t r, (t < fw_n_thetas f)%nat -> (r < fw_n_rep f)%nat -> 0 < at_ (fw_all_ses f) [t; r]) ->
  fw_mul f (PFloat c) = Ok fc -> bootstrap w f m k = Ok g ->
  exists gc b bc s, bootstrap w fc m k = Ok gc /\ fw_boot g = Some (b, s, Z.to_nat (int_val k)) /\
    fw_boot gc = Some (bc, s, Z.to_nat (int_val k)) /\ nd_eq b bc.
Proof. exact bootstrap_scale. Qed.
Print Assumptions C19_scale_free.

Theorem C19_linear : forall f w1 w2 a b m k g1 g2, bootstrap w1 f m k = Ok g1 -> bootstrap w2 f m k = Ok g2 ->
  exists g b1 b2 bb s, bootstrap (fun r d i => a * w1 r d i + b * w2 r d i) f m k = Ok g /\
    fw_boot g1 = Some (b1, s, Z.to_nat (int_val k)) /\ fw_boot g2 = Some (b2, s, Z.to_nat (int_val k)) /\
    fw_boot g = Some (bb, s, Z.to_nat (int_val k)) /\
    forall d t r, at_ bb [d; t; r] = a * at_ b1 [d; t; r] + b * at_ b2 [d; t; r].
Proof. exact bootstrap_linear. Qed.
Print Assumptions C19_linear.

Theorem C19_accepts : forall w f m k, is_ok (bootstrap w f m k) = true <->
  (exists s, m = PStr s /\ In s ["Bayes"; "normal"; "wild"]%string) /\ is_int k = true /\ (1 <= int_val k)%Z /\ fw_cluster f = None.
Proof. exact bootstrap_rejects. Qed.
Print Assumptions C19_accepts.

Theorem C19_rejected_without_effect : forall w m k f f' ex, bootstrap_m w m k f = (f', Err ex) -> f' = f.
Proof. exact bootstrap_atomic. Qed.
Print Assumptions C19_rejected_without_effect.

Example C19_case : fw_wf unit_fw /\ fw_vs_pos unit_fw /\
  (forall t r, (t < fw_n_thetas unit_fw)%nat -> (r < fw_n_rep unit_fw)%nat -> 0 < at_ (fw_all_ses unit_fw) [t; r]) /\
  (exists fc, fw_mul unit_fw (PFloat 3) = Ok fc) /\ (exists g, bootstrap ex_w unit_fw (PStr "normal") (PInt 2) = Ok g) /\
  (exists f' ex, bootstrap_m ex_w (PStr "foo") (PInt 2) unit_fw = (f', Err ex)).
Proof.
  destruct unit_fw_ok as (A & _ & _ & B & _). split; [exact A|]. split; [exact B|]. split; [intros; cbn; lra|].
  split; [eexists; apply fw_mul_ok; [exact A|reflexivity]|]. split; [eexists; reflexivity|]. do 2 eexists. reflexivity.
Qed.

(** ** C20 *)
Theorem C20_romano_wolf : forall cdf argsort mt f m p all,
  argsort_ok argsort -> (0 < fw_n_rep f)%nat -> p_adjust cdf argsort mt f (PStr m) true = Ok (p, all) ->
  exists b s k, fw_boot f = Some (b, s, k) /\ shape p = [fw_n_thetas f] /\ shape all = [fw_n_thetas f; fw_n_rep f] /\
  (forall t, at_ p [t] = medianf (fw_n_rep f) (fun r => at_ all [t; r])) /\
  (forall t, (t < fw_n_thetas f)%nat -> 0 <= at_ p [t] <= 1) /\
  forall r, (r < fw_n_rep f)%nat ->
    let abs_t := fun t => Rabs (at_ (fw_all_thetas f) [t; r] / at_ (fw_all_ses f) [t; r]) in
    (forall t, (t < fw_n_thetas f)%nat -> 0 <= at_ all [t; r] <= 1 /\
        rshare (fun d => rleb (abs_t t) (Rabs (at_ b [d; t; r]))) (seq 0 (dim 0 b)) <= at_ all [t; r]) /\
    (forall t u, (t < fw_n_thetas f)%nat -> (u < fw_n_thetas f)%nat -> abs_t u < abs_t t -> at_ all [t; r] <= at_ all [u; r]) /\
    ((forall t u, (t < fw_n_thetas f)%nat -> (u < fw_n_thetas f)%nat -> abs_t t = abs_t u -> t = u) ->
     forall t, (t < fw_n_thetas f)%nat ->
       (forall s, (s < fw_n_thetas f)%nat -> abs_t t <= abs_t s ->
          rw_raw (fw_n_thetas f) (dim 0 b) (fun d u => at_ b [d; u; r]) abs_t s <= at_ all [t; r]) /\
       exists s, (s < fw_n_thetas f)%nat /\ abs_t t <= abs_t s /\
          at_ all [t; r] = rw_raw (fw_n_thetas f) (dim 0 b) (fun d u => at_ b [d; u; r]) abs_t s).
Proof. exact rw_spec. Qed.
Print Assumptions C20_romano_wolf.

Theorem C20_refused : forall cdf argsort mt f m, (0 < fw_n_rep f)%nat -> fw_boot f = None ->
  p_adjust cdf argsort mt f (PStr m) true = Err ValueError.
Proof. exact p_adjust_refused. Qed.
Print Assumptions C20_refused.

Theorem C20_accepted : forall cdf argsort mt f m b s k, fw_boot f = Some (b, s, k) ->
  exists p all, p_adjust cdf argsort mt f (PStr m) true = Ok (p, all).
Proof. exact p_adjust_total. Qed.
Print Assumptions C20_accepted.

Example C20_case : argsort_ok ex_argsort /\ exists g b s k, bootstrap ex_w ex_f (PStr "normal") (PInt 5) = Ok g /\ fw_boot g = Some (b, s, k).
Proof. split; [exact ex_argsort_ok|]. do 4 eexists. split; reflexivity. Qed.

(** ** C21: the second sentence is false of the code for several repetitions. *)
Theorem C21_duality : forall cdf ppf f lv ci t,
  cdf_strict cdf -> cdf_symmetric cdf -> cdf_inverse cdf ppf -> fw_n_rep f = 1%nat ->
  0 < at_ (fw_all_ses f) [t; 0%nat] -> confint ppf f (PBool false) (PFloat lv) = Ok ci ->
  at_ (fw_pvals cdf f) [t] < 1 - lv <-> (0 < at_ ci [t; 0%nat] \/ at_ ci [t; 1%nat] < 0).
Proof. exact pval_ci_dual. Qed.
Print Assumptions C21_duality.

(** Missing from the full property: more than one repetition. *)
Theorem C21_model_pval_partial : forall cdf f t, cdf_symmetric cdf -> fw_n_rep f = 1%nat -> fw_aggregated f ->
  (t < fw_n_thetas f)%nat -> fw_ses_nonneg f ->
  at_ (fw_pvals cdf f) [t] = model_pval cdf (at_ (fw_thetas f) [t]) (at_ (fw_ses f) [t]).
Proof. exact pval_model_eq. Qed.
Print Assumptions C21_model_pval_partial.

Theorem C21_model_pval_refuted : forall cdf ppf, cdf_strict cdf -> cdf_symmetric cdf -> cdf_inverse cdf ppf ->
  exists f lv ci, fw_wf f /\ fw_aggregated f /\ fw_ses_from_scores f /\
   at_ (fw_pvals cdf f) [0%nat] <> model_pval cdf (at_ (fw_thetas f) [0%nat]) (at_ (fw_ses f) [0%nat]) /\
   confint ppf f (PBool false) (PFloat lv) = Ok ci /\
   at_ (fw_pvals cdf f) [0%nat] < 1 - lv /\ at_ ci [0%nat; 0%nat] < 0 < at_ ci [0%nat; 1%nat].
Proof. exact pval_two_rep_refuted. Qed.
Print Assumptions C21_model_pval_refuted.

Example C21_case : cdf_strict ex_cdf /\ cdf_symmetric ex_cdf /\ cdf_inverse ex_cdf ex_ppf /\ fw_n_rep unit_fw = 1%nat /\
  0 < at_ (fw_all_ses unit_fw) [0%nat; 0%nat] /\ fw_aggregated unit_fw /\ fw_ses_nonneg unit_fw /\
  exists ci, confint ex_ppf unit_fw (PBool false) (PFloat (9 / 10)) = Ok ci.
Proof.
  destruct unit_fw_ok as (_ & A & _ & _ & B).
  split; [exact ex_cdf_strict|]. split; [exact ex_cdf_symmetric|]. split; [exact ex_cdf_inverse|]. split; [reflexivity|].
  split; [cbn; lra|]. split; [exact A|]. split; [exact B|]. apply confint_total; [lra|discriminate].
Qed.

(** C11-C16: algebra of estimation results. *)
From Verif Require Import L_FwProps.
Local Open Scope R_scope.

(** ** C11 *)
Theorem C11_sum_estimates : forall f g, fw_wf f -> fw_wf g -> compatible f g ->
  exists h, fw_add f (OpFw g) = Ok h /\ fw_wf h /\ fw_aggregated h /\ fw_ses_from_scores h /\
    fw_n_obs h = fw_n_obs f /\ fw_n_thetas h = fw_n_thetas f /\ fw_n_rep h = fw_n_rep f /\
    (forall t r, at_ (fw_all_thetas h) [t; r] = at_ (fw_all_thetas f) [t; r] + at_ (fw_all_thetas g) [t; r]) /\
    (forall i t r, at_ (fw_scaled_psi h) [i; t; r] = at_ (fw_scaled_psi f) [i; t; r] + at_ (fw_scaled_psi g) [i; t; r]).
Proof. exact (sum_diff Rplus). Qed.
Print Assumptions C11_sum_estimates.

Theorem C11_difference_estimates : forall f g, fw_wf f -> fw_wf g -> compatible f g ->
  exists h, fw_sub f (OpFw g) = Ok h /\ fw_wf h /\ fw_aggregated h /\ fw_ses_from_scores h /\
    fw_n_obs h = fw_n_obs f /\ fw_n_thetas h = fw_n_thetas f /\ fw_n_rep h = fw_n_rep f /\
    (forall t r, at_ (fw_all_thetas h) [t; r] = at_ (fw_all_thetas f) [t; r] - at_ (fw_all_thetas g) [t; r]) /\
    (forall i t r, at_ (fw_scaled_psi h) [i; t; r] = at_ (fw_scaled_psi f) [i; t; r] - at_ (fw_scaled_psi g) [i; t; r]).
Proof. exact (sum_diff Rminus). Qed.
Print Assumptions C11_difference_estimates.

Theorem C11_sum_commutes : forall f g, fw_wf f -> fw_wf g -> compatible f g ->
  exists h h', fw_add f (OpFw g) = Ok h /\ fw_add g (OpFw f) = Ok h' /\ fw_obs_eq h h'.
Proof. exact sum_comm. Qed.
Print Assumptions C11_sum_commutes.

Theorem C11_difference_antisymmetric : forall f g, (0 < fw_n_rep f)%nat -> fw_wf f -> fw_wf g -> compatible f g ->
  exists h h', fw_sub f (OpFw g) = Ok h /\ fw_sub g (OpFw f) = Ok h' /\
    (forall t r, at_ (fw_all_thetas h') [t; r] = - at_ (fw_all_thetas h) [t; r]) /\
    (forall t r, (t < fw_n_thetas f)%nat -> at_ (fw_all_ses h') [t; r] = at_ (fw_all_ses h) [t; r]) /\
    (forall t, (t < fw_n_thetas f)%nat -> at_ (fw_thetas h') [t] = - at_ (fw_thetas h) [t]) /\
    (forall t, (t < fw_n_thetas f)%nat -> at_ (fw_ses h') [t] = at_ (fw_ses h) [t]).
Proof. exact diff_antisym. Qed.
Print Assumptions C11_difference_antisymmetric.

Theorem C11_self_difference : forall f, (0 < fw_n_rep f)%nat -> fw_wf f ->
  exists h, fw_sub f (OpFw f) = Ok h /\
    (forall t r, at_ (fw_all_thetas h) [t; r] = 0 /\ at_ (fw_all_ses h) [t; r] = 0) /\
    (forall t, (t < fw_n_thetas f)%nat -> at_ (fw_thetas h) [t] = 0 /\ at_ (fw_ses h) [t] = 0).
Proof. exact sub_self. Qed.
Print Assumptions C11_self_difference.

Example C11_case : fw_wf ex_f /\ fw_wf ex_g /\ compatible ex_f ex_g /\ (0 < fw_n_rep ex_f)%nat /\
  at_ (fw_all_thetas ex_f) [1%nat; 1%nat] = 2 /\ at_ (fw_all_thetas ex_g) [1%nat; 1%nat] = 1.
Proof.
  split; [apply built_wf|]. split; [apply built_wf|]. split; [apply built_compatible|]. split; [cbn; lia|]. split; cbn; lra.
Qed.

(** ** C12 *)
Theorem C12_double : forall f, (0 < fw_n_rep f)%nat -> fw_wf f -> fw_vs_pos f -> fw_aggregated f -> fw_ses_from_scores f ->
  exists h1 h2, fw_mul f (PInt 2) = Ok h1 /\ fw_add f (OpFw f) = Ok h2 /\ fw_obs_eq h1 h2.
Proof. exact add_self_double. Qed.
Print Assumptions C12_double.

Theorem C12_distributes : forall f a b, (0 < fw_n_rep f)%nat -> 0 <= a -> 0 <= b ->
  fw_wf f -> fw_vs_pos f -> fw_aggregated f -> fw_ses_from_scores f ->
  exists h1 h2 h3 h4, fw_mul f (PFloat (a + b)) = Ok h1 /\ fw_mul f (PFloat a) = Ok h2 /\ fw_mul f (PFloat b) = Ok h3 /\
    fw_add h2 (OpFw h3) = Ok h4 /\ fw_obs_eq h1 h4.
Proof. exact mul_distr. Qed.
Print Assumptions C12_distributes.

Example C12_case : (0 < fw_n_rep ex_f)%nat /\ fw_wf ex_f /\ fw_vs_pos ex_f /\ fw_aggregated ex_f /\ fw_ses_from_scores ex_f.
Proof.
  split; [cbn; lia|]. split; [apply built_wf|]. split; [apply built_vs; lia|]. split; [apply built_aggregated|apply built_scores].
Qed.

(** ** C13: false of the code for negative scalars. *)
Theorem C13_scalar_multiple_refuted : exists f h,
  fw_wf f /\ fw_aggregated f /\ fw_ses_from_scores f /\ fw_ses_nonneg f /\ fw_vs_pos f /\
  fw_mul f (PFloat (-1)) = Ok h /\ at_ (fw_ses h) [0%nat] < 0 /\
  forall ppf, 0 < ppf (1 - (1 - 19 / 20) / 2) ->
    exists ci, confint ppf h (PBool false) (PFloat (19 / 20)) = Ok ci /\ at_ ci [0%nat; 1%nat] < at_ ci [0%nat; 0%nat].
Proof. exact mul_negative_refuted. Qed.
Print Assumptions C13_scalar_multiple_refuted.

(** Missing from the full property: scalars below zero. *)
Theorem C13_scalar_multiple_partial : forall f v c, (0 < fw_n_rep f)%nat -> 0 <= c -> scalar_val v = Some c ->
  fw_wf f -> fw_vs_pos f -> fw_aggregated f -> fw_ses_nonneg f ->
  exists h, fw_mul f v = Ok h /\ fw_wf h /\ fw_aggregated h /\ fw_ses_nonneg h /\
    (forall t, at_ (fw_thetas h) [t] = c * at_ (fw_thetas f) [t]) /\
    (forall t, at_ (fw_ses h) [t] = Rabs c * at_ (fw_ses f) [t]) /\
    forall ppf lv ci t, ppf_ok ppf -> (t < fw_n_thetas f)%nat ->
      confint ppf h (PBool false) (PFloat lv) = Ok ci -> at_ ci [t; 0%nat] <= at_ ci [t; 1%nat].
Proof. exact mul_nonneg_scalar. Qed.
Print Assumptions C13_scalar_multiple_partial.
Example C13_case : (0 < fw_n_rep ex_f)%nat /\ 0 <= 3 /\ scalar_val (PFloat 3) = Some 3 /\ fw_wf ex_f /\ fw_vs_pos ex_f /\ fw_aggregated ex_f /\ fw_ses_nonneg ex_f.
Proof.
  split; [cbn; lia|]. split; [lra|]. split; [reflexivity|]. split; [apply built_wf|]. split; [apply built_vs; lia|]. split; [apply built_aggregated|apply built_nonneg].
Qed.

(** ** C14: false of the code for sums on clustered data. *)
Theorem C14_cluster_sum_refuted : exists f h h2,
  fw_wf f /\ fw_aggregated f /\ fw_ses_robust f /\ fw_cluster f <> None /\
  fw_add f (OpFw f) = Ok h /\ fw_mul f (PInt 2) = Ok h2 /\
  at_ (fw_ses h2) [0%nat] < at_ (fw_ses h) [0%nat] /\ ~ fw_ses_robust h.
Proof. exact cluster_sum_refuted. Qed.
Print Assumptions C14_cluster_sum_refuted.

(** Missing from the full property: sums and differences. *)
Theorem C14_cluster_multiple_partial : forall f c h, 0 <= c -> fw_wf f -> fw_ses_robust f ->
  fw_mul f (PFloat c) = Ok h -> fw_ses_robust h.
Proof. exact mul_robust. Qed.
Print Assumptions C14_cluster_multiple_partial.
Example C14_case : fw_wf cl_fw /\ fw_ses_robust cl_fw /\ exists h, fw_mul cl_fw (PFloat 3) = Ok h.
Proof.
  destruct cl_fw_ok as (A & _ & B & _). split; [exact A|]. split; [exact B|]. eexists. apply fw_mul_ok; [exact A|reflexivity].
Qed.

(** ** C15 *)
Theorem C15_components : forall fs, fs <> [] -> (forall g, In g fs -> fw_wf g /\ fw_cluster g = None) -> compat_all fs ->
  exists h, fw_concat (map OpFw fs) = Ok h /\ fw_wf h /\ concat_of fs h /\
    ((forall f, In f fs -> fw_aggregated f) -> fw_aggregated h) /\
    (forall ppf lv ci k f t, confint ppf h (PBool false) (PFloat lv) = Ok ci -> nth_error fs k = Some f -> (t < fw_n_thetas f)%nat ->
       exists cf, confint ppf f (PBool false) (PFloat lv) = Ok cf /\
       at_ ci [(block fs k + t)%nat; 0%nat] = at_ cf [t; 0%nat] /\ at_ ci [(block fs k + t)%nat; 1%nat] = at_ cf [t; 1%nat]).
Proof. exact concat_components. Qed.
Print Assumptions C15_components.

Theorem C15_associative : forall l1 l2, l1 <> [] -> l2 <> [] ->
  (forall g, In g (l1 ++ l2) -> fw_wf g /\ fw_cluster g = None) -> compat_all (l1 ++ l2) ->
  exists h1 h2 h h', fw_concat (map OpFw l1) = Ok h1 /\ fw_concat (map OpFw l2) = Ok h2 /\
    fw_concat [OpFw h1; OpFw h2] = Ok h /\ fw_concat (map OpFw (l1 ++ l2)) = Ok h' /\ fw_obs_eq h h'.
Proof. exact concat_assoc. Qed.
Print Assumptions C15_associative.

Theorem C15_rejected : forall objs,
  (objs = [] \/ In OpOther objs \/
   (exists f g, In (OpFw f) objs /\ In (OpFw g) objs /\ (fw_n_obs f <> fw_n_obs g \/ fw_n_rep f <> fw_n_rep g)) \/
   (exists f, In (OpFw f) objs /\ fw_cluster f <> None)) -> is_ok (fw_concat objs) = false.
Proof. exact concat_incompatible. Qed.
Print Assumptions C15_rejected.

Example C15_case : (forall g, In g ([ex_f] ++ [ex_g; ex_f]) -> fw_wf g /\ fw_cluster g = None /\ fw_aggregated g) /\ compat_all ([ex_f] ++ [ex_g; ex_f])
  /\ (In (OpFw cl_fw) [OpFw cl_fw] /\ fw_cluster cl_fw <> None).
Proof.
  split; [|split].
  - intros g Hg. cbn in Hg. destruct Hg as [<- | [<- | [<- | []]]]; (split; [apply built_wf|split; [reflexivity|apply built_aggregated]]).
  - intros a b Ha Hb. cbn in Ha, Hb. destruct Ha as [<- | [<- | [<- | []]]], Hb as [<- | [<- | [<- | []]]]; split; reflexivity.
  - split; [left; reflexivity|discriminate].
Qed.

(** ** C16 *)
Theorem C16_constructor : forall d, is_ok (mk_framework (Some d)) = true <-> consistent_dict d.
Proof. exact constructor_iff. Qed.
Print Assumptions C16_constructor.

(** Any expression built from sums, differences, multiples and concatenations
    either has mismatching operand widths and raises, or yields a well-formed
    result with exactly the denoted estimates and scores. *)
Theorem C16_closed : forall env n nr v, same_sample env n nr v -> forall e,
  match width (fun k => fw_n_thetas (env k)) e with
  | Some w => exists h, run_expr env e = Ok h /\ expr_inv env n nr v w e h
  | None => run_expr env e = Err ValueError
  end.
Proof. exact expr_closed. Qed.
Print Assumptions C16_closed.

Theorem C16_sum_incompatible : forall f o,
  (forall g, o = OpFw g -> fw_n_obs f <> fw_n_obs g \/ fw_n_rep f <> fw_n_rep g \/
    fw_n_thetas f <> fw_n_thetas g \/ is_some (fw_cluster f) <> is_some (fw_cluster g)) ->
  is_ok (fw_add f o) = false /\ is_ok (fw_sub f o) = false.
Proof. exact (fun f o H => conj (combine_incompatible Rplus f o H) (combine_incompatible Rminus f o H)). Qed.
Print Assumptions C16_sum_incompatible.

Example C16_case : same_sample (fun k => if Nat.even k then ex_f else ex_g) 3 2 3 /\
  width (fun k => fw_n_thetas (if Nat.even k then ex_f else ex_g)) (ECat (ESub (ELeaf 0) (EMul (-2) (ELeaf 1))) (ELeaf 2)) = Some 4%nat.
Proof.
  split; [|reflexivity]. intro k. destruct (Nat.even k); (split; [apply built_wf|]; split; [reflexivity|]; split; [reflexivity|]; split; [reflexivity|]; intros t _; cbn; lra).
Qed.

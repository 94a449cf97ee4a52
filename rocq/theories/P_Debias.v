(** C61, C62: sensitivity elements as plug-in estimates; fold-wise shares. *)
From Verif Require Import S_Debias L_Debias.
From Coq Require Import Lra.
Local Open Scope R_scope.

(** ** C61 *)
Theorem C61_interactive : forall n atte norm w y d g0 g1 m, binary n d ->
  let ma := ps_adjust n m d norm in let ws := irm_weights n atte w d ma in let s := irm_sens n atte norm w y d g0 g1 m in
  sigma2_of n s (observed_fit d g0 g1) y /\ debiased_nu2 n s d (effect (fst ws)) (ipw (snd ws) ma).
Proof. exact irm_debiased. Qed.
Print Assumptions C61_interactive.
Theorem C61_potential_outcome : forall n norm w y tr g0 g1 m, binary n tr ->
  let ma := ps_adjust n m tr norm in let ws := apo_weights w in let s := apo_sens n norm w y tr g0 g1 m in
  sigma2_of n s (observed_fit tr g0 g1) y /\ debiased_nu2 n s tr (level1 (fst ws)) (ipw_level (snd ws) ma).
Proof. exact apo_debiased. Qed.
Print Assumptions C61_potential_outcome.
Theorem C61_difference_in_differences : forall n (obs norm : bool) y d g0 g1 m, binary n d ->
  let p := meanf n d in let odds := fun i => if obs then m i / (1 - m i) else 1 in let s := did_sens n obs norm y d g0 g1 m in
  sigma2_of n s (observed_fit d g0 g1) y /\
  debiased_nu2 n s d (effect (fun i => if obs then d i / p else 1)) (did_alpha p (did_q0 n obs norm d odds) odds).
Proof. exact did_debiased. Qed.
Print Assumptions C61_difference_in_differences.
(** Repeated cross-sections.  The variant whose reported representer has lost its
    signs ([C59_cs_refuted]) still has the right second moment. *)
Theorem C61_repeated_cross_sections : forall n (obs norm : bool) y d t g00 g01 g10 g11 m, binary n d -> binary n t ->
  let p := meanf n d in let lam := meanf n t in
  let odds := fun i => if obs then m i / (1 - m i) else 1 in let s := cs_sens n obs norm y d t g00 g01 g10 g11 m in
  sigma2_of n s (observed_fit4 d t g00 g01 g10 g11) y /\
  debiased_nu2_2 n s d t (double_diff (fun i => if obs then d i / p else 1))
    (if norm then cs_alpha (meanf n (both d t)) (meanf n (both d (compl t))) (meanf n (fun i => both (compl d) t i * odds i)) (meanf n (fun i => both (compl d) (compl t) i * odds i)) odds
     else let q := if obs then p else 1 - p in cs_alpha (p * lam) (p * (1 - lam)) (q * lam) (q * (1 - lam)) odds).
Proof. exact cs_debiased. Qed.
Print Assumptions C61_repeated_cross_sections.
(** Maximal bias and its influence component. *)
Theorem C61_max_bias : forall s, 0 < sl_sigma2 s * sl_nu2 s -> 0 <= fst (sens_bias s) /\ (fst (sens_bias s)) ^ 2 = sl_sigma2 s * sl_nu2 s /\
  forall i, bias_derivative (sl_sigma2 s) (sl_nu2 s) (sl_psi_sigma2 s i) (sl_psi_nu2 s i) (snd (sens_bias s) i).
Proof. exact bias_influence. Qed.
Print Assumptions C61_max_bias.
(** Partially linear model: nu2 is one over the mean squared residual treatment,
    its influence component the derivative of that. *)
Theorem C61_partially_linear : forall n iv y d l m g theta i, let q := meanf n (fun i => (d i - m i) ^ 2) in q <> 0 -> let s := plr_sens n iv y d l m g theta in
  sl_nu2 s = / q /\ derivable_pt_lim (fun t => / (q + t * ((d i - m i) ^ 2 - q))) 0 (sl_psi_nu2 s i) /\
  sl_psi_sigma2 s i = (if iv then y i - g i - theta * d i else y i - l i - theta * (d i - m i)) ^ 2 - sl_sigma2 s.
Proof. exact plr_nu2_influence. Qed.
Print Assumptions C61_partially_linear.
Example C61_case : binary 4 d4 /\ binary 4 t4 /\ meanf 4 (fun i => (d4 i - half i) ^ 2) <> 0 /\
  (let s := plr_sens 4 false (fun i => INR i) d4 (fun _ => 0) half (fun _ => 0) 0 in 0 < sl_sigma2 s * sl_nu2 s).
Proof.
  split; [rows|]. split; [rows|]. split.
  - unfold meanf, sumf, d4, v4, half. cbn. lra.
  - unfold plr_sens. cbn [sl_sigma2 sl_nu2]. apply Rmult_lt_0_compat.
    + unfold meanf, sumf, d4, v4, half. cbn. lra.
    + unfold Rdiv. rewrite Rmult_1_l. apply Rinv_0_lt_compat. unfold meanf, sumf, d4, v4, half. cbn. lra.
Qed.

(** ** C62 *)
Theorem C62_fold_share : forall smpls d i x k f, nth_error smpls k = Some f -> In i (snd f) -> (forall j g, nth_error smpls j = Some g -> j <> k -> ~ In i (snd g)) ->
  fold_share smpls d i x = training_share f d.
Proof. exact fold_share_spec. Qed.
Print Assumptions C62_fold_share.
Example C62_case : fold_share [([2; 3], [0; 1]); ([0; 1], [2; 3])]%nat d4 2 0 = training_share ([0; 1], [2; 3])%nat d4.
Proof. apply (C62_fold_share _ _ _ _ 1%nat); [reflexivity|left; reflexivity|]. intros [|[|j]] g Hg Hne; cbn in Hg; [injection Hg as <-; cbn; lia|lia|destruct j; discriminate]. Qed.

(** ** C47: the initial estimate handed to ml_g *)
Theorem C47_initial_estimate : forall n y d l m g, plr_theta_initial n y d l m = estimate n (plr_score false y d l m g).
Proof. exact plr_theta_is_partialling_out. Qed.
Print Assumptions C47_initial_estimate.

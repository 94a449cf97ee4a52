(** Frameworks with arbitrary estimates and scores that satisfy the hypotheses
    used in the property theorems; used in the examples. *)
From Verif Require Export L_Sensitivity.
Local Open Scope R_scope.

Section Built.
  Context (n nt nr : nat) (th : nat -> nat -> R) (psi : nat -> nat -> nat -> R) (mb : nat -> nat -> R) (pmb : nat -> nat -> nat -> R).
  Definition b_se (t r : nat) : R := sqrt (meanf n (fun i => (psi i t r) ^ 2) / INR n).
  Definition b_sens : sens_elems :=
    {| se_max_bias := mk3 1 nt nr (fun _ t r => mb t r); se_psi_max_bias := mk3 n nt nr pmb; se_bench := None |}.
  (** Unclustered framework with estimates [th], scores [psi], maximal bias [mb]. *)
  Definition built : framework :=
    {| fw_n_obs := n; fw_n_thetas := nt; fw_n_rep := nr;
       fw_thetas := mk1 nt (fun t => medianf nr (th t));
       fw_ses := mk1 nt (fun t => sqrt (medianf nr (fun r => (b_se t r) ^ 2 + (th t r - medianf nr (th t)) ^ 2 / INR n)));
       fw_all_thetas := mk2 nt nr th; fw_all_ses := mk2 nt nr b_se;
       fw_vs := mk1 nt (fun _ => INR n); fw_scaled_psi := mk3 n nt nr psi;
       fw_cluster := None; fw_sens := Some b_sens; fw_names := None; fw_boot := None; fw_sens_params := None |}.
  Lemma built_wf : fw_wf built.
  Proof.
    constructor; cbn; auto; [|discriminate]. intros s H. injection H as <-. cbn. split; [reflexivity|]. split; [reflexivity|]. discriminate.
  Qed.
  Lemma built_aggregated : fw_aggregated built.
  Proof. intros t Ht. split; reflexivity. Qed.
  Lemma built_scores : fw_ses_from_scores built.
  Proof. intros t r Ht Hr. reflexivity. Qed.
  Lemma built_nonneg : fw_ses_nonneg built.
  Proof. intros t r Ht Hr. apply sqrt_pos. Qed.
  Lemma built_vs : (0 < n)%nat -> fw_vs_pos built.
  Proof. intros Hn t Ht. cbn. apply INR_pos. exact Hn. Qed.
  Lemma built_robust : (0 < n)%nat -> fw_ses_robust built.
  Proof. intro Hn. apply robust_unclustered; [exact Hn|reflexivity|reflexivity|apply built_scores]. Qed.
  Lemma built_bias : (forall t r, 0 <= mb t r) -> bias_nonneg built.
  Proof. intros H s t r Hs _ _. injection Hs as <-. apply H. Qed.
  Lemma built_boot : fw_boot_wf built.
  Proof. intros b m k H. discriminate. Qed.
End Built.
Lemma built_compatible n nt nr a b c d a' b' c' d' : compatible (built n nt nr a b c d) (built n nt nr a' b' c' d').
Proof. repeat split. Qed.

(** A strictly increasing symmetric distribution function with its inverse. *)
Definition ex_cdf (x : R) : R := 1 / 2 + x / (2 * (1 + Rabs x)).
Definition ex_ppf (p : R) : R := if Rle_dec (1 / 2) p then (2 * p - 1) / (2 - 2 * p) else (2 * p - 1) / (2 * p).
Lemma ex_cdf_strict : cdf_strict ex_cdf.
Proof.
  intros x y H. unfold ex_cdf. apply Rplus_lt_compat_l.
  assert (Hx : 0 < 1 + Rabs x) by (pose proof (Rabs_pos x); lra). assert (Hy : 0 < 1 + Rabs y) by (pose proof (Rabs_pos y); lra).
  apply (Rmult_lt_reg_r (2 * (1 + Rabs x) * (1 + Rabs y))); [apply Rmult_lt_0_compat; lra|].
  replace (x / (2 * (1 + Rabs x)) * (2 * (1 + Rabs x) * (1 + Rabs y))) with (x * (1 + Rabs y)) by (field; lra).
  replace (y / (2 * (1 + Rabs y)) * (2 * (1 + Rabs x) * (1 + Rabs y))) with (y * (1 + Rabs x)) by (field; lra).
  unfold Rabs. destruct (Rcase_abs x), (Rcase_abs y); nra.
Qed.
Lemma ex_cdf_symmetric : cdf_symmetric ex_cdf.
Proof. intro x. unfold ex_cdf. rewrite Rabs_Ropp. pose proof (Rabs_pos x). field. lra. Qed.
Lemma ex_cdf_inverse : cdf_inverse ex_cdf ex_ppf.
Proof.
  intros p Hp. unfold ex_cdf, ex_ppf. destruct (Rle_dec (1 / 2) p) as [H|H].
  - rewrite Rabs_pos_eq; [field; lra|]. apply div_nonneg; lra.
  - rewrite Rabs_left1; [field; lra|]. apply Ropp_le_cancel. rewrite Ropp_0. unfold Rdiv. rewrite <- Ropp_mult_distr_l_reverse || rewrite Ropp_mult_distr_l.
    apply (div_nonneg (- (2 * p - 1)) (2 * p)); lra.
Qed.
Lemma strict_inverse_ppf_ok cdf ppf : cdf_strict cdf -> cdf_symmetric cdf -> cdf_inverse cdf ppf -> ppf_ok ppf.
Proof.
  intros Hs Hy Hi. split.
  - intros p q Hp Hpq Hq. apply Rnot_lt_le. intro L. apply Hs in L. rewrite !Hi in L by lra. lra.
  - intros p H1 H2. apply Rnot_lt_le. intro L. apply Hs in L. rewrite Hi in L by lra. rewrite (sym_zero cdf Hy) in L. lra.
Qed.
Lemma ex_ppf_ok : ppf_ok ex_ppf.
Proof. exact (strict_inverse_ppf_ok _ _ ex_cdf_strict ex_cdf_symmetric ex_cdf_inverse). Qed.

(** A concrete argsort: insertion of indices by value. *)
Fixpoint ins_idx (v : nat -> R) (k : nat) (l : list nat) : list nat :=
  match l with [] => [k] | j :: r => if Rle_dec (v k) (v j) then k :: l else j :: ins_idx v k r end.
Definition ex_argsort (l : list R) : list nat := fold_right (ins_idx (fun k => nth k l 0)) [] (seq 0 (length l)).
Lemma ins_perm v k l : Permutation (ins_idx v k l) (k :: l).
Proof.
  induction l as [|j l IH]; cbn; [constructor; constructor|]. destruct (Rle_dec (v k) (v j)); [apply Permutation_refl|].
  eapply Permutation_trans; [apply perm_skip; exact IH|]. apply perm_swap.
Qed.
Lemma ins_sorted v k l : StronglySorted (fun a b => v a <= v b) l -> StronglySorted (fun a b => v a <= v b) (ins_idx v k l).
Proof.
  induction 1 as [|j l Hs IH Hf]; cbn; [constructor; constructor|]. destruct (Rle_dec (v k) (v j)) as [H|H].
  - constructor; [constructor; assumption|]. constructor; [exact H|]. eapply Forall_impl; [|exact Hf]. cbn. intros a Ha. lra.
  - constructor; [exact IH|]. apply (Permutation_Forall (Permutation_sym (ins_perm v k l))). constructor; [lra|exact Hf].
Qed.
Lemma ex_argsort_ok : argsort_ok ex_argsort.
Proof.
  intro l. unfold ex_argsort. set (v := fun k => nth k l 0). split.
  - induction (seq 0 (length l)) as [|k s IH]; cbn; [constructor|]. eapply Permutation_trans; [apply ins_perm|]. constructor. exact IH.
  - assert (P : Permutation (fold_right (ins_idx v) [] (seq 0 (length l))) (seq 0 (length l))).
    { induction (seq 0 (length l)) as [|k s IH]; cbn; [constructor|]. eapply Permutation_trans; [apply ins_perm|]. constructor. exact IH. }
    assert (S : StronglySorted (fun a b => v a <= v b) (fold_right (ins_idx v) [] (seq 0 (length l)))).
    { clear P. induction (seq 0 (length l)) as [|k s IH]; cbn; [constructor|]. apply ins_sorted. exact IH. }
    apply Permutation_length in P. rewrite seq_length in P. revert P S. generalize (fold_right (ins_idx v) [] (seq 0 (length l))) as a. intros a P S i j Hij Hj. rewrite <- P in Hj. clear P.
    revert i j Hij Hj. induction S as [|x a S IH F]; intros i j Hij Hj; cbn in Hj; [lia|].
    destruct i, j; cbn [nth]; try lia; [apply Rle_refl| |apply IH; lia].
    rewrite Forall_forall in F. apply F. apply nth_In. lia.
Qed.

(** An example framework used below: 3 observations, 2 parameters, 2 repetitions. *)
Definition ex_f : framework := built 3 2 2 (fun t r => INR (t + r)) (fun i t r => INR (i + t) - 1) (fun t _ => INR t) (fun i _ _ => INR i - 1).
Definition ex_g : framework := built 3 2 2 (fun t r => INR (t * r)) (fun i t r => 1 - INR (i * t)) (fun t _ => 1) (fun i _ _ => 1 - INR i).
Definition ex_w (r d i : nat) : R := if Nat.even (r + d + i) then 1 else -1.

(** Confidence intervals, bootstrap, Romano-Wolf, p-values. *)
From Verif Require Export L_FwExpr L_Quantile.
Local Open Scope R_scope.

(** ** Confidence intervals *)
Definition ci_crit (ppf : R -> R) (f : framework) (jt : bool) (lv : R) (r : nat) : R :=
  if jt then match fw_boot f with Some (b, _, _) => joint_crit b lv r | None => 0 end
  else ppf (1 - (1 - lv) / 2).

Lemma confint_inv ppf f jt lv ci : confint ppf f (PBool jt) (PFloat lv) = Ok ci ->
  0 < lv < 1 /\ (jt = true -> exists b m k, fw_boot f = Some (b, m, k) /\ (0 < dim 1 b)%nat) /\
  shape ci = [fw_n_thetas f; 2%nat] /\
  (forall t, at_ ci [t; 0%nat] = medianf (fw_n_rep f) (fun r => at_ (fw_all_thetas f) [t; r] - at_ (fw_all_ses f) [t; r] * ci_crit ppf f jt lv r)) /\
  (forall t, at_ ci [t; 1%nat] = medianf (fw_n_rep f) (fun r => at_ (fw_all_thetas f) [t; r] + at_ (fw_all_ses f) [t; r] * ci_crit ppf f jt lv r)).
Proof.
  unfold confint. intro H. apply require_ok in H. destruct H as [Hl H].
  apply negb_true_iff, orb_false_iff in Hl. destruct Hl as [L1 L2]. apply rleb_false in L1. apply rleb_false in L2.
  split; [lra|]. apply bind_ok in H. destruct H as (crit & Hc & H). injection H as <-.
  assert (E : (jt = true -> exists b m k, fw_boot f = Some (b, m, k) /\ (0 < dim 1 b)%nat) /\ crit = ci_crit ppf f jt lv).
  { destruct jt.
    - destruct (fw_boot f) as [[[b m] k]|] eqn:Eb; [|discriminate]. apply require_ok in Hc. destruct Hc as [Hd Hc].
      apply Nat.ltb_lt in Hd. split; [intros _; exists b, m, k; auto|]. unfold ci_crit. rewrite Eb. injection Hc as <-. reflexivity.
    - split; [discriminate|]. injection Hc as <-. reflexivity. }
  destruct E as [E ->]. split; [exact E|]. split; [reflexivity|].
  split; intro t; cbn; unfold ci_end; apply medianf_ext; intros; lra.
Qed.
Lemma confint_total ppf f jt lv : 0 < lv < 1 -> (jt = true -> exists b m k, fw_boot f = Some (b, m, k) /\ (0 < dim 1 b)%nat) ->
  exists ci, confint ppf f (PBool jt) (PFloat lv) = Ok ci.
Proof.
  intros Hl Hb. unfold confint. rewrite (proj2 (rleb_false lv 0)), (proj2 (rleb_false 1 lv)) by lra. cbn [orb negb require].
  destruct jt; [|cbn; eexists; reflexivity]. destruct (Hb eq_refl) as (b & m & k & -> & Hd).
  apply Nat.ltb_lt in Hd. rewrite Hd. cbn. eexists; reflexivity.
Qed.
Lemma draws_nonempty (g : nat -> R) nb : (0 < nb)%nat -> map g (seq 0 nb) <> [].
Proof. apply map_seq_nonempty. Qed.

Lemma joint_crit_nonneg b lv r nb nt nr : shape b = [nb; nt; nr] -> (0 < nb)%nat -> (0 < nt)%nat -> 0 < lv < 1 -> 0 <= joint_crit b lv r.
Proof.
  intros S Hn Ht Hl. unfold joint_crit, dim. rewrite S. cbn [nth]. apply quantile_nonneg; [apply map_seq_nonempty; exact Hn|lra|].
  intros x Hx. apply in_map_iff in Hx. destruct Hx as (k & <- & _).
  eapply Rle_trans; [|apply (maxf_ge nt _ 0 Ht)]. apply Rabs_pos.
Qed.
Lemma ci_crit_nonneg ppf f jt lv r : ppf_ok ppf -> fw_boot_wf f -> (jt = true -> exists b m k, fw_boot f = Some (b, m, k) /\ (0 < dim 1 b)%nat) ->
  0 < lv < 1 -> 0 <= ci_crit ppf f jt lv r.
Proof.
  intros [_ Hp] Hb Hj Hl. unfold ci_crit. destruct jt; [|apply Hp; lra].
  destruct (Hj eq_refl) as (b & m & k & E & Hd). rewrite E. destruct (Hb b m k E) as (nb & Hnb & S).
  eapply joint_crit_nonneg; [exact S|exact Hnb| |exact Hl]. unfold dim in Hd. rewrite S in Hd. exact Hd.
Qed.
Lemma ci_crit_mono ppf f jt l1 l2 r : ppf_ok ppf -> fw_boot_wf f -> 0 < l1 -> l1 <= l2 -> l2 < 1 ->
  ci_crit ppf f jt l1 r <= ci_crit ppf f jt l2 r.
Proof.
  intros [Hp _] Hb H1 H12 H2. unfold ci_crit. destruct jt; [|apply Hp; lra].
  destruct (fw_boot f) as [[[b m] k]|] eqn:E; [|lra]. destruct (Hb b m k E) as (nb & Hnb & S).
  unfold joint_crit, dim. rewrite S. cbn [nth]. apply quantile_mono_q; try lra. apply map_seq_nonempty; exact Hnb.
Qed.

Lemma ci_contains ppf f jt lv ci t : (0 < fw_n_rep f)%nat -> ppf_ok ppf -> fw_boot_wf f -> fw_ses_nonneg f -> fw_aggregated f ->
  confint ppf f (PBool jt) (PFloat lv) = Ok ci -> (t < fw_n_thetas f)%nat ->
  at_ ci [t; 0%nat] <= at_ (fw_thetas f) [t] <= at_ ci [t; 1%nat].
Proof.
  intros Hr Hp Hb Hs Ha H Ht. apply confint_inv in H. destruct H as (Hl & Hj & _ & Hlo & Hup).
  rewrite Hlo, Hup. destruct (Ha t Ht) as [-> _].
  split; apply medianf_mono; intros r Hlr;
    assert (0 <= at_ (fw_all_ses f) [t; r] * ci_crit ppf f jt lv r) by
      (apply Rmult_le_pos; [apply Hs; assumption|apply ci_crit_nonneg; assumption]); lra.
Qed.
Lemma ci_nested ppf f jt l1 l2 c1 c2 t : ppf_ok ppf -> fw_boot_wf f -> fw_ses_nonneg f -> l1 <= l2 ->
  confint ppf f (PBool jt) (PFloat l1) = Ok c1 -> confint ppf f (PBool jt) (PFloat l2) = Ok c2 -> (t < fw_n_thetas f)%nat ->
  at_ c2 [t; 0%nat] <= at_ c1 [t; 0%nat] /\ at_ c1 [t; 1%nat] <= at_ c2 [t; 1%nat].
Proof.
  intros Hp Hb Hs H12 H1 H2 Ht. apply confint_inv in H1. apply confint_inv in H2.
  destruct H1 as (L1 & _ & _ & A1 & B1). destruct H2 as (L2 & _ & _ & A2 & B2). rewrite A1, A2, B1, B2.
  split; apply medianf_mono; intros r Hlr;
    assert (at_ (fw_all_ses f) [t; r] * ci_crit ppf f jt l1 r <= at_ (fw_all_ses f) [t; r] * ci_crit ppf f jt l2 r) by
      (apply Rmult_le_compat_l; [apply Hs; assumption|apply ci_crit_mono; lra || assumption]); lra.
Qed.
Lemma ci_symmetric ppf f jt lv ci t : fw_n_rep f = 1%nat -> fw_aggregated f ->
  confint ppf f (PBool jt) (PFloat lv) = Ok ci -> (t < fw_n_thetas f)%nat ->
  at_ (fw_thetas f) [t] - at_ ci [t; 0%nat] = at_ ci [t; 1%nat] - at_ (fw_thetas f) [t].
Proof.
  intros Hr Ha H Ht. apply confint_inv in H. destruct H as (_ & _ & _ & A & B). rewrite A, B. destruct (Ha t Ht) as [-> _].
  rewrite Hr, !medianf_one. lra.
Qed.

(** ** Joint critical value *)
Lemma joint_refused ppf f lv : 0 < lv < 1 -> fw_boot f = None -> confint ppf f (PBool true) (PFloat lv) = Err ValueError.
Proof.
  intros Hl Hb. unfold confint. rewrite (proj2 (rleb_false lv 0)), (proj2 (rleb_false 1 lv)) by lra. cbn [orb negb require].
  rewrite Hb. reflexivity.
Qed.
Lemma joint_crit_count b lv r nb nt nr : shape b = [nb; nt; nr] -> (0 < nb)%nat -> (0 < nt)%nat -> 0 < lv < 1 ->
  lv * INR (nb - 1) < INR (rcount (all_below b nt r (joint_crit b lv r)) (seq 0 nb)) /\
  (1 - lv) * INR (nb - 1) <= INR (rcount (some_above b nt r (joint_crit b lv r)) (seq 0 nb)).
Proof.
  intros S Hn Ht Hl. unfold joint_crit, dim. rewrite S. cbn [nth].
  set (g := fun k => maxf nt (fun t => Rabs (at_ b [k; t; r]))).
  assert (Hne : map g (seq 0 nb) <> []) by (apply map_seq_nonempty; exact Hn).
  assert (Hlen : length (map g (seq 0 nb)) = nb) by (rewrite map_length, seq_length; reflexivity).
  split.
  - pose proof (quantile_count_le (map g (seq 0 nb)) lv Hne ltac:(lra)) as H. rewrite Hlen, rcount_map in H.
    rewrite (rcount_ext _ (all_below b nt r (quantile (map g (seq 0 nb)) lv))) in H; [exact H|].
    intros k _. unfold all_below. apply eq_true_iff_eq. rewrite rleb_true, forallb_forall. unfold g at 1. rewrite maxf_le by exact Ht.
    split; intros X t Hi; [apply rleb_true, X; apply in_seq in Hi; lia|apply rleb_true, X; apply in_seq; lia].
  - pose proof (quantile_count_ge (map g (seq 0 nb)) lv Hne ltac:(lra)) as H. rewrite Hlen, rcount_map in H.
    rewrite (rcount_ext _ (some_above b nt r (quantile (map g (seq 0 nb)) lv))) in H; [exact H|].
    intros k _. unfold some_above. apply eq_true_iff_eq. rewrite rleb_true, existsb_exists. unfold g at 2. split.
    + intro X. destruct (maxf_in nt (fun t => Rabs (at_ b [k; t; r])) Ht) as (t & Hlt & E). exists t. rewrite E in X. split; [apply in_seq; lia|apply rleb_true; exact X].
    + intros (t & Hi & X). apply in_seq in Hi. apply rleb_true in X. eapply Rle_trans; [exact X|]. apply (maxf_ge nt (fun t => Rabs (at_ b [k; t; r]))). lia.
Qed.
Lemma joint_crit_single b lv r nb nt nr t : shape b = [nb; nt; nr] -> (0 < nb)%nat -> (t < nt)%nat -> 0 < lv < 1 ->
  quantile (map (fun k => Rabs (at_ b [k; t; r])) (seq 0 nb)) lv <= joint_crit b lv r.
Proof.
  intros S Hn Ht Hl. unfold joint_crit, dim. rewrite S. cbn [nth]. apply quantile_mono_list; [lra|apply map_seq_nonempty; exact Hn|].
  apply map_seq_Forall2. intros k _. apply (maxf_ge nt (fun t => Rabs (at_ b [k; t; r]))). exact Ht.
Qed.

(** ** Bootstrap *)
Lemma bootstrap_inv w f m k g : bootstrap w f m k = Ok g ->
  exists s nb, m = PStr s /\ In s ["Bayes"; "normal"; "wild"]%string /\ is_int k = true /\ (1 <= int_val k)%Z /\ nb = Z.to_nat (int_val k) /\
    fw_cluster f = None /\ g = set_boot f (Some (boot_t f w nb, s, nb)).
Proof.
  unfold bootstrap. intro H. apply bind_ok in H. destruct H as ([s nb] & Hc & H).
  apply require_ok in H. destruct H as [Hcl H]. injection H as <-.
  unfold check_bootstrap in Hc. destruct m; try discriminate. apply require_ok in Hc. destruct Hc as [Hs Hc].
  destruct (is_int k) eqn:Ek; [|discriminate]. apply require_ok in Hc. destruct Hc as [Hk Hc]. injection Hc as <- <-.
  exists s0, (Z.to_nat (int_val k)). split; [reflexivity|]. split.
  - apply existsb_exists in Hs. destruct Hs as (x & Hx & E). apply String.eqb_eq in E. subst. exact Hx.
  - repeat split; auto.
    + apply negb_true_iff, Z.ltb_ge in Hk. lia.
    + destruct (fw_cluster f); [discriminate|reflexivity].
Qed.
Lemma bootstrap_ok w f s k : In s ["Bayes"; "normal"; "wild"]%string -> is_int k = true -> (1 <= int_val k)%Z -> fw_cluster f = None ->
  bootstrap w f (PStr s) k = Ok (set_boot f (Some (boot_t f w (Z.to_nat (int_val k)), s, Z.to_nat (int_val k)))).
Proof.
  intros Hs Hk Hi Hc. unfold bootstrap, check_bootstrap.
  assert (E : existsb (String.eqb s) ["Bayes"; "normal"; "wild"]%string = true).
  { apply existsb_exists. exists s. split; [exact Hs|apply String.eqb_refl]. }
  rewrite E. cbn [require]. rewrite Hk. rewrite (proj2 (Z.ltb_ge (int_val k) 1)) by lia. cbn [negb require bind].
  rewrite Hc. reflexivity.
Qed.
Lemma bootstrap_frame w f m k g : bootstrap w f m k = Ok g ->
  same_but_boot f g /\ fw_boot_wf g /\ exists b s, fw_boot g = Some (b, s, Z.to_nat (int_val k)) /\ m = PStr s /\
    shape b = [Z.to_nat (int_val k); fw_n_thetas f; fw_n_rep f].
Proof.
  intro H. apply bootstrap_inv in H. destruct H as (s & nb & -> & _ & _ & Hk & -> & _ & ->).
  split; [unfold same_but_boot; repeat split; reflexivity|]. split.
  - intros b m0 k0 E. cbn in E. injection E as <- _ _. exists (Z.to_nat (int_val k)). split; [lia|reflexivity].
  - exists (boot_t f w (Z.to_nat (int_val k))), s. auto.
Qed.
Lemma bootstrap_scale w f c fc m k g : 0 < c -> fw_wf f -> fw_vs_pos f ->
  (forall t r, (t < fw_n_thetas f)%nat -> (r < fw_n_rep f)%nat -> 0 < at_ (fw_all_ses f) [t; r]) ->
  fw_mul f (PFloat c) = Ok fc -> bootstrap w f m k = Ok g ->
  exists gc b bc s, bootstrap w fc m k = Ok gc /\ fw_boot g = Some (b, s, Z.to_nat (int_val k)) /\ fw_boot gc = Some (bc, s, Z.to_nat (int_val k)) /\ nd_eq b bc.
Proof.
  intros Hc Hf Hv Hse Hm H. rewrite (fw_mul_ok f (PFloat c) c Hf eq_refl) in Hm. injection Hm as <-.
  apply bootstrap_inv in H. destruct H as (s & nb & -> & Hs & Hki & Hk & -> & Hcl & ->).
  eexists _, _, _, s. split; [apply bootstrap_ok; assumption|]. split; [reflexivity|]. split; [reflexivity|].
  eapply nd_eq3; [reflexivity|reflexivity|]. intros i t r Hi Ht Hr. cbn. apply sumf_ext. intros j Hj. f_equal.
  field. split; [|split]; [|lra|]; apply Rgt_not_eq; [apply Hse; assumption|apply Hv; assumption].
Qed.
Lemma bootstrap_linear f w1 w2 a b m k g1 g2 : bootstrap w1 f m k = Ok g1 -> bootstrap w2 f m k = Ok g2 ->
  exists g b1 b2 bb s, bootstrap (fun r d i => a * w1 r d i + b * w2 r d i) f m k = Ok g /\
    fw_boot g1 = Some (b1, s, Z.to_nat (int_val k)) /\ fw_boot g2 = Some (b2, s, Z.to_nat (int_val k)) /\ fw_boot g = Some (bb, s, Z.to_nat (int_val k)) /\
    forall d t r, at_ bb [d; t; r] = a * at_ b1 [d; t; r] + b * at_ b2 [d; t; r].
Proof.
  intros H1 H2. apply bootstrap_inv in H1. destruct H1 as (s & nb & -> & Hs & Hki & Hk & -> & Hcl & ->).
  rewrite bootstrap_ok in H2 by assumption. injection H2 as <-.
  eexists _, _, _, _, s. split; [apply bootstrap_ok; assumption|]. repeat (split; [reflexivity|]).
  intros d t r. cbn. rewrite <- !sumf_scal, <- sumf_plus. apply sumf_ext. intros. lra.
Qed.
Lemma bootstrap_rejects w f m k : is_ok (bootstrap w f m k) = true <->
  (exists s, m = PStr s /\ In s ["Bayes"; "normal"; "wild"]%string) /\ is_int k = true /\ (1 <= int_val k)%Z /\ fw_cluster f = None.
Proof.
  split.
  - destruct (bootstrap w f m k) as [g|] eqn:E; [|discriminate]. intros _. apply bootstrap_inv in E.
    destruct E as (s & nb & -> & Hs & Hki & Hk & -> & Hcl & _). repeat split; auto. exists s; auto.
  - intros ((s & -> & Hs) & Hk & Hi & Hc). rewrite bootstrap_ok; auto.
Qed.

(** ** Romano-Wolf *)
Lemma index_of_lt k l : In k l -> (index_of k l < length l)%nat.
Proof. induction l as [|x l IH]; cbn; [intros []|]. destruct (Nat.eqb_spec x k); [lia|]. intros [H|H]; [congruence|]. apply IH in H. lia. Qed.
Lemma nth_index_of k l d : In k l -> nth (index_of k l) l d = k.
Proof. induction l as [|x l IH]; cbn; [intros []|]. destruct (Nat.eqb_spec x k); [auto|]. intros [H|H]; [congruence|]. auto. Qed.
Lemma index_of_nth i l d : NoDup l -> (i < length l)%nat -> index_of (nth i l d) l = i.
Proof.
  intro H. revert i. induction H as [|x l Hx H IH]; intros i Hi; cbn in Hi; [lia|]. destruct i; cbn.
  - rewrite Nat.eqb_refl. reflexivity.
  - destruct (Nat.eqb_spec x (nth i l d)) as [E|E]; [|rewrite IH by lia; reflexivity].
    exfalso. apply Hx. rewrite E. apply nth_In. lia.
Qed.
Lemma in_firstn_index k i l : NoDup l -> In k l -> (In k (firstn i l) <-> (index_of k l < i)%nat).
Proof.
  intros Hn Hk. revert i. induction Hn as [|x l Hx Hn IH]; intros i; [destruct Hk|]. destruct i; cbn [firstn In].
  - split; [intros []|lia].
  - cbn. destruct (Nat.eqb_spec x k) as [->|E]; [split; [lia|auto]|].
    destruct Hk as [->|Hk]; [congruence|]. rewrite IH by exact Hk. split; [intros [H|H]; [congruence|lia]|intro; right; lia].
Qed.
Lemma nmem_iff k l : nmem k l = true <-> In k l.
Proof.
  unfold nmem. rewrite existsb_exists. split; [intros (x & Hx & E); apply Nat.eqb_eq in E; congruence|].
  intro H. exists k. split; [exact H|apply Nat.eqb_refl].
Qed.

Lemma running_max_spec l : forall prev, length (running_max prev l) = length l /\
  forall i, (i < length l)%nat ->
    prev <= nth i (running_max prev l) 0 /\
    (forall j, (j <= i)%nat -> nth j l 0 <= nth i (running_max prev l) 0) /\
    (nth i (running_max prev l) 0 = prev \/ exists j, (j <= i)%nat /\ nth i (running_max prev l) 0 = nth j l 0).
Proof.
  induction l as [|x l IH]; intro prev; cbn; [split; [reflexivity|intros; lia]|].
  destruct (IH (Rmax x prev)) as [A B]. split; [lia|]. pose proof (Rmax_l x prev). pose proof (Rmax_r x prev).
  intros [|i] Hi.
  - split; [lra|]. split; [intros j Hj; replace j with 0%nat by lia; exact H|].
    unfold Rmax. destruct (Rle_dec x prev); [left; reflexivity|right; exists 0%nat; auto].
  - destruct (B i) as (B1 & B2 & B3); [lia|]. split; [lra|]. split.
    + intros [|j] Hj; [lra|apply B2; lia].
    + destruct B3 as [E|(j & Hj & E)]; [|right; exists (S j); split; [lia|exact E]].
      rewrite E. unfold Rmax. destruct (Rle_dec x prev); [left; reflexivity|right; exists 0%nat; split; [lia|reflexivity]].
Qed.
Lemma stepdown_max_spec l : length (stepdown_max l) = length l /\
  forall i, (i < length l)%nat ->
    (forall j, (j <= i)%nat -> nth j l 0 <= nth i (stepdown_max l) 0) /\
    exists j, (j <= i)%nat /\ nth i (stepdown_max l) 0 = nth j l 0.
Proof.
  destruct l as [|x l]; cbn [stepdown_max length]; [split; [reflexivity|intros; lia]|].
  destruct (running_max_spec l x) as [A B]. split; [cbn; lia|]. intros [|i] Hi.
  - split; [intros j Hj; replace j with 0%nat by lia; cbn; lra|exists 0%nat; auto].
  - destruct (B i) as (B1 & B2 & B3); [lia|]. split.
    + intros [|j] Hj; cbn; [exact B1|apply B2; lia].
    + destruct B3 as [E|(j & Hj & E)]; [exists 0%nat; split; [lia|exact E]|exists (S j); split; [lia|exact E]].
Qed.
Lemma stepdown_max_mono l i j : (i <= j)%nat -> (j < length l)%nat -> nth i (stepdown_max l) 0 <= nth j (stepdown_max l) 0.
Proof.
  intros Hij Hj. destruct (stepdown_max_spec l) as [_ B]. destruct (B i) as (_ & k & Hk & ->); [lia|].
  destruct (B j Hj) as [C _]. apply C. lia.
Qed.

Section RW.
  Context (argsort : list R -> list nat) (Has : argsort_ok argsort) (n nb : nat) (boot : nat -> nat -> R) (abs_t : nat -> R).
  Let sd := rev (argsort (map abs_t (seq 0 n))).
  Let pos t := index_of t sd.
  Lemma sd_perm : Permutation sd (seq 0 n).
  Proof.
    unfold sd. destruct (Has (map abs_t (seq 0 n))) as [H _]. rewrite map_length, seq_length in H.
    eapply Permutation_trans; [|exact H]. apply Permutation_sym, Permutation_rev.
  Qed.
  Lemma sd_len : length sd = n.
  Proof. rewrite (Permutation_length sd_perm), seq_length. reflexivity. Qed.
  Lemma sd_nodup : NoDup sd.
  Proof. apply (Permutation_NoDup (Permutation_sym sd_perm)), seq_NoDup. Qed.
  Lemma sd_in t : In t sd <-> (t < n)%nat.
  Proof. split; intro H; [apply (Permutation_in _ sd_perm), in_seq in H; lia|apply (Permutation_in _ (Permutation_sym sd_perm)), in_seq; lia]. Qed.
  Lemma pos_lt t : (t < n)%nat -> (pos t < n)%nat.
  Proof. intro H. unfold pos. rewrite <- sd_len at 1. apply index_of_lt, sd_in, H. Qed.
  Lemma sd_pos t : (t < n)%nat -> nth (pos t) sd 0%nat = t.
  Proof. intro H. apply nth_index_of, sd_in, H. Qed.
  Lemma pos_sd i : (i < n)%nat -> pos (nth i sd 0%nat) = i.
  Proof. intro H. apply index_of_nth; [apply sd_nodup|rewrite sd_len; exact H]. Qed.
  Lemma sd_bound i : (i < n)%nat -> (nth i sd 0 < n)%nat.
  Proof. intro H. apply sd_in, nth_In. rewrite sd_len. exact H. Qed.
  Lemma nth_abs t : (t < n)%nat -> nth t (map abs_t (seq 0 n)) 0 = abs_t t.
  Proof. intro H. rewrite (nth_indep _ 0 (abs_t 0%nat)) by (rewrite map_length, seq_length; exact H). rewrite map_nth, seq_nth by exact H. reflexivity. Qed.
  Lemma sd_desc i j : (i <= j)%nat -> (j < n)%nat -> abs_t (nth j sd 0%nat) <= abs_t (nth i sd 0%nat).
  Proof.
    intros Hij Hj. pose proof (sd_bound i ltac:(lia)) as Hbi. pose proof (sd_bound j Hj) as Hbj.
    assert (La : length (argsort (map abs_t (seq 0 n))) = n).
    { rewrite <- rev_length. apply sd_len. }
    unfold sd in *. rewrite !rev_nth in * by lia. rewrite La in *.
    destruct (Has (map abs_t (seq 0 n))) as [_ H]. specialize (H (n - S j) (n - S i))%nat.
    rewrite map_length, seq_length in H. rewrite !nth_abs in H by assumption. apply H; lia.
  Qed.
  Lemma pos_order a b : (a < n)%nat -> (b < n)%nat -> abs_t b < abs_t a -> (pos a < pos b)%nat.
  Proof.
    intros Ha Hb H. destruct (Nat.lt_ge_cases (pos a) (pos b)) as [L|L]; [exact L|].
    pose proof (sd_desc (pos b) (pos a) L (pos_lt a Ha)) as D. rewrite !sd_pos in D by assumption. lra.
  Qed.

  Let p_init := map (rw_init n nb boot abs_t sd) (seq 0 n).
  Lemma p_init_len : length p_init = n.
  Proof. unfold p_init. rewrite map_length, seq_length. reflexivity. Qed.
  Lemma p_init_nth i : (i < n)%nat -> nth i p_init 0 = rw_init n nb boot abs_t sd i.
  Proof.
    intro H. unfold p_init. rewrite (nth_indep _ 0 (rw_init n nb boot abs_t sd 0)) by (rewrite map_length, seq_length; exact H).
    rewrite map_nth, seq_nth by exact H. reflexivity.
  Qed.
  Definition rw := rw_rep argsort n nb boot abs_t.
  Lemma rw_len : length rw = n.
  Proof. unfold rw, rw_rep, argsort_perm. rewrite !map_length, seq_length. apply sd_len. Qed.
  Lemma rw_nth t : (t < n)%nat -> nth t rw 0 = nth (pos t) (stepdown_max p_init) 0.
  Proof.
    intro H. unfold rw, rw_rep, argsort_perm. fold sd. fold p_init. rewrite map_map.
    rewrite (nth_indep _ 0 (nth (index_of 0%nat sd) (stepdown_max p_init) 0)) by (rewrite map_length, seq_length, sd_len; exact H).
    rewrite (map_nth (fun k => nth (index_of k sd) (stepdown_max p_init) 0)), seq_nth by (rewrite sd_len; exact H). reflexivity.
  Qed.
  Lemma rw_init_range i : 0 <= rw_init n nb boot abs_t sd i <= 1.
  Proof.
    unfold rw_init. pose proof (rshare_range (fun b => rleb (abs_t (nth i sd 0%nat)) (rw_crit n boot sd i b)) (seq 0 nb)).
    rewrite Rmin_right by lra. lra.
  Qed.
  Lemma rw_range t : (t < n)%nat -> 0 <= nth t rw 0 <= 1.
  Proof.
    intro H. rewrite rw_nth by exact H. destruct (stepdown_max_spec p_init) as [_ B].
    destruct (B (pos t)) as (_ & j & Hj & ->); [rewrite p_init_len; apply pos_lt; exact H|].
    pose proof (pos_lt t H). rewrite p_init_nth by lia. apply rw_init_range.
  Qed.
  Lemma rw_order a b : (a < n)%nat -> (b < n)%nat -> abs_t b < abs_t a -> nth a rw 0 <= nth b rw 0.
  Proof.
    intros Ha Hb H. rewrite !rw_nth by assumption. pose proof (pos_order a b Ha Hb H). apply stepdown_max_mono; [lia|].
    rewrite p_init_len. apply pos_lt, Hb.
  Qed.
  Lemma rw_crit_ge i b u : (u < n)%nat -> (i <= pos u)%nat -> Rabs (boot b u) <= rw_crit n boot sd i b.
  Proof.
    intros Hu Hp. unfold rw_crit, lmax. apply lmax_ge. apply in_map_iff. exists u. split; [reflexivity|].
    apply filter_In. split; [apply in_seq; lia|]. apply negb_true_iff. apply not_true_iff_false. intro H. apply nmem_iff in H.
    apply in_firstn_index in H; [|apply sd_nodup|apply sd_in; exact Hu]. fold (pos u) in H. lia.
  Qed.
  Lemma rw_crit_in i b : (i < n)%nat -> exists u, (u < n)%nat /\ (i <= pos u)%nat /\ rw_crit n boot sd i b = Rabs (boot b u).
  Proof.
    intro Hi. unfold rw_crit, lmax.
    assert (Hne : map (fun t => Rabs (boot b t)) (filter (fun t => negb (nmem t (firstn i sd))) (seq 0 n)) <> []).
    { intro E. apply map_eq_nil in E. assert (X : In (nth i sd 0%nat) (filter (fun t => negb (nmem t (firstn i sd))) (seq 0 n))).
      { apply filter_In. split; [apply in_seq; pose proof (sd_bound i Hi); lia|]. apply negb_true_iff, not_true_iff_false. intro H. apply nmem_iff in H.
        apply in_firstn_index in H; [|apply sd_nodup|apply sd_in, sd_bound, Hi]. fold (pos (nth i sd 0%nat)) in H. rewrite pos_sd in H by exact Hi. lia. }
      rewrite E in X. destruct X. }
    apply lmax_in in Hne. apply in_map_iff in Hne. destruct Hne as (u & Eu & Hu). apply filter_In in Hu. destruct Hu as [Hu1 Hu2].
    apply in_seq in Hu1. exists u. split; [lia|]. split; [|symmetry; exact Eu].
    destruct (Nat.lt_ge_cases (pos u) i) as [L|L]; [|exact L]. exfalso.
    apply negb_true_iff in Hu2. rewrite (proj2 (nmem_iff u (firstn i sd))) in Hu2; [discriminate|].
    apply in_firstn_index; [apply sd_nodup|apply sd_in; lia|exact L].
  Qed.
  Lemma rw_ge_unadjusted t : (t < n)%nat -> rshare (fun b => rleb (abs_t t) (Rabs (boot b t))) (seq 0 nb) <= nth t rw 0.
  Proof.
    intro H. rewrite rw_nth by exact H. destruct (stepdown_max_spec p_init) as [_ B].
    destruct (B (pos t)) as [C _]; [rewrite p_init_len; apply pos_lt; exact H|].
    eapply Rle_trans; [|apply (C (pos t)); lia]. rewrite p_init_nth by (apply pos_lt; exact H).
    unfold rw_init. rewrite sd_pos by exact H. apply Rmin_glb; [apply rshare_range|].
    apply rshare_mono. intros b _ Hb. apply rleb_true in Hb. apply rleb_true. eapply Rle_trans; [exact Hb|]. apply rw_crit_ge; [exact H|lia].
  Qed.
  (** Exact value when the |t|-statistics are pairwise different. *)
  Hypothesis Hd : forall a b, (a < n)%nat -> (b < n)%nat -> abs_t a = abs_t b -> a = b.
  Lemma pos_iff a b : (a < n)%nat -> (b < n)%nat -> ((pos a <= pos b)%nat <-> abs_t b <= abs_t a).
  Proof.
    intros Ha Hb. split; intro H.
    - apply Rnot_lt_le. intro L. apply pos_order in L; try assumption. lia.
    - destruct (Rle_lt_or_eq_dec _ _ H) as [L|E]; [apply pos_order in L; try assumption; lia|].
      rewrite (Hd b a Hb Ha E). lia.
  Qed.
  Lemma rw_init_raw s : (s < n)%nat -> rw_init n nb boot abs_t sd (pos s) = rw_raw n nb boot abs_t s.
  Proof.
    intro H. unfold rw_init, rw_raw. rewrite Rmin_right by apply rshare_range. rewrite sd_pos by exact H.
    apply rshare_ext. intros b _. apply eq_true_iff_eq. rewrite rleb_true, existsb_exists. split.
    - intro X. destruct (rw_crit_in (pos s) b (pos_lt s H)) as (u & Hu & Hp & E). rewrite E in X.
      exists u. split; [apply in_seq; lia|]. apply andb_true_intro. split; apply rleb_true; [apply (pos_iff s u); assumption|exact X].
    - intros (u & Hu & X). apply in_seq in Hu. apply andb_prop in X. destruct X as [X1 X2]. apply rleb_true in X1. apply rleb_true in X2.
      eapply Rle_trans; [exact X2|]. apply rw_crit_ge; [lia|]. apply (pos_iff s u); [exact H|lia|exact X1].
  Qed.
  Lemma rw_exact t : (t < n)%nat ->
    (forall s, (s < n)%nat -> abs_t t <= abs_t s -> rw_raw n nb boot abs_t s <= nth t rw 0) /\
    (exists s, (s < n)%nat /\ abs_t t <= abs_t s /\ nth t rw 0 = rw_raw n nb boot abs_t s).
  Proof.
    intro H. rewrite rw_nth by exact H. destruct (stepdown_max_spec p_init) as [_ B].
    destruct (B (pos t)) as [C (j & Hj & E)]; [rewrite p_init_len; apply pos_lt; exact H|]. pose proof (pos_lt t H) as Hpt. split.
    - intros s Hs Hts. apply (pos_iff s t Hs H) in Hts. specialize (C (pos s) Hts). rewrite p_init_nth in C by (apply pos_lt; exact Hs).
      rewrite rw_init_raw in C by exact Hs. exact C.
    - exists (nth j sd 0%nat). assert (Hj' : (j < n)%nat) by lia. pose proof (sd_bound j Hj') as Hb. split; [exact Hb|]. split.
      + apply (pos_iff (nth j sd 0%nat) t Hb H). rewrite pos_sd by exact Hj'. exact Hj.
      + rewrite E, p_init_nth by exact Hj'. rewrite <- rw_init_raw by exact Hb. rewrite pos_sd by exact Hj'. reflexivity.
  Qed.
End RW.

Lemma map_res_ok {A B} (g : A -> result B) l ys : map_res g l = Ok ys -> Forall2 (fun x y => g x = Ok y) l ys.
Proof.
  revert ys. induction l as [|x l IH]; cbn; intros ys H; [injection H as <-; constructor|].
  apply bind_ok in H. destruct H as (y & Hy & H). apply bind_ok in H. destruct H as (ys' & Hys & H). injection H as <-. constructor; auto.
Qed.
Lemma map_res_seq {B} (g : nat -> result B) n ys r d : map_res g (seq 0 n) = Ok ys -> (r < n)%nat -> g r = Ok (nth r ys d) /\ length ys = n.
Proof.
  intros H Hr. apply map_res_ok in H. assert (L := Forall2_len _ _ _ H). rewrite seq_length in L. split; [|auto].
  assert (G : forall s k m zs, Forall2 (fun x y => g x = Ok y) (seq s m) zs -> (k < m)%nat -> g (s + k)%nat = Ok (nth k zs d)).
  { intros s k m. revert s k. induction m as [|m IH]; intros s k zs F Hk; [lia|]. cbn in F. inversion F; subst. destruct k; cbn.
    - rewrite Nat.add_0_r. assumption.
    - rewrite <- Nat.add_succ_comm. apply IH; [assumption|lia]. }
  apply (G 0%nat r n ys H Hr).
Qed.

Lemma map_res_total {A B} (g : A -> result B) l : (forall x, exists y, g x = Ok y) -> exists ys, map_res g l = Ok ys.
Proof.
  intro H. induction l as [|x l [ys IH]]; cbn; [eexists; reflexivity|]. destruct (H x) as [y ->]. rewrite IH. cbn. eexists; reflexivity.
Qed.

(** [p_adjust] with the Romano-Wolf method. *)
Lemma p_adjust_rw cdf argsort mt f m p all : p_adjust cdf argsort mt f (PStr m) true = Ok (p, all) ->
  (0 < fw_n_rep f)%nat ->
  exists b s k, fw_boot f = Some (b, s, k) /\ shape p = [fw_n_thetas f] /\ shape all = [fw_n_thetas f; fw_n_rep f] /\
    (forall t, at_ p [t] = medianf (fw_n_rep f) (fun r => at_ all [t; r])) /\
    forall t r, (r < fw_n_rep f)%nat -> at_ all [t; r] =
       nth t (rw argsort (fw_n_thetas f) (dim 0 b) (fun d t => at_ b [d; t; r]) (fun t => Rabs (at_ (fw_all_thetas f) [t; r] / at_ (fw_all_ses f) [t; r]))) 0.
Proof.
  unfold p_adjust. intros H Hr. apply bind_ok in H. destruct H as (ys & Hys & H). injection H as <- <-.
  destruct (fw_boot f) as [[[b s] k]|] eqn:Eb.
  2:{ destruct (map_res_seq _ _ _ 0%nat [] Hys Hr) as [X _]. discriminate. }
  exists b, s, k. repeat (split; [reflexivity|]). intros t r Hlr. cbn.
  destruct (map_res_seq _ _ _ r [] Hys Hlr) as [X _]. injection X as X. rewrite <- X. reflexivity.
Qed.
Lemma p_adjust_refused cdf argsort mt f m : (0 < fw_n_rep f)%nat -> fw_boot f = None -> p_adjust cdf argsort mt f (PStr m) true = Err ValueError.
Proof. intros Hr Hb. unfold p_adjust. rewrite Hb. destruct (fw_n_rep f); [lia|]. reflexivity. Qed.
Lemma p_adjust_total cdf argsort mt f m b s k : fw_boot f = Some (b, s, k) -> exists p all, p_adjust cdf argsort mt f (PStr m) true = Ok (p, all).
Proof.
  intro H. unfold p_adjust. rewrite H.
  match goal with |- context [map_res ?g ?l] => destruct (map_res_total g l) as [ys E]; [intro; eexists; reflexivity|] end.
  rewrite E. cbn. eexists _, _. reflexivity.
Qed.

(** ** p-values *)
Lemma sym_zero cdf : cdf_symmetric cdf -> cdf 0 = 1 / 2.
Proof. intro H. specialize (H 0). rewrite Ropp_0 in H. lra. Qed.
Lemma pval_ci_dual cdf ppf f lv ci t : cdf_strict cdf -> cdf_symmetric cdf -> cdf_inverse cdf ppf -> fw_n_rep f = 1%nat ->
  0 < at_ (fw_all_ses f) [t; 0%nat] -> confint ppf f (PBool false) (PFloat lv) = Ok ci ->
  at_ (fw_pvals cdf f) [t] < 1 - lv <-> (0 < at_ ci [t; 0%nat] \/ at_ ci [t; 1%nat] < 0).
Proof.
  intros Hs Hy Hi Hr Hse H. apply confint_inv in H. destruct H as (Hl & _ & _ & A & B). rewrite A, B, Hr, !medianf_one.
  cbn [fw_pvals mk1 at_ nth]. rewrite Hr, medianf_one. cbn [fw_all_pvals fw_all_t_stats nd_map nd_map2 at_]. unfold ci_crit.
  set (th := at_ (fw_all_thetas f) [t; 0%nat]). set (se := at_ (fw_all_ses f) [t; 0%nat]) in *. set (c := ppf (1 - (1 - lv) / 2)).
  assert (Hc : cdf c = 1 - (1 - lv) / 2) by (apply Hi; lra).
  assert (Hc0 : 0 < c). { apply Rnot_le_lt. pose proof (sym_zero cdf Hy). intros [L|L]; [apply Hs in L; lra|rewrite L in Hc; lra]. }
  assert (E : 2 * (1 - cdf (Rabs (th / se))) < 1 - lv <-> c < Rabs (th / se)).
  { split; intro X.
    - apply Rnot_le_lt. intros [L|L]; [apply Hs in L; lra|rewrite <- L in Hc; lra].
    - apply Hs in X. lra. }
  rewrite E. assert (Ea : Rabs (th / se) = Rabs th / se).
  { unfold Rdiv. rewrite Rabs_mult, (Rabs_pos_eq (/ se)); [reflexivity|]. left. apply Rinv_0_lt_compat. exact Hse. }
  rewrite Ea. assert (F : c < Rabs th / se <-> se * c < Rabs th).
  { split; intro X.
    - apply (Rmult_lt_compat_l se) in X; [|exact Hse]. replace (se * (Rabs th / se)) with (Rabs th) in X by (field; lra). exact X.
    - apply (Rmult_lt_reg_l se); [exact Hse|]. replace (se * (Rabs th / se)) with (Rabs th) by (field; lra). exact X. }
  rewrite F. assert (0 < se * c) by (apply Rmult_lt_0_compat; assumption).
  unfold Rabs. destruct (Rcase_abs th); split; intro X; lra.
Qed.
Lemma sqrt_sq_nonneg x : 0 <= x -> sqrt (x ^ 2) = x.
Proof. intro H. replace (x ^ 2) with (x * x) by ring. apply sqrt_square. exact H. Qed.
Lemma aggregated_one f t : fw_n_rep f = 1%nat -> fw_aggregated f -> (t < fw_n_thetas f)%nat -> fw_ses_nonneg f ->
  at_ (fw_thetas f) [t] = at_ (fw_all_thetas f) [t; 0%nat] /\ at_ (fw_ses f) [t] = at_ (fw_all_ses f) [t; 0%nat].
Proof.
  intros Hr Ha Ht Hs. destruct (Ha t Ht) as [E1 E2]. rewrite Hr, medianf_one in E1, E2. split; [exact E1|].
  rewrite E2, E1. replace (_ + _ / _) with (at_ (fw_all_ses f) [t; 0%nat] ^ 2) by (unfold Rdiv; ring).
  apply sqrt_sq_nonneg, Hs; lia.
Qed.
Lemma pval_model_eq cdf f t : cdf_symmetric cdf -> fw_n_rep f = 1%nat -> fw_aggregated f -> (t < fw_n_thetas f)%nat ->
  fw_ses_nonneg f ->
  at_ (fw_pvals cdf f) [t] = model_pval cdf (at_ (fw_thetas f) [t]) (at_ (fw_ses f) [t]).
Proof.
  intros Hy Hr Ha Ht Hs. destruct (aggregated_one f t Hr Ha Ht Hs) as [-> ->].
  cbn [fw_pvals mk1 at_ nth]. rewrite Hr, medianf_one. cbn [fw_all_pvals fw_all_t_stats nd_map nd_map2 at_].
  unfold model_pval, model_t_stat. rewrite Hy. reflexivity.
Qed.
Lemma medianf_two (g : nat -> R) : medianf 2 g = (g 0%nat + g 1%nat) / 2.
Proof. unfold medianf, median. cbn. destruct (Rle_dec (g 0%nat) (g 1%nat)); cbn; lra. Qed.

(** The p-value of a two-repetition framework with estimates -1 and 1. *)
Definition two_rep : framework :=
  {| fw_n_obs := 1; fw_n_thetas := 1; fw_n_rep := 2;
     fw_thetas := mk1 1 (fun _ => 0); fw_ses := mk1 1 (fun _ => sqrt 2);
     fw_all_thetas := mk2 1 2 (fun _ r => if Nat.eqb r 0 then -1 else 1); fw_all_ses := mk2 1 2 (fun _ _ => 1);
     fw_vs := mk1 1 (fun _ => 1); fw_scaled_psi := mk3 1 1 2 (fun _ _ _ => 1);
     fw_cluster := None; fw_sens := None; fw_names := None; fw_boot := None; fw_sens_params := None |}.
Lemma two_rep_wf : fw_wf two_rep /\ fw_aggregated two_rep /\ fw_ses_from_scores two_rep.
Proof.
  split; [|split].
  - constructor; cbn; auto; discriminate.
  - intros t Ht. cbn in Ht. cbn [two_rep fw_thetas fw_ses fw_n_rep fw_all_thetas fw_all_ses fw_vs mk1 mk2 at_ nth].
    rewrite !medianf_two. cbn. split; [lra|]. f_equal. field.
  - intros t r Ht Hr. cbn. unfold meanf, sumf. cbn. replace ((1 * (1 * 1) + 0) / 1) with 1 by field.
    rewrite <- sqrt_1 at 1; f_equal; field.
Qed.
Lemma two_rep_pval cdf : cdf_strict cdf -> cdf_symmetric cdf ->
  at_ (fw_pvals cdf two_rep) [0%nat] < model_pval cdf (at_ (fw_thetas two_rep) [0%nat]) (at_ (fw_ses two_rep) [0%nat]).
Proof.
  intros Hs Hy. cbn [fw_pvals mk1 at_ nth two_rep fw_n_rep]. rewrite medianf_two. cbn.
  unfold model_pval, model_t_stat. cbn [two_rep fw_thetas fw_ses mk1 at_].
  replace (0 / sqrt 2) with 0 by (unfold Rdiv; ring). rewrite Rabs_R0, Ropp_0.
  replace (-1 / 1) with (-1) by field. replace (1 / 1) with 1 by field. rewrite Rabs_R1.
  replace (Rabs (-1)) with 1 by (unfold Rabs; destruct (Rcase_abs (-1)); lra). pose proof (Hs 0 1 ltac:(lra)). pose proof (sym_zero cdf Hy). lra.
Qed.

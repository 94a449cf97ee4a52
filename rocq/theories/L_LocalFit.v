(** Complete fits of the quantile models. *)
From Verif Require Import S_Local L_Sum L_Quantile L_QScore L_QNested L_Order L_CrossFit L_CrossProps L_Estimation L_Framework L_Local.
From Coq Require Import Lra Lia FunctionalExtensionality.
Local Open Scope R_scope.
Local Open Scope res_scope.
Local Open Scope string_scope.

(** ** Root search without warning *)
Lemma nl_crosses sv tol fuel n psi psi_d start lo hi theta : lo <= start <= hi -> fmin_ok sv -> brentq_near sv tol ->
  nl_est_coef sv fuel n None psi psi_d start (Some (lo, hi)) = Some (theta, false) -> crosses (fun t => meanf n (psi t)) tol theta.
Proof.
  intros Hs Hf Hb H. cbn [nl_est_coef aggregate_obs] in H.
  assert (ST : forall st b seen, lo <= st <= hi -> get_bracket_guess fuel (fun t => meanf n (psi t)) st lo hi = Some (true, b, seen) ->
     crosses (fun t => meanf n (psi t)) tol (sv_brentq sv (fun t => meanf n (psi t)) b)).
  { intros st b seen Hst Hg. destruct (guess_bounds _ _ _ _ _ _ _ _ Hst Hg) as (_ & B2 & _).
    assert (D : signs_differ (fun t => meanf n (psi t)) b = true).
    { clear - Hg. unfold get_bracket_guess in Hg.
      assert (GEN : forall fuel s delta b0 l b seen, (s = true -> signs_differ (fun t => meanf n (psi t)) b0 = true) ->
        bracket_while fuel (fun t => meanf n (psi t)) st lo hi s delta b0 l = Some (true, b, seen) -> signs_differ (fun t => meanf n (psi t)) b = true).
      { clear. induction fuel as [|fuel IH]; intros s delta b0 l b seen Hs H; [discriminate|]. cbn [bracket_while] in H.
        destruct s; cbn [negb andb] in H; [injection H as <- <-; auto|]. destruct (rleb delta 1); [|discriminate]. eapply IH; [|exact H]. auto. }
      eapply GEN; [|exact Hg]. discriminate. }
    apply signs_differ_change in D as (D & _). destruct b as [a b]. cbn [fst snd] in *.
    destruct (Hb (fun t => meanf n (psi t)) a b B2 D) as (a' & b' & _ & Q2 & _ & Q4 & Q5 & Q6). exists a', b'. auto. }
  change (fun theta => meanf n (fun i => psi theta i)) with (fun theta => meanf n (psi theta)) in H.
  destruct (get_bracket_guess fuel _ start lo hi) as [(([|] & b) & seen)|] eqn:B in H; [injection H as <-; eapply ST; eassumption| |discriminate].
  set (alt := sv_fmin sv _ start (lo, hi)) in H.
  assert (Ha : lo <= alt <= hi) by (apply Hf; exact Hs).
  destruct (get_bracket_guess fuel _ alt lo hi) as [(([|] & b') & seen')|] eqn:B' in H; [injection H as <-; eapply ST; eassumption| |discriminate].
  destruct (rltb _ _) in H; discriminate.
Qed.
Lemma crosses_monotone f tol t : (forall a b, a <= b -> f a <= f b) -> crosses f tol t ->
  forall a b, a < t - tol -> t + tol < b -> f a <= 0 <= f b.
Proof.
  intros Hm (a' & b' & L & A & B & S) a b Ha Hb.
  assert (A1 : t - tol <= a' <= t + tol) by (unfold Rabs in A; destruct (Rcase_abs _) in A; lra).
  assert (B1 : t - tol <= b' <= t + tol) by (unfold Rabs in B; destruct (Rcase_abs _) in B; lra).
  pose proof (Hm a a' ltac:(lra)). pose proof (Hm b' b ltac:(lra)). pose proof (Hm a' b' L). nra.
Qed.
Lemma mean_between l lo hi : l <> [] -> (forall v, In v l -> lo <= v <= hi) -> lo <= Rmean l <= hi.
Proof.
  intros Hn H. unfold Rmean. assert (N : 0 < INR (length l)) by (apply lt_0_INR; destruct l; [contradiction|cbn; lia]).
  assert (S : lo * INR (length l) <= Rsum l <= hi * INR (length l)).
  { clear Hn N. induction l as [|a l IH]; [cbn; lra|]. change (length (a :: l)) with (S (length l)). rewrite S_INR. cbn [Rsum].
    destruct IH; [intros v Hv; apply H; now right|]. destruct (H a (or_introl eq_refl)). lra. }
  split; [apply Rmult_le_reg_r with (INR (length l)); [exact N|]|apply Rmult_le_reg_r with (INR (length l)); [exact N|]];
    unfold Rdiv; rewrite Rmult_assoc, Rinv_l by lra; lra.
Qed.
Lemma solved_between o score b lo hi : solver_ok o -> lo <= fst b -> fst b <= snd b -> snd b <= hi -> lo <= qo_solve o score b <= hi.
Proof. intros So A B C. destruct (So score b B) as ((D1 & D2) & _). lra. Qed.

Section Pq.
Context {E X P : Type}.
Variables G M : learner E X P.
Variable o : q_oracles.
Variable x0 : X.
Variable c : @pq_cfg E.
Variables (x : nat -> X) (y d : vec).

Lemma prelim_between start rows mp ipw : solver_ok o -> fst (qc_bounds c) <= start <= snd (qc_bounds c) -> prelim_ipw o c start rows y d mp = Ok ipw ->
  fst (qc_bounds c) <= ipw <= snd (qc_bounds c).
Proof.
  intros So Hs H. unfold prelim_ipw in H. destruct (get_bracket_guess _ _ _ _ _) as [((s & b) & seen)|] eqn:B in H; [|discriminate]. injection H as <-.
  destruct (guess_bounds _ _ _ _ _ _ _ _ Hs B) as (B1 & B2 & B3). apply solved_between; assumption.
Qed.
Lemma pq_start_between start smpls r : solver_ok o -> smpls <> [] -> fst (qc_bounds c) <= start <= snd (qc_bounds c) ->
  pq_nuisance G M o x0 c start x y d smpls = Ok r -> fst (qc_bounds c) <= po_start r <= snd (qc_bounds c).
Proof.
  intros So Hne Hs H. unfold pq_nuisance in H.
  assert (GEN : forall rs, map_res (fun p : nat * fold => pq_fold G M o x0 c start x y d (fst p) (snd p)) (combine (seq 0 (length smpls)) smpls) = Ok rs ->
    fst (qc_bounds c) <= Rmean (map fr_ipw rs) <= snd (qc_bounds c)).
  { intros rs R. destruct (L_QNested.map_res_nth_error _ _ _ R) as (Hlen & N). rewrite combine_length, seq_length, Nat.min_id in Hlen. apply mean_between.
    - destruct rs; [destruct smpls; [contradiction|discriminate]|discriminate].
    - intros v Hv. apply in_map_iff in Hv as (fr & <- & Hfr). apply In_nth_error in Hfr as (k & Hk).
      assert (Hlt : (k < length smpls)%nat) by (rewrite <- Hlen; apply nth_error_Some; congruence).
      destruct (nth_error smpls k) as [h|] eqn:Eh; [|apply nth_error_None in Eh; lia].
      destruct (N k (k, h)) as (fr' & F1 & F2); [apply indexed_nth; exact Eh|]. assert (fr' = fr) by congruence. subst fr'. cbn [fst snd] in F2.
      unfold pq_fold in F2. apply bind_ok in F2 as (mp & P1 & F2). apply bind_ok in F2 as (ipw & P2 & F2). apply bind_ok in F2 as (gp & P3 & F2). apply bind_ok in F2 as (mh & P4 & F2).
      injection F2 as <-. cbn. eapply prelim_between; eassumption. }
  destruct (qc_ext_g c), (qc_ext_m c); [injection H as <-; exact Hs|..]; apply bind_ok in H as (rs & R & H); injection H as <-; cbn [po_start]; apply GEN; exact R.
Qed.

Lemma pq_fit_root sv kde tol start n smpls theta s warn : solver_ok o -> brentq_ok sv -> fmin_ok sv -> brentq_near sv tol ->
  smpls <> [] -> (0 < n)%nat -> qc_n c = n -> (11 <= qc_fuel c)%nat -> binary n d -> 0 < qc_thr c < 1 / 2 -> fst (qc_bounds c) <= start <= snd (qc_bounds c) ->
  pq_fit G M o x0 sv kde c start x y d smpls = Ok (theta, s, warn) ->
  fst (qc_bounds c) <= theta <= snd (qc_bounds c) /\
  exists r, pq_nuisance G M o x0 c start x y d smpls = Ok r /\ s = po_start r /\
    let w := arm_weight n (qc_treated c) (qc_norm c) (qc_thr c) d (val (po_m r)) in
    let q' := qc_q c - meanf n (fun i => (1 - w i) * val (po_g r) i) in
    (warn = false -> forall a b, a < theta - tol -> theta + tol < b -> wshare n w (fun i => rleb (y i) a) <= q' <= wshare n w (fun i => rleb (y i) b)).
Proof.
  intros So Hbo Hf Hb Hne Hn <- Hfu Hd Ht Hs H. unfold pq_fit in H. apply bind_ok in H as (r & R & H).
  pose proof (pq_start_between start smpls r So Hne Hs R) as Hs'.
  destruct (qc_bounds c) as [lo hi] eqn:Eb. cbn [fst snd] in *.
  destruct (nl_est_coef _ _ _ _ _ _ _ _) as [(th & wn)|] eqn:F in H; [|discriminate]. injection H as <- <- <-.
  split.
  - match type of F with nl_est_coef _ ?fu ?n ?cl ?psi ?psid ?st _ = _ => destruct (nl_estimate sv fu n cl psi psid st lo hi) as (th' & w' & Q1 & Q2 & _); [exact Hfu|exact Hs'|exact Hbo|exact Hf|] end.
    rewrite F in Q1. injection Q1 as <- <-. exact Q2.
  - exists r. split; [exact R|]. split; [reflexivity|]. cbv zeta. intros -> a b Ha Hb'.
    apply (nl_crosses sv tol) in F; [|exact Hs'|exact Hf|exact Hb].
    assert (MO : forall a b, a <= b -> pq_moment (qc_n c) (qc_treated c) (qc_norm c) (qc_thr c) (qc_q c) y d (val (po_g r)) (val (po_m r)) a <= pq_moment (qc_n c) (qc_treated c) (qc_norm c) (qc_thr c) (qc_q c) y d (val (po_g r)) (val (po_m r)) b).
    { intros a' b' L. apply pq_monotone; assumption. }
    pose proof (crosses_monotone _ tol th MO F a b Ha Hb') as (C1 & C2). rewrite !pq_decomp in * by exact Hn. lra.
Qed.

(** The CVaR estimate: weighted tail mean at the average preliminary quantile,
    plus the correction by the outcome predictions. *)
Lemma cvar_fit_tail start n smpls theta s : (0 < n)%nat -> qc_n c = n -> cvar_fit G M o x0 c start x y d smpls = Ok (theta, s) ->
  s = start /\ exists r, pq_nuisance G M o x0 c start x y d smpls = Ok r /\
    let w := arm_weight n (qc_treated c) (qc_norm c) (qc_thr c) d (val (po_m r)) in
    theta = tail_mean n w y (qc_q c) (Rmean (po_ipw r)) + meanf n (fun i => (1 - w i) * val (po_g r) i).
Proof.
  intros Hn <- H. unfold cvar_fit in H. apply bind_ok in H as (r & R & H). injection H as <- <-. split; [reflexivity|]. exists r. split; [exact R|]. cbv zeta.
  apply (cvar_est (qc_n c) (qc_treated c) (qc_norm c) (qc_thr c) (qc_q c) y d (val (po_g r)) (val (po_m r)) (Rmean (po_ipw r)) Hn).
Qed.
End Pq.

(** ** Targets *)
Lemma put_skip_targets lab i : forall fs ts w, (forall h, In h fs -> ~ In i (snd h)) -> put_targets fs ts lab w i = w i.
Proof.
  induction fs as [|h fs IH]; intros ts w H; [reflexivity|]. destruct ts as [|t ts]; [reflexivity|]. cbn [put_targets]. rewrite IH by (intros h' Hh'; apply H; now right). apply scatter_skip, H. now left.
Qed.
Lemma put_targets_at lab i : forall fs ts w k h t, tested_in fs i k h -> NoDup (snd h) -> nth_error ts k = Some t -> put_targets fs ts lab w i = Some (lab t i).
Proof.
  induction fs as [|h0 fs IH]; intros ts w k h t (T1 & T2 & T3) Nd Ht; [destruct k; discriminate|]. destruct ts as [|t0 ts]; [destruct k; discriminate|]. cbn [put_targets].
  destruct k as [|k]; cbn in T1, Ht.
  - injection T1 as <-. injection Ht as <-. rewrite put_skip_targets.
    + rewrite scatter_spec by (try assumption; apply map_length). destruct (in_dec Nat.eq_dec i (snd h0)); [|contradiction]. apply map_nth_error, position_error, T2.
    + intros h' Hh' Hi. apply In_nth_error in Hh' as (k' & Hk'). specialize (T3 (S k') h' Hk' Hi). discriminate.
  - apply (IH ts _ k h t); try assumption. split; [exact T1|]. split; [exact T2|]. intros k' h' Hk' Hi. specialize (T3 (S k') h' Hk' Hi). congruence.
Qed.
Lemma pq_targets_at {E} (c : @pq_cfg E) y d n smpls ipws i k h t : partition_of n smpls -> qc_ext_g c = None -> tested_in smpls i k h -> nth_error ipws k = Some t ->
  (d i = level (qc_treated c) -> pq_g_targets c y d smpls ipws i = Some (if qc_cvar c then Rmax t ((y i - qc_q c * t) / (1 - qc_q c)) else if Rle_dec (y i) t then 1 else 0)) /\
  (d i <> level (qc_treated c) -> pq_g_targets c y d smpls ipws i = None).
Proof.
  intros Hp He T Ht. unfold pq_g_targets, cond_targets. rewrite He. unfold reqb. split; intro Hd; destruct (Req_EM_T _ _); try contradiction; [|reflexivity].
  rewrite (put_targets_at _ i smpls ipws _ k h t T (partition_nodup _ _ _ _ Hp (proj1 T)) Ht). unfold g_label, cvar_target, rleb. destruct (qc_cvar c); [reflexivity|]. destruct (Rle_dec (y i) t); reflexivity.
Qed.

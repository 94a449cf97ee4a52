(** Concrete histories. *)
From Verif Require Export L_ModelHist L_Inference.
Local Open Scope R_scope.
Local Open Scope string_scope.

Section Obj.
Context {P : Type}.
Variable C : ctx P.

(** A refit writes into the arrays of the framework of the previous fit. *)
Definition keeps_arrays (o : op P) : bool := match o with ODraw _ _ | OParams _ _ _ => true | _ => false end.
Lemma keeps_op o w : keeps_arrays o = true -> let w' := fst (run_op C o w) in
  w_heap w' = w_heap w /\ w_fws w' = w_fws w /\ m_fw (w_obj w') = m_fw (w_obj w) /\ m_all_coef (w_obj w') = m_all_coef (w_obj w) /\ m_all_se (w_obj w') = m_all_se (w_obj w) /\
  m_coef (w_obj w') = m_coef (w_obj w) /\ m_preds (w_obj w') = m_preds (w_obj w) /\ m_targets (w_obj w') = m_targets (w_obj w).
Proof.
  intro H. destruct o as [nj st ext sm|g perm|s sc|l t v|wt mt nb|ppf mi a b c d e]; cbn [run_op keeps_arrays] in *; try discriminate; cbv zeta.
  - destruct (draw_inv C g perm w) as [(sm & sc & E & _)|(e & E)]; rewrite E; repeat split.
  - destruct (params_inv C l t v w) as [(ps & E & _)|(e & E & _)]; rewrite E; repeat split.
Qed.
Lemma refit_shares w nj st ext sm w1 o nj' st' ext' sm' w3 : c_dcols C <> [] -> reachable C w -> fit C nj st ext sm w = (w1, Ok tt) -> keeps_arrays o = true ->
  fit C nj' st' ext' sm' (fst (run_op C o w1)) = (w3, Ok tt) ->
  exists k f1 f1' f3, current_fw w1 f1 /\ fw_reports w1 k f1 /\ fw_reports w3 k f1' /\ current_fw w3 f3 /\ fw_all_thetas f1' = fw_all_thetas f3 /\ fw_all_ses f1' = fw_all_ses f3.
Proof.
  intros Hd R H1 Ho H3. assert (R1 : reachable C w1). { pose proof (reachable_op C w (OFit nj st ext sm) R) as X. cbn [run_op] in X. rewrite H1 in X. exact X. }
  assert (R2 : reachable C (fst (run_op C o w1))) by (apply reachable_op; exact R1). apply dcols_pos in Hd. apply reachable_wf in R, R1, R2.
  destruct (keeps_op o w1 Ho) as (K1 & K2 & K3 & K4 & K5 & _). set (w2 := fst (run_op C o w1)) in *.
  destruct (fit_inv _ _ _ _ _ _ _ Hd R H1) as (_ & _ & _ & v1 & L1 & E1). destruct (fit_inv _ _ _ _ _ _ _ Hd R2 H3) as (_ & _ & _ & v3 & L3 & E3).
  assert (Fr := li_fr _ _ _ _ _ _ L3).
  destruct (fin_current C v1 Hd) as (k & o1 & A1 & A2 & A3). exists k. eexists. eexists. eexists. rewrite E1. split; [exists k, o1; auto|]. split; [exists o1; split; [exact A2|reflexivity]|].
  assert (Ek : k = length (w_fws v1)) by (cbn in A1; congruence).
  assert (Eo : fo_all_thetas o1 = m_all_coef (w_obj v1) /\ fo_all_ses o1 = m_all_se (w_obj v1)).
  { subst k. cbn [fit_result w_fws] in A2. rewrite nth_error_app2, Nat.sub_diag in A2 by lia. cbn in A2. injection A2 as <-. auto. }
  split; [exists o1; split; [|reflexivity]|].
  - rewrite E3. cbn [fit_result w_fws]. rewrite (fr_fws _ _ _ Fr), K2, E1. rewrite nth_error_app1; [exact A2|]. apply nth_error_Some. congruence.
  - split; [rewrite E3; apply fin_current; exact Hd|]. rewrite E3. cbn [fw_view fw_all_thetas fw_all_ses fin_fw fit_result w_heap]. destruct Eo as [-> ->]. rewrite (fr_mac _ _ _ Fr), (fr_mas _ _ _ Fr), K4, K5, E1. split; reflexivity.
Qed.
Lemma refit_stale w nj ext sm w3 : c_dcols C <> [] -> reachable C w -> fit C nj (PBool false) ext sm w = (w3, Ok tt) ->
  m_preds (w_obj w3) = m_preds (w_obj w) /\ m_targets (w_obj w3) = m_targets (w_obj w).
Proof.
  intros Hd R H. apply dcols_pos in Hd. apply reachable_wf in R. destruct (fit_inv _ _ _ _ _ _ _ Hd R H) as (_ & _ & _ & v3 & L3 & ->).
  exact (fr_nostore _ _ _ (li_fr _ _ _ _ _ _ L3) eq_refl).
Qed.
End Obj.

Lemma medianf_one f : medianf 1 f = f 0%nat.
Proof. apply median_single. Qed.
(** Two observations; the "learner" predicts the first test row. *)
Definition first_test (fs : list fold) : R := INR (hd 0%nat (snd (hd ([], []) fs))).
Definition ex_ctx : ctx R :=
  {| c_n := 2; c_dcols := ["d"]; c_cluster := None; c_strata := None; c_learners := ["ml"]; c_classifier := fun _ => false; c_ext_ok := true;
     c_nuis := fun _ _ fs _ _ => Ok {| no_a := fun _ => -1; no_b := fun _ => first_test fs; no_preds := fun _ _ => Some (first_test fs); no_targets := fun _ => Some (fun _ => Some 0) |};
     c_sens := None |}.
Definition g_id : rng := {| rng_perm := fun _ l => l; rng_shuffle := fun _ _ l => l |}.
Definition g_rev : rng := {| rng_perm := fun _ l => rev l; rng_shuffle := fun _ _ l => l |}.
Definition no_perm (_ _ : nat) (l : list nat) := l.
Definition split_a : list (list fold) := [[([1], [0]); ([0], [1])]]%nat.
Definition split_b : list (list fold) := [[([0], [1]); ([1], [0])]]%nat.

Lemma ex_new : exists w0, new_object ex_ctx (PInt 2) (PInt 1) (PBool true) g_id no_perm = Ok w0 /\ reachable ex_ctx w0 /\ m_smpls (w_obj w0) = Some split_a /\ m_n_rep (w_obj w0) = 1%nat /\ m_n_folds (w_obj w0) = 2%nat.
Proof.
  eexists. split; [reflexivity|]. split; [|repeat split]. eexists (PInt 2), (PInt 1), (PBool true), g_id, no_perm, _, []. split; reflexivity.
Qed.
Lemma ex_calls w fs e st : m_smpls (w_obj w) = Some [fs] -> m_n_rep (w_obj w) = 1%nat -> reachable ex_ctx w -> (e = ExtNone) -> is_bool st = true ->
  exists w', fit ex_ctx PNone st e (PBool false) w = (w', Ok tt).
Proof.
  intros Es En R -> Hs. apply fit_complete; [cbn; lia|apply reachable_wf; exact R| | |].
  - unfold fit_check, check_fit, lift. cbn [snd]. rewrite Hs. reflexivity.
  - intros r t Hr Ht. rewrite En in Hr. assert (r = 0%nat) as -> by lia. cbn in Ht. assert (t = 0%nat) as -> by lia. eexists. unfold step_fun, nuis_call, smpls_rep. rewrite Es. cbn [set_external bind nth_error]. reflexivity.
  - intros est E. discriminate.
Qed.
Lemma ex_reports w fs st w' : m_smpls (w_obj w) = Some [fs] -> m_n_rep (w_obj w) = 1%nat -> reachable ex_ctx w -> fit ex_ctx PNone st ExtNone (PBool false) w = (w', Ok tt) ->
  reachable ex_ctx w' /\ m_smpls (w_obj w') = Some [fs] /\ m_n_rep (w_obj w') = 1%nat /\
  exists f, current_fw w' f /\ at_ (fw_all_thetas f) [0; 0]%nat = first_test fs /\ fw_wf f /\ fw_n_rep f = 1%nat /\ fw_n_thetas f = 1%nat /\ at_ (fw_thetas f) [0]%nat = first_test fs /\
    b_at (m_coef (w_obj w')) [0%nat] = Some (first_test fs) /\ at_ (fw_ses f) [0]%nat = 0 /\
    (exists d, m_loss (w_obj w') = Some d /\ b_at (d "ml") [0; 0]%nat = Some (first_test fs)) /\
    (st = PBool true -> exists pr tg, m_preds (w_obj w') = Some pr /\ m_targets (w_obj w') = Some tg /\ (forall i, b_at (pr "ml") [i; 0; 0]%nat = Some (first_test fs)) /\ (forall i, b_at (tg "ml") [i; 0; 0]%nat = Some 0)).
Proof.
  intros Es En R H. split. { pose proof (reachable_op ex_ctx w (OFit PNone st ExtNone (PBool false)) R) as X. cbn [run_op] in X. rewrite H in X. exact X. }
  destruct (fit_reports ex_ctx w _ _ _ _ _ (fun E => ltac:(discriminate E)) R H) as (out & f & (sm & E1 & _ & Nr) & Cf & Rp & ((_ & _) & Om & _) & Ls & Sp & Q1 & Q2).
  split; [congruence|]. split; [congruence|].
  assert (Eo : out 0%nat 0%nat = {| no_a := fun _ => -1; no_b := fun _ => first_test fs; no_preds := fun _ _ => Some (first_test fs); no_targets := fun _ => Some (fun _ => Some 0) |}).
  { destruct (Nr 0%nat 0%nat "d") as (e & _ & E2); [lia|reflexivity|]. rewrite Es in E1. injection E1 as <-. cbn in E2. injection E2 as <-. reflexivity. }
  assert (Nf : fw_n_rep f = 1%nat) by (rewrite (rp_n_rep _ _ _ _ Rp); exact En). assert (Nt : fw_n_thetas f = 1%nat) by (rewrite (rp_n_thetas _ _ _ _ Rp); reflexivity).
  assert (Sc : split_cluster ex_ctx w 0 = None) by reflexivity.
  assert (Th : at_ (fw_all_thetas f) [0; 0]%nat = first_test fs).
  { rewrite (rp_theta _ _ _ _ Rp 0%nat 0%nat) by lia. rewrite Sc, Eo. unfold theta_of, aggregate_obs, meanf, sumf. cbn. field. }
  assert (Fp : 0 <= first_test fs) by (unfold first_test; apply pos_INR).
  destruct (rp_agg _ _ _ _ Rp 0%nat) as [A1 A2]; [lia|]. rewrite Nf in A1, A2. rewrite medianf_one in A1, A2.
  assert (Th1 : at_ (fw_thetas f) [0%nat] = first_test fs) by congruence.
  assert (Se : at_ (fw_all_ses f) [0; 0]%nat = 0).
  { destruct (rp_se _ _ _ _ Rp 0%nat 0%nat) as (s2 & E2 & ->); [lia|lia|]. rewrite Sc, Eo in E2. unfold var_est in E2. injection E2 as <- _. rewrite <- sqrt_0. f_equal. unfold psi_of, theta_of, aggregate_obs, meanf, sumf. cbn. field. }
  exists f. split; [exact Cf|]. split; [exact Th|]. split; [exact (rp_wf _ _ _ _ Rp)|]. split; [exact Nf|]. split; [exact Nt|]. split; [exact Th1|].
  split; [rewrite <- Th1; apply Om; cbn; lia|]. split.
  { rewrite A2, Se, Th, Th1. match goal with |- sqrt ?x = 0 => replace x with 0 by (unfold Rdiv; ring) end. apply sqrt_0. }
  split.
  - destruct Ls as (d & Ed & Hl). exists d. split; [exact Ed|]. specialize (Hl "ml" 0%nat 0%nat (or_introl eq_refl)). rewrite Eo in Hl. rewrite Q2, En in Hl. specialize (Hl ltac:(lia) ltac:(cbn; lia)).
    unfold is_loss, available, target_of in Hl. cbn [no_preds no_targets c_n ex_ctx seq flat_map app c_classifier] in Hl. rewrite Hl. f_equal.
    rewrite <- (sqrt_pow2 (first_test fs) Fp) at 3. f_equal. unfold Rmean. cbn [map fst snd Rsum length fold_right]. unfold Rsum. cbn. field.
  - intro Est. destruct (Sp Est) as (pr & tg & B1 & B2 & B3). exists pr, tg. split; [exact B1|]. split; [exact B2|]. rewrite Q2, En in B3.
    split; intro i; destruct (B3 "ml" 0%nat 0%nat i) as [B4 B5]; try (cbn; auto; lia); rewrite Eo in *; assumption.
Qed.

Lemma fit_folds {P} (C : ctx P) w nj st ext sm w' : reachable C w -> fit C nj st ext sm w = (w', Ok tt) -> m_n_folds (w_obj w') = m_n_folds (w_obj w).
Proof. intros R H. destruct (fit_ends C nj st ext sm w (reachable_wf _ _ R)) as [_ _ X _ _ _]. rewrite H in X. apply X. Qed.
Lemma ex_draw w : m_n_rep (w_obj w) = 1%nat -> m_n_folds (w_obj w) = 2%nat -> draw_sample_splitting ex_ctx g_rev no_perm w =
  ({| w_heap := w_heap w; w_fws := w_fws w; w_obj := with_split 1 2 (Some split_b) (m_smpls_cluster (w_obj w)) (w_obj w) |}, Ok tt).
Proof.
  intros E1 E2. unfold draw_sample_splitting. rewrite (andthen_eq _ _ w w w) by reflexivity. cbv zeta. rewrite E1, E2. unfold andthen, lift, assign. cbn -[with_split]. rewrite E1, E2. reflexivity.
Qed.
(** fit (storing predictions), draw another split, fit (not storing). *)
Lemma ex_story : exists w0 w1 w2 w3, reachable ex_ctx w0 /\ m_smpls (w_obj w0) = Some split_a /\
  fit ex_ctx PNone (PBool true) ExtNone (PBool false) w0 = (w1, Ok tt) /\ draw_sample_splitting ex_ctx g_rev no_perm w1 = (w2, Ok tt) /\ m_smpls (w_obj w2) = Some split_b /\
  reachable ex_ctx w1 /\ reachable ex_ctx w2 /\ m_n_rep (w_obj w0) = 1%nat /\ m_n_rep (w_obj w1) = 1%nat /\ m_n_rep (w_obj w2) = 1%nat /\ m_smpls (w_obj w1) = Some split_a /\ fit ex_ctx PNone (PBool false) ExtNone (PBool false) w2 = (w3, Ok tt).
Proof.
  destruct ex_new as (w0 & _ & R0 & E0 & N0 & F0). destruct (ex_calls w0 _ ExtNone (PBool true) E0 N0 R0 eq_refl eq_refl) as (w1 & H1).
  pose proof (fit_folds _ _ _ _ _ _ _ R0 H1) as F1. rewrite F0 in F1. destruct (ex_reports w0 _ _ _ E0 N0 R0 H1) as (R1 & E1 & N1 & _).
  pose proof (ex_draw w1 N1 F1) as H2. eassert (R2 : reachable ex_ctx _). { pose proof (reachable_op ex_ctx w1 (ODraw g_rev no_perm) R1) as X. cbn [run_op] in X. rewrite H2 in X. cbn [fst] in X. exact X. }
  match type of R2 with reachable _ ?x => set (w2 := x) in * end. destruct (ex_calls w2 _ ExtNone (PBool false) eq_refl eq_refl R2 eq_refl eq_refl) as (w3 & H3).
  exists w0, w1, w2, w3. repeat (split; [first [assumption|reflexivity]|]). exact H3.
Qed.
Lemma first_a : first_test [([1], [0]); ([0], [1])]%nat = 0. Proof. reflexivity. Qed.
Lemma first_b : first_test [([0], [1]); ([1], [0])]%nat = 1. Proof. reflexivity. Qed.

(** C38 *)
Lemma snapshot_refuted : exists (C : ctx R) w k f ops f', reachable C w /\ fw_reports w k f /\ current_fw w f /\ fw_aggregated f /\ fw_reports (run C ops w) k f' /\
  at_ (fw_all_thetas f') [0; 0]%nat <> at_ (fw_all_thetas f) [0; 0]%nat /\ ~ fw_aggregated f'.
Proof.
  destruct ex_story as (w0 & w1 & w2 & w3 & R0 & E0 & H1 & H2 & E2 & R1 & R2 & N0 & N1 & N2 & E1 & H3).
  destruct (ex_reports w0 _ _ _ E0 N0 R0 H1) as (_ & _ & _ & f1 & C1 & T1 & _ & Nr1 & Nt1 & Th1 & _). destruct (ex_reports w2 _ _ _ E2 N2 R2 H3) as (_ & _ & _ & f3 & C3 & T3 & _).
  assert (W2 : w2 = fst (run_op ex_ctx (ODraw g_rev no_perm) w1)) by (cbn [run_op]; now rewrite H2).
  pose proof H3 as H3'. rewrite W2 in H3'. destruct (refit_shares ex_ctx w0 _ _ _ _ w1 (ODraw g_rev no_perm) _ _ _ _ w3 ltac:(discriminate) R0 H1 eq_refl H3') as (k & g1 & g1' & g3 & A1 & A2 & A3 & A4 & A5 & _).
  assert (g1 = f1) as -> by (destruct A1 as (k1 & o1 & B1 & B2 & ->), C1 as (k2 & o2 & D1 & D2 & ->); congruence).
  assert (g3 = f3) as -> by (destruct A4 as (k1 & o1 & B1 & B2 & ->), C3 as (k2 & o2 & D1 & D2 & ->); congruence).
  assert (Rn : run ex_ctx [ODraw g_rev no_perm; OFit PNone (PBool false) ExtNone (PBool false)] w1 = w3) by (cbn [run]; rewrite <- W2; cbn [run_op]; now rewrite H3).
  exists ex_ctx, w1, k, f1, [ODraw g_rev no_perm; OFit PNone (PBool false) ExtNone (PBool false)], g1'. rewrite Rn. split; [exact R1|]. split; [exact A2|]. split; [exact C1|].
  assert (Ag : fw_aggregated f1). { destruct (fit_reports ex_ctx _ _ _ _ _ _ ltac:(discriminate) R0 H1) as (out & f & _ & Cf & Rp & _). assert (f = f1) as <- by (destruct Cf as (k1 & o1 & B1 & B2 & ->), C1 as (k2 & o2 & D1 & D2 & ->); congruence). apply (rp_agg _ _ _ _ Rp). }
  split; [exact Ag|]. split; [exact A3|]. rewrite A5, T1, T3, first_a, first_b. split; [lra|].
  intro Ag'. destruct (frozen_value ex_ctx w1 k f1 [ODraw g_rev no_perm; OFit PNone (PBool false) ExtNone (PBool false)] R1 A2) as (f' & F' & Sv). rewrite Rn in F'.
  assert (f' = g1') as -> by (destruct F' as (o1 & B1 & ->), A3 as (o2 & B2 & ->); congruence).
  destruct (Ag' 0%nat) as [X _]; [rewrite (sv_n_thetas _ _ Sv), Nt1; lia|]. rewrite (sv_n_rep _ _ Sv), (sv_thetas _ _ Sv), Nr1, medianf_one, A5, T3, Th1, first_a, first_b in X. lra.
Qed.

(** C39 *)
Lemma stale_after_draw : exists (C : ctx R) w w1 w2 w3 f1 f3, reachable C w /\ fit C PNone (PBool true) ExtNone (PBool false) w = (w1, Ok tt) /\ current_fw w1 f1 /\
  (exists g perm, draw_sample_splitting C g perm w1 = (w2, Ok tt)) /\ m_smpls (w_obj w2) <> m_smpls (w_obj w1) /\
  current_fw w2 f1 /\ b_at (m_coef (w_obj w2)) [0%nat] = Some (at_ (fw_thetas f1) [0%nat]) /\
  fit C PNone (PBool false) ExtNone (PBool false) w2 = (w3, Ok tt) /\ current_fw w3 f3 /\ at_ (fw_thetas f3) [0%nat] <> at_ (fw_thetas f1) [0%nat].
Proof.
  destruct ex_story as (w0 & w1 & w2 & w3 & R0 & E0 & H1 & H2 & E2 & R1 & R2 & N0 & N1 & N2 & E1 & H3).
  destruct (ex_reports w0 _ _ _ E0 N0 R0 H1) as (_ & _ & _ & f1 & C1 & T1 & _ & Nr1 & Nt1 & Th1 & Co1 & _). destruct (ex_reports w2 _ _ _ E2 N2 R2 H3) as (_ & _ & _ & f3 & C3 & T3 & _ & _ & _ & Th3 & _).
  exists ex_ctx, w0, w1, w2, w3, f1, f3. split; [exact R0|]. split; [exact H1|]. split; [exact C1|]. split; [eauto|]. split; [rewrite E1, E2; discriminate|].
  destruct (keeps_op ex_ctx (ODraw g_rev no_perm) w1 eq_refl) as (K1 & K2 & K3 & K4 & K5 & K6 & _). cbn [run_op] in *. rewrite H2 in *. cbn [fst] in *.
  split. { destruct C1 as (k & o & B1 & B2 & ->). exists k, o. rewrite K1, K2, K3. auto. }
  split; [rewrite K6, Th1; exact Co1|]. split; [exact H3|]. split; [exact C3|]. rewrite Th1, Th3, first_a, first_b. lra.
Qed.
Definition set_b : pysplit := SList [STup [IxInt [0%Z]; IxInt [1%Z]]; STup [IxInt [1%Z]; IxInt [0%Z]]].
Lemma ci_point ppf f : fw_n_rep f = 1%nat -> at_ (fw_all_ses f) [0; 0]%nat = 0 -> exists ci, confint ppf f (PBool false) (PFloat (95 / 100)) = Ok ci /\ at_ ci [0; 0]%nat = at_ (fw_all_thetas f) [0; 0]%nat.
Proof.
  intros Hr Hs. destruct (confint_total ppf f false (95 / 100)) as [ci E]; [lra|discriminate|]. exists ci. split; [exact E|]. destruct (confint_inv _ _ _ _ _ E) as (_ & _ & _ & A & _). rewrite A, Hr, medianf_one, Hs. ring.
Qed.
Lemma ex_se w fs st w' f : m_smpls (w_obj w) = Some [fs] -> m_n_rep (w_obj w) = 1%nat -> reachable ex_ctx w -> fit ex_ctx PNone st ExtNone (PBool false) w = (w', Ok tt) -> current_fw w' f -> at_ (fw_all_ses f) [0; 0]%nat = 0.
Proof.
  intros Es En R H Cf'. destruct (fit_reports ex_ctx w _ _ _ _ _ ltac:(discriminate) R H) as (out & f' & (sm & E1 & _ & Nr) & Cf & Rp & _).
  assert (f' = f) as -> by (destruct Cf as (k1 & o1 & B1 & B2 & ->), Cf' as (k2 & o2 & D1 & D2 & ->); congruence).
  destruct (rp_se _ _ _ _ Rp 0%nat 0%nat) as (s2 & E2 & ->); [rewrite (rp_n_rep _ _ _ _ Rp); lia|rewrite (rp_n_thetas _ _ _ _ Rp); cbn; lia|].
  destruct (Nr 0%nat 0%nat "d") as (e & _ & E3); [lia|reflexivity|]. rewrite Es in E1. injection E1 as <-. cbn in E3. injection E3 as E3. rewrite <- E3 in E2. unfold var_est in E2. injection E2 as <- _. rewrite <- sqrt_0. f_equal. unfold psi_of, theta_of, aggregate_obs, meanf, sumf. cbn. field.
Qed.
Lemma stale_after_set : exists (C : ctx R) w w1 s w2 w3, reachable C w /\ fit C PNone (PBool true) ExtNone (PBool false) w = (w1, Ok tt) /\
  set_sample_splitting C s None w1 = (w2, Ok tt) /\ m_smpls (w_obj w2) <> m_smpls (w_obj w1) /\ fit C PNone (PBool true) ExtNone (PBool false) w2 = (w3, Ok tt) /\
  forall ppf, exists c1 c2 c3, snd (obj_confint ppf (PBool false) (PFloat (95 / 100)) w1) = Ok c1 /\ snd (obj_confint ppf (PBool false) (PFloat (95 / 100)) w2) = Ok c2 /\
    snd (obj_confint ppf (PBool false) (PFloat (95 / 100)) w3) = Ok c3 /\ at_ c2 [0; 0]%nat = at_ c1 [0; 0]%nat /\ at_ c3 [0; 0]%nat <> at_ c2 [0; 0]%nat.
Proof.
  destruct ex_story as (w0 & w1 & _ & _ & R0 & E0 & H1 & _ & _ & R1 & _ & N0 & N1 & _ & E1 & _).
  destruct (ex_reports w0 _ _ _ E0 N0 R0 H1) as (_ & _ & _ & f1 & C1 & T1 & _ & Nr1 & _). pose proof (ex_se _ _ _ _ _ E0 N0 R0 H1 C1) as S1.
  assert (H2 : exists w2, set_sample_splitting ex_ctx set_b None w1 = (w2, Ok tt) /\ m_smpls (w_obj w2) = Some split_b /\ m_n_rep (w_obj w2) = 1%nat /\ w_fws w2 = w_fws w1 /\ m_fw (w_obj w2) = m_fw (w_obj w1) /\
     forall l, (l < length (w_heap w1))%nat -> hget (w_heap w2) l = hget (w_heap w1) l).
  { destruct (set_inv ex_ctx set_b None w1) as [(ck & sc & A & B & E)|(e & E)].
    - eexists. split; [exact E|]. assert (ck = {| ck_smpls := [[([0%Z], [1%Z]); ([1%Z], [0%Z])]]; ck_n_rep := 1; ck_n_folds := 2 |}) as -> by (vm_compute in A; injection A as <-; reflexivity).
      split; [reflexivity|]. split; [reflexivity|]. split; [reflexivity|]. split; [reflexivity|]. intros l Hl. unfold set_result. rewrite hget_fresh; [reflexivity|exact Hl].
    - exfalso. unfold set_sample_splitting in E. rewrite andthen_unf in E. vm_compute in E. discriminate. }
  destruct H2 as (w2 & H2 & E2 & N2 & K2 & K3 & K1). assert (R2 : reachable ex_ctx w2). { pose proof (reachable_op ex_ctx w1 (OSet set_b None) R1) as X. cbn [run_op] in X. rewrite H2 in X. exact X. }
  destruct (ex_calls w2 _ ExtNone (PBool true) E2 N2 R2 eq_refl eq_refl) as (w3 & H3). destruct (ex_reports w2 _ _ _ E2 N2 R2 H3) as (_ & _ & _ & f3 & C3 & T3 & _ & Nr3 & _). pose proof (ex_se _ _ _ _ _ E2 N2 R2 H3 C3) as S3.
  exists ex_ctx, w0, w1, set_b, w2, w3. split; [exact R0|]. split; [exact H1|]. split; [exact H2|]. split; [rewrite E1, E2; discriminate|]. split; [exact H3|].
  assert (C2 : current_fw w2 f1). { destruct C1 as (k & o & B1 & B2 & ->). exists k, o. rewrite K2, K3. split; [exact B1|]. split; [exact B2|]. destruct (wf_fws _ _ (reachable_wf _ _ R1) k o B2) as (L1 & L2 & L3). unfold fw_view. now rewrite !K1. }
  assert (M : forall w f ppf, current_fw w f -> snd (obj_confint (P := R) ppf (PBool false) (PFloat (95 / 100)) w) = confint ppf f (PBool false) (PFloat (95 / 100))).
  { intros w f ppf (k & o & B1 & B2 & ->). unfold obj_confint, fw_method, with_framework. rewrite (andthen_eq _ _ w w w) by reflexivity. rewrite B1, B2. reflexivity. }
  intro ppf. destruct (ci_point ppf f1 Nr1 S1) as (c1 & D1 & D1'). destruct (ci_point ppf f3 Nr3 S3) as (c3 & D3 & D3'). exists c1, c1, c3.
  rewrite (M w1 f1), (M w2 f1), (M w3 f3) by assumption. split; [exact D1|]. split; [exact D1|]. split; [exact D3|]. split; [reflexivity|]. rewrite D1', D3', T1, T3, first_a, first_b. lra.
Qed.

(** C56 and C39: stored predictions of an earlier split. *)
Definition rmse2 (p y : nat -> option R) : option R := match p 0%nat, p 1%nat, y 0%nat, y 1%nat with Some a, Some b, Some c, Some d => Some (sqrt (((c - a) ^ 2 + (d - b) ^ 2) / 2)) | _, _, _, _ => None end.
Lemma stale_predictions : exists (C : ctx R) w w1 w2 w3 d v, reachable C w /\ fit C PNone (PBool true) ExtNone (PBool false) w = (w1, Ok tt) /\
  (exists g perm, draw_sample_splitting C g perm w1 = (w2, Ok tt)) /\ fit C PNone (PBool false) ExtNone (PBool false) w2 = (w3, Ok tt) /\
  m_preds (w_obj w3) = m_preds (w_obj w1) /\ m_smpls (w_obj w3) <> m_smpls (w_obj w1) /\
  m_loss (w_obj w3) = Some d /\ b_at (d "ml") [0; 0]%nat = Some 1 /\
  snd (evaluate_learners C None rmse2 w3) = Ok [("ml", [[v]])] /\ v = 0.
Proof.
  destruct ex_story as (w0 & w1 & w2 & w3 & R0 & E0 & H1 & H2 & E2 & R1 & R2 & N0 & N1 & N2 & E1 & H3).
  destruct (ex_reports w0 _ _ _ E0 N0 R0 H1) as (_ & _ & _ & f1 & C1 & T1 & _ & Nr1 & Nt1 & Th1 & Co1 & _ & _ & Sp). destruct (Sp eq_refl) as (pr & tg & P1 & P2 & P3 & P4).
  destruct (ex_reports w2 _ _ _ E2 N2 R2 H3) as (R3 & E3 & N3 & f3 & C3 & T3 & _ & _ & _ & Th3 & _ & _ & (d & L1 & L2) & _).
  destruct (keeps_op ex_ctx (ODraw g_rev no_perm) w1 eq_refl) as (_ & _ & _ & _ & _ & _ & K7 & K8). cbn [run_op] in *. rewrite H2 in *. cbn [fst] in *.
  destruct (refit_stale ex_ctx w2 _ _ _ w3 ltac:(discriminate) R2 H3) as [Q1 Q2].
  exists ex_ctx, w0, w1, w2, w3, d, 0. split; [exact R0|]. split; [exact H1|]. split; [eauto|]. split; [exact H3|]. split; [congruence|]. split; [rewrite E3, E1; discriminate|]. split; [exact L1|]. split; [rewrite L2; reflexivity|]. split; [|reflexivity].
  unfold evaluate_learners, lift. cbn [snd]. rewrite Q1, Q2, K7, K8, P1, P2, N3. cbn [require forallb smem existsb c_learners ex_ctx]. cbn [String.eqb Ascii.eqb Bool.eqb andb orb].
  change (Datatypes.length (c_dcols ex_ctx)) with 1%nat. cbn [map_res seq bind require]. unfold rmse2. rewrite !P3, !P4, first_a. cbn [bind].
  replace (((0 - 0) ^ 2 + (0 - 0) ^ 2) / 2) with 0 by field. rewrite sqrt_0. reflexivity.
Qed.

(** Cases. *)
Lemma history_case : exists w1 w2, reachable ex_ctx w1 /\ reachable ex_ctx w2 /\ same_config w1 w2 /\ m_fw (w_obj w1) = None /\ m_fw (w_obj w2) <> None.
Proof.
  destruct ex_new as (w0 & N & R & S1 & S2 & S3). destruct (ex_calls w0 _ ExtNone (PBool true) S1 S2 R eq_refl eq_refl) as (w1 & F).
  exists w0, w1. assert (Hd : c_dcols ex_ctx <> []) by discriminate.
  destruct (ex_reports _ _ _ _ S1 S2 R F) as (R1 & T1 & T2 & f & (k & o & K & _) & _).
  split; [exact R|]. split; [exact R1|]. split.
  - pose proof (dcols_pos _ Hd) as Hp. pose proof (reachable_wf _ _ R) as W. destruct (fit_inv _ _ _ _ _ _ _ Hp W F) as (_ & _ & _ & v & L & E).
    pose proof (li_fr _ _ _ _ _ _ L) as Fr. subst w1. split; [symmetry; exact (fr_n_rep _ _ _ Fr)|]. split; [symmetry; exact (fr_smpls _ _ _ Fr)|]. split; [symmetry; exact (fr_smpls_c _ _ _ Fr)|].
    split; [symmetry; exact (fr_nfpc _ _ _ Fr)|]. intros l t. symmetry. exact (f_equal (fun p => p l t) (fr_params _ _ _ Fr)).
  - split; [|rewrite K; discriminate]. vm_compute in N. injection N as <-. reflexivity.
Qed.
Lemma refused_case : exists w0, new_object ex_ctx (PInt 2) (PInt 1) (PBool true) g_id no_perm = Ok w0 /\
  ~ some_fit ex_ctx [ODraw g_rev no_perm; OFit (PStr "x") (PBool true) ExtNone (PBool false)] w0.
Proof.
  destruct ex_new as (w0 & N & _). exists w0. split; [exact N|]. cbn [some_fit]. intros [[A _]|[[_ A]|[]]]; [discriminate|].
  revert A. cbn [run_op]. unfold fit. cbn. discriminate.
Qed.
Lemma params_case : exists w0, reachable ex_ctx w0 /\ snd (set_ml_nuisance_params ex_ctx "ml" "d" (ParDict 3) w0) = Ok tt /\
  snd (set_ml_nuisance_params ex_ctx "ml" "d" (ParList [[1; 2]]) w0) = Ok tt /\ snd (set_ml_nuisance_params ex_ctx "ml" "d" (ParList [[1]]) w0) <> Ok tt.
Proof.
  destruct ex_new as (w0 & N & R & S1 & S2 & S3). exists w0. split; [exact R|]. unfold set_ml_nuisance_params. cbn. rewrite ?S2, ?S3. cbn. split; [reflexivity|]. split; [reflexivity|discriminate].
Qed.

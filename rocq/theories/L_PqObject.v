(** Potential quantile objects. *)
From Verif Require Import L_External L_Sum L_LocalFit L_Local L_Quantile L_ModelProps.
From Verif Require Export L_NlObject.
From Coq Require Import Lia Lra.
Local Open Scope R_scope.
Local Open Scope res_scope.
Local Open Scope string_scope.

Lemma pq_made : forall (E P : Type) (L : learner E row P) rd fr s dflt o ml_g ml_m treatment quantile nf nr score norm kde rule thr draw K b0,
  S_Data.reachable fr s -> sound_randomness rd -> unclustered s -> pq_init L rd fr s dflt o ml_g ml_m treatment quantile nf nr score norm kde rule thr draw = Ok (K, b0) ->
  exists c mc tr q nm th st k, binary_treatment fr s c /\ check_kde dflt kde = Ok k /\
    K = pq_class L mc (M_Data.frows fr) o k c tr q nm th (covariates fr s c) (outcome fr s) (col fr c) st /\ soundly_reached (nl_ctx K) (ob_world b0) /\
    mc_learner mc "ml_g" = ly_obj ml_g /\ mc_learner mc "ml_m" = ly_obj ml_m /\ quantile_ok quantile q /\ arm_number treatment (level tr) /\
    norm = PBool nm /\ thr = PFloat th /\ 0 < th < 1 / 2 /\ has_arm (M_Data.frows fr) tr (col fr c) = true /\ ob_start b0 = pq_start (M_Data.frows fr) tr q (outcome fr s) (col fr c).
Proof.
  intros until b0. intros Re Rd Un H. unfold pq_init in H. bi H w B. bi H k Kd. ri H Zn. ri H D. bi H sc Sc. bi H q Q. bi H tr Tr. bi H nm Nm. ri H Ar. bi H w' Rw. bi H th T. bi H g G. bi H m M. cbv zeta in H. apply ok_inj in H. injection H as <- <-.
  destruct (one_binary_r fr s Re D) as (c & Ec & Bt). apply quantile_iff in Q. apply treatment_iff in Tr. apply bool_iff in Nm. apply trimming_iff in T as (_ & T2 & T3).
  rewrite (outcome_col fr s Re), (active_covariates fr s Re), Ec. rewrite Ec in Rw, Ar. pose proof Bt as (Qd & _). rewrite Qd. cbn [hd ob_world ob_start].
  eexists c, _, tr, q, nm, th, _, k. split; [exact Bt|]. split; [exact Kd|]. split; [reflexivity|].
  split. { rewrite <- (plain_ctx fr s Re (nl_ctx _) Un). eapply made_strat; [exact Rd|exact B|exact Rw|reflexivity|rewrite Qd; reflexivity|reflexivity..]. }
  split; [reflexivity|]. split; [reflexivity|]. auto 10.
Qed.

Section Pq.
Context {E P : Type}.
Variable L : learner E row P.
Variable mc : machinery E P.
Variable n : nat.
Variable o : nat -> nat -> q_oracles.
Variable kde : vec -> vec -> R.
Variables (dcol : string) (tr : bool) (q : R) (nm : bool) (th : R) (x : nat -> row) (y d : vec) (st : option (nat -> Z)).
Variable sv : solvers.
Notation K := (pq_class L mc n o kde dcol tr q nm th x y d st).
Notation In_range s := (fst (pq_bounds n y) <= s <= snd (pq_bounds n y)).
Hypothesis So : forall r k, solver_ok (o r k).
Lemma pq_est_inv models start r fs prm ext out : pq_est L mc n o kde tr q nm th x y d models start r fs prm ext = Ok out ->
  exists gs ms p, let c := pq_object_cfg n tr q nm th y gs ms (mc_learner mc "ml_g") ext in
    (ext "ml_g" = None -> fold_ests L (mc_learner mc "ml_g") (prm "ml_g") (length fs) = Ok gs) /\ (ext "ml_m" = None -> fold_ests L (mc_learner mc "ml_m") (prm "ml_m") (length fs) = Ok ms) /\
    pq_nuisance L L (o r (length fs)) [] c start x y d fs = Ok p /\ (models = true -> ext "ml_g" = None /\ ext "ml_m" = None) /\
    out = {| nx_score := fun theta => pq_score q (arm tr d) (val (po_g p)) (pq_adjust n tr nm th d (val (po_m p))) y theta; nx_deriv := fun theta => pq_deriv kde (arm tr d) (pq_adjust n tr nm th d (val (po_m p))) y theta;
      nx_preds := fun l => if String.eqb l "ml_g" then po_g p else h_preds (trim_hat true th {| h_preds := po_m p; h_targets := Some (fun i => Some (d i)) |});
      nx_targets := fun l => if String.eqb l "ml_g" then Some (pq_g_targets c y d fs (po_ipw p)) else h_targets (trim_hat true th {| h_preds := po_m p; h_targets := Some (fun i => Some (d i)) |});
      nx_start := po_start p |}.
Proof.
  intro H. unfold pq_est in H. bi H gs Gs. bi H ms Ms. cbv zeta in H. bi H p Pq. ri H Mo. apply ok_inj in H. exists gs, ms, p. intro c.
  split. { intro X. rewrite X in Gs. exact Gs. } split. { intro X. rewrite X in Ms. exact Ms. } split; [exact Pq|]. split; [|symmetry; exact H].
  intros ->. cbn in Mo. destruct (ext "ml_g"), (ext "ml_m"); try discriminate. auto.
Qed.
Lemma pq_keeps (m : dml P) models ext start r : In_range start -> (forall sm, m_smpls m = Some sm -> forall fs, In fs sm -> fs <> []) -> In_range (fst (nl_rep_fit sv K m models ext start r)).
Proof.
  intros Hs Ne. unfold nl_rep_fit.
  match goal with |- context [match ?t with Ok _ => _ | Err _ => _ end] => destruct t as [out|e] eqn:Eo end; [|exact Hs]. cbn [fst].
  apply bind_ok in Eo as (ed & _ & Eo). apply bind_ok in Eo as (fs & Fs & Eo). cbn [nk_est pq_class] in Eo. apply pq_est_inv in Eo as (gs & ms & p & _ & _ & Pq & _ & ->). cbn [nx_start].
  unfold smpls_rep in Fs. destruct (m_smpls m) as [sm|]; [|discriminate]. destruct (nth_error sm r) as [fs'|] eqn:N; [|discriminate]. injection Fs as <-.
  exact (pq_start_between L L (o r (length fs')) [] (pq_object_cfg n tr q nm th y gs ms (mc_learner mc "ml_g") ed) x y d start fs' p (So _ _) (Ne sm eq_refl fs' (nth_error_In _ _ N)) Hs Pq).
Qed.
End Pq.

Lemma range_among n y b t : range_of n y b -> fst b <= t <= snd b -> among n y t.
Proof. intros (_ & (i & Hi & Ei) & j & Hj & Ej) H. split; [exists i|exists j]; (split; [assumption|lra]). Qed.
Lemma nl_estimate_is n F r theta se psi dens v : (0 < n)%nat -> (forall i, at_ (fw_scaled_psi F) [i; 0%nat; r] = psi i / meanf n (fun _ => dens)) -> at_ (fw_all_thetas F) [0%nat; r] = theta -> at_ (fw_all_ses F) [0%nat; r] = se -> dens <> 0 ->
  var_est n psi (fun _ => dens) None = Ok v -> se = sqrt (fst v) -> estimate_is F n 0 r theta psi (- (INR n * dens)).
Proof.
  intros Hn Sp A B Hd V Hs. split; [exact A|]. assert (Hi : 0 < INR n) by (apply lt_0_INR; lia).
  split; [|intros i _; rewrite Sp, (meanf_const n dens Hn); field; split; lra].
  rewrite B, Hs, Rabs_Ropp. unfold var_est in V. injection V as <-. unfold fst. rewrite (meanf_const n dens Hn). unfold meanf. set (Q := sumf n _).
  assert (S0 : 0 <= Q) by (unfold Q; apply sumf_nonneg; intros i _; apply pow2_ge_0).
  transitivity (sqrt (Q / (Rabs (INR n * dens)) ^ 2)); [f_equal|].
  - rewrite pow2_abs. field. split; lra.
  - rewrite sqrt_div_alt by (apply pow_lt, Rabs_pos_lt, Rmult_integral_contrapositive; split; lra). rewrite <- Rsqr_pow2, sqrt_Rsqr by apply Rabs_pos. reflexivity.
Qed.

(** Supplied predictions are passed through. *)
Lemma collect_none_g fs : forall rs g m, (forall r, In r rs -> fr_g r = None) -> fst (collect fs rs g m) = g.
Proof. induction fs as [|f fs IH]; intros [|r rs] g m H; cbn [collect]; try reflexivity. rewrite IH; [rewrite (H r (or_introl eq_refl)); reflexivity|intros; apply H; right; assumption]. Qed.
Lemma collect_none_m fs : forall rs g m, (forall r, In r rs -> fr_m r = None) -> snd (collect fs rs g m) = m.
Proof. induction fs as [|f fs IH]; intros [|r rs] g m H; cbn [collect]; try reflexivity. rewrite IH; [rewrite (H r (or_introl eq_refl)); reflexivity|intros; apply H; right; assumption]. Qed.
Lemma map_res_in {A B} (f : A -> result B) l rs : map_res f l = Ok rs -> forall r, In r rs -> exists a, In a l /\ f a = Ok r.
Proof.
  intros H r Hr. destruct (L_QNested.map_res_nth_error _ _ _ H) as (Hl & N). apply In_nth_error in Hr as (i & Hi).
  destruct (nth_error l i) as [a|] eqn:Ea; [|apply nth_error_None in Ea; assert (i < length rs)%nat by (apply nth_error_Some; congruence); lia].
  exists a. split; [exact (nth_error_In _ _ Ea)|]. destruct (N i a Ea) as (b & B1 & B2). congruence.
Qed.
Section Supplied.
Context {E X P : Type}.
Variables (G M : learner E X P) (o : q_oracles) (x0 : X) (c : pq_cfg (E:=E)) (start : R) (x : nat -> X) (y d : vec) (fs : list fold) (p : pq_out).
Hypothesis H : pq_nuisance G M o x0 c start x y d fs = Ok p.
Lemma pq_given_g g : qc_ext_g c = Some g -> forall i, val (po_g p) i = g i.
Proof.
  intros Eg i. unfold pq_nuisance in H. rewrite Eg in H. destruct (qc_ext_m c) as [m|] eqn:Em; [injection H as <-; reflexivity|].
  apply bind_ok in H as (rs & R & H'). injection H' as <-. cbn [po_g]. rewrite collect_none_g; [reflexivity|].
  intros r Hr. destruct (map_res_in _ _ _ R r Hr) as (a & _ & Fa). unfold pq_fold in Fa. rewrite Eg in Fa.
  apply bind_ok in Fa as (? & _ & Fa). apply bind_ok in Fa as (? & _ & Fa). cbn [bind] in Fa. apply bind_ok in Fa as (? & _ & Fa). injection Fa as <-. reflexivity.
Qed.
Lemma pq_given_m m : qc_ext_m c = Some m -> forall i, val (po_m p) i = m i.
Proof.
  intros Em i. unfold pq_nuisance in H. rewrite Em in H. destruct (qc_ext_g c) as [g|] eqn:Eg; [injection H as <-; reflexivity|].
  apply bind_ok in H as (rs & R & H'). injection H' as <-. cbn [po_m]. rewrite collect_none_m; [reflexivity|].
  intros r Hr. destruct (map_res_in _ _ _ R r Hr) as (a & _ & Fa). unfold pq_fold in Fa. rewrite Em in Fa.
  apply bind_ok in Fa as (? & _ & Fa). apply bind_ok in Fa as (? & _ & Fa). apply bind_ok in Fa as (? & _ & Fa). cbn [bind] in Fa. injection Fa as <-. reflexivity.
Qed.
End Supplied.

Lemma pq_end : forall (E P : Type) (L : learner E row P) fv gv rd fr s dflt o ml_g ml_m treatment quantile nf nr score nm kde rule thr draw K b0 b sv tol nj store ext smod b' q a,
  S_Data.reachable fr s -> unclustered s -> sound_randomness rd -> (0 < M_Data.frows fr)%nat ->
  pq_init L rd fr s dflt o ml_g ml_m treatment quantile nf nr score (PBool nm) kde rule (PFloat thr) draw = Ok (K, b0) ->
  quantile_ok quantile q -> arm_number treatment a ->
  (forall r k, solver_ok (o r k)) -> brentq_ok sv -> fmin_ok sv -> brentq_near sv tol -> nl_later sv K b0 b ->
  exists dcol h, binary_treatment fr s dcol /\ (kde = KdeNone /\ h = dflt \/ kde = KdeFun h) /\
  let n := M_Data.frows fr in let x := covariates fr s dcol in let y := outcome fr s in let d := col fr dcol in
  among n y (ob_start b) /\
  (nl_fit sv K nj store ext smod b = (b', Ok tt) ->
  exists sm reps F, m_smpls (w_obj (ob_world b)) = Some sm /\ ob_res b' = Some (reps, F) /\ length reps = length sm /\ among n y (ob_start b') /\
    fw_wf F /\ fw_aggregated F /\ fw_n_rep F = length sm /\ fw_n_thetas F = 1%nat /\
    forall r fs, nth_error sm r = Some fs -> exists p c gh mh ipws, nth_error reps r = Some p /\ quantile_setting c false n y a q nm thr /\
      (forall e, supplied ext dcol "ml_g" r e -> forall i, gh i = e i) /\ (forall e, supplied ext dcol "ml_m" r e -> forall i, mh i = e i) /\
      (row_wise L fv gv -> classifier_ok L gv -> clone_ok L ->
       (forall g, In g fs -> let or := o r (length fs) in inner_split d (first_half or d g) (qo_skf or (map d (first_half or d g))) (qo_order or)) ->
       (forall e, ~ supplied ext dcol "ml_g" r e) -> (forall e, ~ supplied ext dcol "ml_m" r e) ->
       (forall k, (k < length fs)%nat -> fold_clone L (params_at (ob_world b) "ml_g" dcol r) (ly_obj ml_g) k (qc_g c k) /\ fold_clone L (params_at (ob_world b) "ml_m" dcol r) (ly_obj ml_m) k (qc_m c k)) /\
       length ipws = length fs /\
       forall i, (i < n)%nat -> exists k g ipw, tested_in fs i k g /\ nth_error ipws k = Some ipw /\
         pq_preliminary L gv (o r (length fs)) c x y d k g ipw /\ pq_cross L L fv fv gv gv (o r (length fs)) c x y d k g ipw i (gh i) (mh i) /\
         nr_preds p "ml_g" i = Some (gh i) /\ nr_preds p "ml_m" i = Some (rclip thr (1 - thr) (mh i))) /\
      let wt := arm_weight n (qc_treated c) nm thr d mh in
      let theta := nr_theta p in
      let share t := wshare n wt (fun i => rleb (y i) t) + meanf n (fun i => (1 - wt i) * gh i) in
      among n y theta /\
      (nr_warn p = false -> forall lo hi, lo < theta - tol -> theta + tol < hi -> share lo <= q <= share hi) /\
      (weights_defined n (qc_treated c) nm thr d mh -> h (fun i => y i - theta) wt <> 0 ->
       estimate_is F n 0 r theta (fun i => wt i * b2r (rleb (y i) theta) + (1 - wt i) * gh i - q) (- (INR n * h (fun i => y i - theta) wt)))).
Proof.
  intros until a. intros Re Un Rd Hn H Hq Ha So Hbo Hfm Hbn La.
  destruct (pq_made _ _ _ _ _ _ _ _ _ _ _ _ _ _ _ _ _ _ _ _ _ _ Re Rd Un H) as (dc & mc & tr & q0 & nm0 & th & st & h & Bt & Kd & EK & Sr & Lg & Lm & Q0 & A0 & En & Et & Hth & Har & Es). injection En as <-. injection Et as <-.
  assert (q0 = q) as -> by (destruct Q0 as (X & _), Hq as (Y & _); congruence).
  assert (level tr = a) as <-. { destruct A0 as [(A1 & A2)|(A1 & A2)], Ha as [(A3 & A4)|(A3 & A4)]; rewrite ?A2, ?A4; try reflexivity; exfalso; destruct A1, A3; congruence. }
  exists dc, h. split; [exact Bt|]. split. { destruct kde as [|k|]; cbn in Kd; [left|right|discriminate]; [split; congruence|congruence]. }
  intros n x y d. assert (Hq' : 0 < q < 1) by apply Hq. subst K. set (K := pq_class _ _ _ _ _ _ _ _ _ _ _ _ _ _) in *.
  pose proof (bounds_range n y Hn) as Rg.
  set (I := fun s : R => fst (pq_bounds n y) <= s <= snd (pq_bounds n y)).
  assert (Kp : forall m models ext start r, I start -> (forall sm, m_smpls m = Some sm -> forall fs, In fs sm -> fs <> []) -> I (fst (nl_rep_fit sv K m models ext start r))) by (intros; apply pq_keeps; assumption).
  assert (I0 : I (ob_start b0)) by (rewrite Es; apply pq_start_range; assumption).
  destruct (nl_reached sv K I Kp Hn b0 b Sr I0 La) as (Sb & Ib). split; [exact (range_among n y _ _ Rg Ib)|]. intro Hf.
  destruct (nl_fit_inv sv K I Kp Hn nj store ext smod b b' Sb Ib Hf) as (_ & Ib' & sm & reps & F & Em & Er & Ln & Ef & Each).
  assert (Hsm : (0 < length sm)%nat). { rewrite (wf_smpls _ _ (reachable_wf _ _ (reached_reachable _ _ Sb)) sm Em). apply (reachable_wf _ _ (reached_reachable _ _ Sb)). }
  destruct (nl_framework K Hn reps F) as (Fw & Fa & Fr & Ft & _ & Fe); [intros ->; cbn in Ln; lia|exact Ef|].
  exists sm, reps, F. split; [exact Em|]. split; [exact Er|]. split; [exact Ln|]. split; [exact (range_among n y _ _ Rg Ib')|]. split; [exact Fw|]. split; [exact Fa|]. split; [congruence|]. split; [exact Ft|].
  intros r fs Hr. destruct (Each r fs Hr) as (Pt & Ne & s0 & s1 & p & Is & Rf & Np). destruct (Fe r p Np) as (Th & Se & _ & Sp).
  unfold nl_rep_fit in Rf. match type of Rf with (match ?t with Ok _ => _ | Err _ => _ end) = _ => destruct t as [out|e] eqn:Eo end; [|discriminate].
  apply bind_ok in Eo as (ed & Ed & Eo). apply bind_ok in Eo as (fs' & Fs & Eo). unfold smpls_rep in Fs. rewrite Em, Hr in Fs. injection Fs as <-.
  cbn [K nk_est pq_class] in Eo. apply pq_est_inv in Eo as (gs & ms & po & Gs & Ms & Pq & _ & Eout). cbv zeta in Pq.
  set (c := pq_object_cfg _ _ _ _ _ _ _ _ _ _) in *.
  destruct (nl_est_coef _ _ _ _ _ _ _ _) as [(theta & warn)|] eqn:Nl in Rf; [|discriminate].
  rewrite Eout in Rf, Nl. cbn [nx_score nx_deriv nx_start K nk_n nk_bounds pq_class] in Rf, Nl.
  apply (f_equal snd) in Rf. unfold snd in Rf. apply bind_ok in Rf as (v & Ve & Rf). apply ok_inj in Rf. pose proof Rf as Rp. clear Rf.
  assert (Pf : pq_fit L L (o r (length fs)) [] sv h c s0 x y d fs = Ok (theta, po_start po, warn)).
  { unfold pq_fit. subst x y d. rewrite Pq. cbn [bind]. cbn [c pq_object_cfg qc_fuel qc_n qc_q qc_treated qc_norm qc_thr qc_bounds]. rewrite Nl. reflexivity. }
  assert (Bd : binary n d) by (apply zero_one_col_binary, Bt).
  destruct (pq_fit_root L L (o r (length fs)) [] c x y d sv h tol s0 n fs theta (po_start po) warn (So _ _) Hbo Hfm Hbn Ne Hn eq_refl (Nat.le_refl 11) Bd Hth Is Pf) as (Tr & rr & Pq' & _ & Rt).
  assert (rr = po) as -> by (subst x y d; rewrite Pq in Pq'; apply ok_inj in Pq'; symmetry; exact Pq'). cbv zeta in Rt.
  exists p, c, (val (po_g po)), (val (po_m po)), (po_ipw po). split; [exact Np|]. split. { constructor; try reflexivity. exact Rg. }
  pose proof (external_matches (nl_ctx K) ext dc r ed Ed) as Mx.
  split. { intros e Se'. specialize (Mx "ml_g" ltac:(cbn; tauto)). apply (pq_given_g _ _ _ _ _ _ _ _ _ _ _ Pq). cbn [c pq_object_cfg qc_ext_g].
    destruct (ed "ml_g") as [v'|]; [rewrite (supplied_same _ _ _ _ _ _ Se' Mx); reflexivity|destruct (Mx e Se')]. }
  split. { intros e Se'. specialize (Mx "ml_m" ltac:(cbn; tauto)). apply (pq_given_m _ _ _ _ _ _ _ _ _ _ _ Pq). cbn [c pq_object_cfg qc_ext_m].
    destruct (ed "ml_m") as [v'|]; [rewrite (supplied_same _ _ _ _ _ _ Se' Mx); reflexivity|destruct (Mx e Se')]. }
  split.
  { intros Rw Co Cl In_ Ng Nm.
    assert (Eg : ed "ml_g" = None). { pose proof (Mx "ml_g" ltac:(cbn; tauto)) as Q. destruct (ed "ml_g"); [destruct (Ng _ Q)|reflexivity]. }
    assert (Em' : ed "ml_m" = None). { pose proof (Mx "ml_m" ltac:(cbn; tauto)) as Q. destruct (ed "ml_m"); [destruct (Nm _ Q)|reflexivity]. }
    destruct (pq_documented L L fv fv gv gv (o r (length fs)) [] c x y d Rw Co Rw Co Cl Em' s0 n fs po Is Pt In_ Pq) as (Li & _ & D).
    split. { intros k Hk. rewrite <- Lg, <- Lm. split; eapply fold_ests_at; eauto. }
    split; [exact Li|]. intros i Hi. destruct (D i Hi) as (k & g & ipw & gi & mi & D1 & D2 & D3 & D4 & D5 & D6). exists k, g, ipw. unfold val. rewrite D3, D4.
    cbn [c pq_object_cfg qc_ext_g] in D6. rewrite Eg in D6. rewrite <- Rp. cbn [nr_preds nx_preds trim_hat h_preds String.eqb Ascii.eqb Bool.eqb]. rewrite D3, D4. auto 10. }
  intros wt theta' share. assert (Tp : theta' = theta) by (unfold theta'; rewrite <- Rp; reflexivity). rewrite Tp in *. clear theta' Tp.
  split; [exact (range_among n y _ _ Rg Tr)|]. split.
  { intros Wn lo hi Hlo Hhi. rewrite <- Rp in Wn. cbn [nr_warn] in Wn. destruct (Rt Wn lo hi Hlo Hhi) as (R1 & R2). unfold share, wt. cbn [c pq_object_cfg qc_treated qc_norm qc_thr qc_q] in R1, R2 |- *. lra. }
  intros Wd Hk.
  assert (EQ : forall i, (i < n)%nat -> pq_score q (arm tr d) (val (po_g po)) (pq_adjust n tr nm thr d (val (po_m po))) y theta i = wt i * b2r (rleb (y i) theta) + (1 - wt i) * val (po_g po) i - q).
  { intros i Hi. specialize (Wd i Hi). unfold pq_score, wt, arm_weight. change (qc_treated c) with tr in *. set (ma := pq_adjust _ _ _ _ _ _ _) in *. field. exact Wd. }
  pose proof (nl_estimate_is n F r theta (nr_se p) (pq_score q (arm tr d) (val (po_g po)) (pq_adjust n tr nm thr d (val (po_m po))) y theta) (h (fun i => y i - theta) wt) v Hn) as Q.
  apply (fun H => estimate_eq _ _ _ _ _ _ _ _ _ _ H eq_refl EQ eq_refl). apply Q; [intro i; rewrite Sp, <- Rp; reflexivity|rewrite Th, <- Rp; reflexivity|exact Se|exact Hk|exact Ve|rewrite <- Rp; reflexivity].
Qed.

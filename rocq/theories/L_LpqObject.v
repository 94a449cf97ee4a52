(** Local potential quantile objects. *)
From Verif Require Import L_External L_Sum L_LocalFit L_Local L_Lpq L_Quantile L_QScore L_ModelProps.
From Verif Require Export L_PqObject.
From Coq Require Import Lia Lra.
Local Open Scope R_scope.
Local Open Scope res_scope.
Local Open Scope string_scope.

Lemma lpq_made : forall (E P : Type) (L : learner E row P) rd fr s dflt o ml_g ml_m treatment quantile nf nr score norm kde rule thr draw K b0,
  S_Data.reachable fr s -> sound_randomness rd -> unclustered s -> lpq_init L rd fr s dflt o ml_g ml_m treatment quantile nf nr score norm kde rule thr draw = Ok (K, b0) ->
  exists c zc mc tr q nm th st k, binary_treatment fr s c /\ binary_instrument fr s zc /\ check_kde dflt kde = Ok k /\
    K = lpq_class L mc (M_Data.frows fr) o k c tr q nm th (covariates fr s c) (outcome fr s) (col fr c) (col fr zc) st /\ soundly_reached (nl_ctx K) (ob_world b0) /\
    (forall l, In l lpq_names -> mc_learner mc l = ln_clone L (ly_obj (local_learner ml_g ml_m l))) /\ quantile_ok quantile q /\ arm_number treatment (level tr) /\
    norm = PBool nm /\ thr = PFloat th /\ has_arm (M_Data.frows fr) tr (col fr c) = true /\ ob_start b0 = pq_start (M_Data.frows fr) tr q (outcome fr s) (col fr c).
Proof.
  intros until b0. intros Re Rd Un H. unfold lpq_init in H. bi H w B. bi H k Kd. ri H D. destruct (arrays_r fr s Re) as (_ & Az & _). rewrite Az in H.
  destruct (M_Data.r_z (M_Data.dd_roles s)) as [[|z [|z' l]]|] eqn:Ez; try discriminate. ri H Zn. bi H sc Sc. bi H q Q. bi H tr Tr. bi H nm Nm. ri H Ar. cbv zeta in H. bi H w' Rw. bi H th T. bi H g G. bi H m M. apply ok_inj in H. injection H as <- <-.
  destruct (one_binary_r fr s Re D) as (c & Ec & Bt). apply quantile_iff in Q. apply treatment_iff in Tr. apply bool_iff in Nm. apply trimming_iff in T as (_ & T2 & T3). apply zero_one_iff in Zn.
  rewrite (outcome_col fr s Re), (active_covariates fr s Re), Ec. rewrite Ec in Rw, Ar. pose proof Bt as (Qd & _). rewrite Qd. cbn [hd ob_world ob_start].
  eexists c, z, _, tr, q, nm, th, _, k. split; [exact Bt|]. split; [split; [exact Ez|exact Zn]|]. split; [exact Kd|]. split; [reflexivity|].
  split. { rewrite <- (plain_ctx fr s Re (nl_ctx _) Un). eapply made_strat; [exact Rd|exact B|exact Rw|reflexivity|rewrite Qd; reflexivity|reflexivity..]. }
  split. { intros l [<-|[<-|[<-|[<-|[<-|[]]]]]]; reflexivity. } auto 10.
Qed.

Lemma named_all {B} (g : string -> result (list B)) names : forall l, map_res (fun name => let! es := g name in Ok (name, es)) names = Ok l ->
  forall name, In name names -> g name = Ok (match dict_get name l with Some es => es | None => [] end).
Proof.
  induction names as [|a names IH]; intros l H name []; cbn [map_res] in H.
  - subst a. bi H e Qe. bi Qe es G. apply ok_inj in Qe. subst e. bi H ys Y. apply ok_inj in H. subst l. cbn [dict_get]. rewrite String.eqb_refl. exact G.
  - bi H e Qe. bi Qe es G. apply ok_inj in Qe. subst e. bi H ys Y. apply ok_inj in H. subst l. cbn [dict_get]. destruct (String.eqb name a) eqn:Ea; [apply String.eqb_eq in Ea; subst a; exact G|exact (IH ys Y name H0)].
Qed.

Section Lpq.
Context {E P : Type}.
Variable L : learner E row P.
Variable mc : machinery E P.
Variable n : nat.
Variable o : nat -> nat -> q_oracles.
Variable kde : vec -> vec -> R.
Variables (dcol : string) (tr : bool) (q : R) (nm : bool) (th : R) (x : nat -> row) (y d z : vec) (st : option (nat -> Z)).
Variable sv : solvers.
Notation K := (lpq_class L mc n o kde dcol tr q nm th x y d z st).
Notation In_range s := (fst (pq_bounds n y) <= s <= snd (pq_bounds n y)).
Hypothesis So : forall r k, solver_ok (o r k).
Lemma lpq_est_inv models start r fs prm ext out : lpq_est L mc n o kde tr q nm th x y d z models start r fs prm ext = Ok out ->
  exists ests p, let c := lpq_object_cfg n tr q nm th y ests (mc_learner mc "ml_m_z") ext in
    ((exists l, In l lpq_names /\ ext l = None) -> forall l, In l lpq_names -> fold_ests L (mc_learner mc l) (prm l) (length fs) = Ok (ests l)) /\
    lpq_nuisance L L (o r (length fs)) [] c start x y d z fs = Ok p /\
    out = {| nx_score := lpq_psi c y d z p; nx_deriv := lpq_deriv kde c y d z p; nx_preds := lo_preds p; nx_targets := fun l => Some (lpq_targets c y d z fs p l); nx_start := lo_start p |}.
Proof.
  intro H. unfold lpq_est in H. bi H ests Es. cbv zeta in H. bi H p Pq. ri H Mo. apply ok_inj in H. exists ests, p. intro c.
  split; [|split; [exact Pq|symmetry; exact H]].
  intros (l0 & Hin & He). assert (A : forallb (fun l => match ext l with Some _ => true | None => false end) lpq_names = false).
  { destruct Hin as [<-|[<-|[<-|[<-|[<-|[]]]]]]; cbn; rewrite He; repeat destruct (ext _); reflexivity. }
  rewrite A in Es. unfold all_ests in Es.
  bi Es pl Pl. apply ok_inj in Es. subst ests. intros l Hl. exact (named_all _ _ _ Pl l Hl).
Qed.
Lemma lpq_keeps (m : dml P) models ext start r : In_range start -> (forall sm, m_smpls m = Some sm -> forall fs, In fs sm -> fs <> []) -> In_range (fst (nl_rep_fit sv K m models ext start r)).
Proof.
  intros Hs Ne. unfold nl_rep_fit.
  match goal with |- context [match ?t with Ok _ => _ | Err _ => _ end] => destruct t as [out|e] eqn:Eo end; [|exact Hs]. cbn [fst].
  apply bind_ok in Eo as (ed & _ & Eo). apply bind_ok in Eo as (fs & Fs & Eo). cbn [nk_est lpq_class] in Eo. apply lpq_est_inv in Eo as (ests & p & _ & Pq & ->). cbn [nx_start].
  unfold smpls_rep in Fs. destruct (m_smpls m) as [sm|]; [|discriminate]. destruct (nth_error sm r) as [fs'|] eqn:N; [|discriminate]. injection Fs as <-.
  exact (lpq_start_between L L (o r (length fs')) [] (lpq_object_cfg n tr q nm th y ests (mc_learner mc "ml_m_z") ed) start x y d z fs' p (So _ _) (Ne sm eq_refl fs' (nth_error_In _ _ N)) Hs Pq).
Qed.
End Lpq.

Lemma lpq_end : forall (E P : Type) (L : learner E row P) fv gv rd fr s dflt o ml_g ml_m treatment quantile nf nr score nm kde rule thr draw K b0 b sv tol nj store ext smod b' q a,
  S_Data.reachable fr s -> unclustered s -> sound_randomness rd -> (0 < M_Data.frows fr)%nat ->
  lpq_init L rd fr s dflt o ml_g ml_m treatment quantile nf nr score (PBool nm) kde rule (PFloat thr) draw = Ok (K, b0) ->
  quantile_ok quantile q -> arm_number treatment a ->
  (forall r k, solver_ok (o r k)) -> brentq_ok sv -> fmin_ok sv -> brentq_near sv tol -> nl_later sv K b0 b ->
  exists dcol zcol h, binary_treatment fr s dcol /\ binary_instrument fr s zcol /\ (kde = KdeNone /\ h = dflt \/ kde = KdeFun h) /\
  let n := M_Data.frows fr in let x := covariates fr s dcol in let y := outcome fr s in let d := col fr dcol in let z := col fr zcol in
  among n y (ob_start b) /\
  (nl_fit sv K nj store ext smod b = (b', Ok tt) ->
  exists sm reps F, m_smpls (w_obj (ob_world b)) = Some sm /\ ob_res b' = Some (reps, F) /\ length reps = length sm /\ among n y (ob_start b') /\
    fw_wf F /\ fw_aggregated F /\ fw_n_rep F = length sm /\ fw_n_thetas F = 1%nat /\
    forall r fs, nth_error sm r = Some fs -> exists p c mz d0 d1 g0 g1 ipws, nth_error reps r = Some p /\ local_setting c n y a q nm thr /\
      (forall e, (forall l, In l lpq_names -> supplied ext dcol l r (e l)) ->
        forall i, mz i = e "ml_m_z" i /\ d0 i = e "ml_m_d_z0" i /\ d1 i = e "ml_m_d_z1" i /\ g0 i = e "ml_g_du_z0" i /\ g1 i = e "ml_g_du_z1" i) /\
      (row_wise L fv gv -> classifier_ok L gv -> clone_ok L ->
       (forall g, In g fs -> let or := o r (length fs) in inner_split z (lfirst_half or d z g) (qo_skf or (map (cells4 d z) (lfirst_half or d z g))) (qo_order or)) ->
       (exists l, In l lpq_names /\ forall e, ~ supplied ext dcol l r e) ->
       (forall l k, In l lpq_names -> (k < length fs)%nat -> fold_clone L (params_at (ob_world b) l dcol r) (ln_clone L (ly_obj (local_learner ml_g ml_m l))) k (lc_est c l k)) /\
       length ipws = length fs /\
       forall i, (i < n)%nat -> exists k g ipw, tested_in fs i k g /\ nth_error ipws k = Some ipw /\
         lpq_preliminary L fv gv (o r (length fs)) c x y d z k g ipw /\ lpq_cross L L fv fv gv gv (o r (length fs)) c x y d z k g ipw i (mz i) (d0 i) (d1 i) (g0 i) (g1 i) /\
         nr_preds p "ml_m_z" i = Some (mz i) /\ nr_preds p "ml_m_d_z0" i = Some (d0 i) /\ nr_preds p "ml_m_d_z1" i = Some (d1 i) /\
         nr_preds p "ml_g_du_z0" i = Some (g0 i) /\ nr_preds p "ml_g_du_z1" i = Some (g1 i)) /\
      let m := lpq_adjust n nm thr z mz in
      let share := meanf n (dr_signal d z d0 d1 m) in
      let sign := 2 * a - 1 in
      let theta := nr_theta p in
      let dens := h (fun i => y i - theta) (fun i => sign * (z i / m i - (1 - z i) / (1 - m i)) * arm (lc_treated c) d i / share) in
      among n y theta /\
      (nr_warn p = false -> crosses (fun t => sign * meanf n (dr_signal (event c y d t) z g0 g1 m) / share - q) tol theta) /\
      (propensities_defined n m -> share <> 0 -> dens <> 0 ->
       estimate_is F n 0 r theta (fun i => sign * dr_signal (event c y d theta) z g0 g1 m i / share - q) (- (INR n * dens)))).
Proof.
  intros until a. intros Re Un Rd Hn H Hq Ha So Hbo Hfm Hbn La.
  destruct (lpq_made _ _ _ _ _ _ _ _ _ _ _ _ _ _ _ _ _ _ _ _ _ _ Re Rd Un H) as (dc & zc & mc & tr & q0 & nm0 & th & st & h & Bt & Bz & Kd & EK & Sr & Lm & Q0 & A0 & En & Et & Har & Es). injection En as <-. injection Et as <-.
  assert (q0 = q) as -> by (destruct Q0 as (X & _), Hq as (Y & _); congruence).
  assert (level tr = a) as <-. { destruct A0 as [(A1 & A2)|(A1 & A2)], Ha as [(A3 & A4)|(A3 & A4)]; rewrite ?A2, ?A4; try reflexivity; exfalso; destruct A1, A3; congruence. }
  exists dc, zc, h. split; [exact Bt|]. split; [exact Bz|]. split. { destruct kde as [|k|]; cbn in Kd; [left|right|discriminate]; [split; congruence|congruence]. }
  intros n x y d z. assert (Hq' : 0 < q < 1) by apply Hq. subst K. set (K := lpq_class _ _ _ _ _ _ _ _ _ _ _ _ _ _ _) in *.
  pose proof (bounds_range n y Hn) as Rg.
  set (I := fun s : R => fst (pq_bounds n y) <= s <= snd (pq_bounds n y)).
  assert (Kp : forall m models ext start r, I start -> (forall sm, m_smpls m = Some sm -> forall fs, In fs sm -> fs <> []) -> I (fst (nl_rep_fit sv K m models ext start r))) by (intros; apply lpq_keeps; assumption).
  assert (I0 : I (ob_start b0)) by (rewrite Es; apply pq_start_range; assumption).
  destruct (nl_reached sv K I Kp Hn b0 b Sr I0 La) as (Sb & Ib). split; [exact (range_among n y _ _ Rg Ib)|]. intro Hf.
  destruct (nl_fit_inv sv K I Kp Hn nj store ext smod b b' Sb Ib Hf) as (_ & Ib' & sm & reps & F & Em & Er & Ln & Ef & Each).
  assert (Hsm : (0 < length sm)%nat). { rewrite (wf_smpls _ _ (reachable_wf _ _ (reached_reachable _ _ Sb)) sm Em). apply (reachable_wf _ _ (reached_reachable _ _ Sb)). }
  destruct (nl_framework K Hn reps F) as (Fw & Fa & Fr & Ft & _ & Fe); [intros ->; cbn in Ln; lia|exact Ef|].
  exists sm, reps, F. split; [exact Em|]. split; [exact Er|]. split; [exact Ln|]. split; [exact (range_among n y _ _ Rg Ib')|]. split; [exact Fw|]. split; [exact Fa|]. split; [congruence|]. split; [exact Ft|].
  intros r fs Hr. destruct (Each r fs Hr) as (Pt & Ne & s0 & s1 & p & Is & Rf & Np). destruct (Fe r p Np) as (Th & Se & _ & Sp).
  unfold nl_rep_fit in Rf. match type of Rf with (match ?t with Ok _ => _ | Err _ => _ end) = _ => destruct t as [out|e] eqn:Eo end; [|discriminate].
  apply bind_ok in Eo as (ed & Ed & Eo). apply bind_ok in Eo as (fs' & Fs & Eo). unfold smpls_rep in Fs. rewrite Em, Hr in Fs. injection Fs as <-.
  cbn [K nk_est lpq_class] in Eo. apply lpq_est_inv in Eo as (ests & po & Gs & Pq & Eout). cbv zeta in Pq.
  set (c := lpq_object_cfg _ _ _ _ _ _ _ _ _) in *.
  destruct (nl_est_coef _ _ _ _ _ _ _ _) as [(theta & warn)|] eqn:Nl in Rf; [|discriminate].
  rewrite Eout in Rf, Nl. cbn [nx_score nx_deriv nx_start K nk_n nk_bounds lpq_class] in Rf, Nl.
  apply (f_equal snd) in Rf. unfold snd in Rf. apply bind_ok in Rf as (v & Ve & Rf). apply ok_inj in Rf. pose proof Rf as Rp. clear Rf.
  assert (Pf : lpq_fit L L (o r (length fs)) [] sv h c s0 x y d z fs = Ok (theta, lo_start po, warn)).
  { unfold lpq_fit. subst x y d z. rewrite Pq. cbn [bind]. cbn [c lpq_object_cfg lc_fuel lc_n lc_bounds]. rewrite Nl. reflexivity. }
  destruct (lpq_fit_root L L (o r (length fs)) [] c sv h tol s0 n x y d z fs theta (lo_start po) warn (So _ _) Hbo Hfm Hbn Ne Hn eq_refl (Nat.le_refl 11) Is Pf) as (Tr & rr & Pq' & _ & Rt).
  assert (rr = po) as -> by (subst x y d z; rewrite Pq in Pq'; apply ok_inj in Pq'; symmetry; exact Pq'). cbv zeta in Rt.
  exists p, c, (val (lo_preds po "ml_m_z")), (val (lo_preds po "ml_m_d_z0")), (val (lo_preds po "ml_m_d_z1")), (val (lo_preds po "ml_g_du_z0")), (val (lo_preds po "ml_g_du_z1")), (lo_ipw po).
  split; [exact Np|]. split. { constructor; try reflexivity. exact Rg. }
  pose proof (external_matches (nl_ctx K) ext dc r ed Ed) as Mx.
  split. { intros e Se' i.
    assert (A : forall l, In l lpq_names -> ed l = Some (e l)). { intros l Hl. specialize (Mx l Hl). destruct (ed l) as [v'|]; [rewrite (supplied_same _ _ _ _ _ _ (Se' l Hl) Mx); reflexivity|destruct (Mx _ (Se' l Hl))]. }
    pose proof Pq as Q. unfold lpq_nuisance in Q. cbn [c lpq_object_cfg lc_ext lpq_names forallb] in Q. rewrite !A in Q by (cbn; tauto). cbn [andb] in Q. apply ok_inj in Q. rewrite <- Q. unfold val. cbn [lo_preds]. rewrite !A by (cbn; tauto). cbn [option_map]. auto. }
  split.
  { intros Rw Co Cl In_ (l0 & Hl0 & Nl0).
    assert (E0 : ed l0 = None). { pose proof (Mx l0 Hl0) as Q. destruct (ed l0); [destruct (Nl0 _ Q)|reflexivity]. }
    destruct (lpq_documented L L (o r (length fs)) [] c fv fv gv gv x y d z Rw Co Rw Co Cl s0 n fs po Is Pt (ex_intro _ l0 (conj Hl0 E0)) In_ Pq) as (Li & _ & D).
    split. { intros l k Hl Hk. rewrite <- (Lm l Hl). eapply fold_ests_at; [exact (Gs (ex_intro _ l0 (conj Hl0 E0)) l Hl)|exact Hk]. }
    split; [exact Li|]. intros i Hi. destruct (D i Hi) as (k & g & ipw & mzi & d0i & d1i & g0i & g1i & D1 & D2 & D3 & D4 & D5 & D6 & D7 & D8 & D9). exists k, g, ipw. unfold val. rewrite D3, D4, D5, D6, D7.
    rewrite <- Rp. cbn [nr_preds nx_preds]. rewrite D3, D4, D5, D6, D7. auto 12. }
  intros m share sign theta'. assert (Tp : theta' = theta) by (unfold theta'; rewrite <- Rp; reflexivity). rewrite Tp in *. clear theta' Tp. intro dens.
  split; [exact (range_among n y _ _ Rg Tr)|]. split.
  { intros Wn. rewrite <- Rp in Wn. cbn [nr_warn] in Wn. assert (Sg : sign = if tr then 1 else -1) by (unfold sign, level; destruct tr; lra). rewrite Sg. exact (Rt Wn). }
  intros Wd Hs Hk.
  assert (EQ : forall i, lpq_psi c y d z po theta i = sign * dr_signal (event c y d theta) z (val (lo_preds po "ml_g_du_z0")) (val (lo_preds po "ml_g_du_z1")) m i / share - q).
  { intro i. change (lpq_psi c y d z po theta i) with (lpq_score tr q (arm tr d) m (val (lo_preds po "ml_g_du_z0")) (val (lo_preds po "ml_g_du_z1")) y z (lpq_comp n d z m (val (lo_preds po "ml_m_d_z0")) (val (lo_preds po "ml_m_d_z1"))) theta i).
    rewrite lpq_comp_signal. fold share. clearbody share m. unfold lpq_score, sign, lpq_sign, dr_signal, dr_level, compl, event, Rdiv. cbn [c lpq_object_cfg lc_treated]. ring. }
  assert (ED : lpq_deriv h c y d z po theta = fun _ => dens). { unfold lpq_deriv, lpq_comp_hat. rewrite lpq_comp_signal. reflexivity. }
  pose proof (nl_estimate_is n F r theta (nr_se p) (lpq_psi c y d z po theta) dens v Hn) as Q.
  apply (fun H => estimate_eq _ _ _ _ _ _ _ _ _ _ H eq_refl (fun i _ => EQ i) eq_refl). apply Q; [intro i; rewrite Sp, <- Rp; cbn [nr_psi nr_deriv nx_score nx_deriv]; rewrite <- ED; subst y d z; reflexivity|rewrite Th, <- Rp; reflexivity|exact Se|exact Hk|rewrite <- ED; exact Ve|rewrite <- Rp; reflexivity].
Qed.

(** Covariates changed after a model object was created. *)
From Verif Require Export L_SharedMore.
From Verif Require Import L_DataOps L_DataProps L_Data L_InitMade L_Init.
From Coq Require Import Lia Lra.
Local Open Scope R_scope.
Local Open Scope string_scope.

Lemma same_active f s s' : S_Data.reachable f s' -> same_but_covariates s s' -> M_Data.r_d (M_Data.dd_roles s) = [M_Data.c_d s] -> M_Data.c_d s' = M_Data.c_d s.
Proof. intros Re (x & oth & fo & c & xl & ->) One. destruct (arrays_r _ _ Re) as (_ & _ & _ & _ & _ & I). cbn in *. rewrite One in I. destruct I as [I|[]]. now symmetry. Qed.
Section Moves.
Context {E P : Type}.
Variables (L : learner E row P) (rd : randomness) (f : M_Data.frame) (s : M_Data.ddata).
Hypothesis Re : S_Data.reachable f s.
Ltac bi H x X := apply bind_ok in H as (x & X & H).
Ltac ri H X := apply require_ok in H as (X & H).
Ltac redo := repeat match goal with
  | B : ?e = Ok _ |- bind ?e' _ = _ => change e' with e; rewrite B; cbn [bind]
  | B : ?b = true |- require ?b' _ _ = _ => change b' with b; rewrite B; cbn [require]
  end.
Notation n := (M_Data.frows f).
Notation dcols s := (M_Data.r_d (M_Data.dd_roles s)).
Ltac start := let E' := fresh "E'" in intros s' Re' Sb; pose proof Sb as (? & ? & ? & ? & ? & E').
Ltac finish := cbv zeta; redo; reflexivity.
Lemma plr_moves ml_l ml_m ml_g nf nr score draw C w0 : plr_init L rd f s ml_l ml_m ml_g nf nr score draw = Ok (C, w0) ->
  exists mc iv, keeps_up f s (fun s => plr_init L rd f s ml_l ml_m ml_g nf nr score draw) (live_plr L mc f iv) w0.
Proof.
  intro H. unfold plr_init in H. bi H w B. ri H Zn. bi H sc Sc. bi H cla Ll. bi H mc Lm. cbv zeta in H. bi H g G. bi H u Bn. apply ok_same in H. injection H as Ec <-.
  match type of Ec with context [plr_ctx _ ?m _ _ ?i _ _ _ _] => exists m, i; set (mc0 := m); set (iv0 := i) end. start.
  exists (with_clusters f s' (plr_ctx L mc0 n (dcols s') iv0 (fun t => match dict_get (nth t (dcols s') EmptyString) (M_Data.dd_bt s') with Some b => b | None => false end) (x_of f s') (col f (M_Data.c_y s')) (d_of f s'))). split.
  - rewrite E'. unfold plr_init. redo. finish.
  - unfold live_plr. several Re'.
Qed.
Lemma pliv_moves proj ml_l ml_m ml_r ml_g nf nr score draw C w0 : pliv_init L rd f s proj ml_l ml_m ml_r ml_g nf nr score draw = Ok (C, w0) ->
  exists mc, (exists iv zc, keeps_up f s (fun s => pliv_init L rd f s proj ml_l ml_m ml_r ml_g nf nr score draw) (live_pliv L mc f iv zc) w0) \/
    exists zs, keeps_up f s (fun s => pliv_init L rd f s proj ml_l ml_m ml_r ml_g nf nr score draw) (live_pliv_several L mc f proj zs) w0.
Proof.
  intro H. unfold pliv_init in H. bi H w B. destruct (M_Data.c_z s) as [[|zc more]|] eqn:Z; try discriminate. bi H sc Sc. bi H a1 L1. bi H a2 L2. bi H a3 L3. cbv zeta in H. bi H g G. apply ok_same in H. injection H as Ec <-.
  match type of Ec with context [pliv_ctx _ ?m _ _ ?i] => exists m; pose (iv := i); set (mc0 := m) in * end. destruct more as [|z2 more].
  - left. exists iv, zc. start. exists (with_clusters f s' (pliv_ctx L mc0 n (dcols s') iv (x_of f s') (col f (M_Data.c_y s')) (d_of f s') (col f zc))). split.
    + rewrite E'. unfold pliv_init. redo. cbn [M_Data.c_z]. rewrite Z. redo. finish.
    + unfold live_pliv. several Re'.
  - right. exists (zc :: z2 :: more). start.
    exists (with_clusters f s' (asserting (one_key ["ml_l"; "ml_m"; "ml_r"] (map (fun c => "ml_m_" ++ c) (zc :: z2 :: more))) (pliv_several_ctx L mc0 n proj (dcols s') (x_of f s') (col f (M_Data.c_y s')) (d_of f s') (map (fun c => (c, col f c)) (zc :: z2 :: more))))). split.
    + rewrite E'. unfold pliv_init. redo. cbn [M_Data.c_z]. rewrite Z. redo. finish.
    + assert (Q : forall b, follows s' (with_clusters f s' (asserting b (pliv_several_ctx L mc0 n proj (dcols s') (x_of f s') (col f (M_Data.c_y s')) (d_of f s') (map (fun c => (c, col f c)) (zc :: z2 :: more)))))
      (fun s => with_clusters f s (asserting b (pliv_several_ctx L mc0 n proj (dcols s) (fun _ => feats f (M_Data.c_x s)) (col f (M_Data.c_y s)) (fun _ => col f (M_Data.c_d s)) (map (fun c => (c, col f c)) (zc :: z2 :: more)))))) by (intros []; several Re'). exact (Q _).
Qed.
Lemma one_of' b : one_treat s && b = true -> dcols s = [M_Data.c_d s].
Proof. intro H. apply andb_true_iff in H as (H & _). exact (one_treat_r f s Re H). Qed.
(** One treatment: the active column is the same. *)
Ltac start1 One := let E' := fresh "E'" in intros s' Re' Sb; pose proof (same_active _ _ _ Re' Sb One) as Ed; pose proof Sb as (? & ? & ? & c & ? & E'); assert (c = M_Data.c_d s) by (rewrite E' in Ed; exact Ed); subst c;
  assert (One' : dcols s' = [M_Data.c_d s']) by (rewrite Ed, E'; exact One).
Lemma irm_moves ml_g ml_m nf nr score wa norm rule thr draw C w0 : irm_init L rd f s ml_g ml_m nf nr score wa norm rule thr draw = Ok (C, w0) ->
  exists mc atte nm th st, keeps_up f s (fun s => irm_init L rd f s ml_g ml_m nf nr score wa norm rule thr draw) (live_irm L mc f atte nm th (weights_of wa) st) w0.
Proof.
  intro H. unfold irm_init in H. bi H w B. ri H Zn. ri H D. bi H sc' Sc. bi H w' Rw. bi H gc G. bi H mm M. bi H u Og. bi H nm Nm. bi H th T. cbv zeta in H. bi H u' W. apply ok_same in H. injection H as Ec <-.
  pose proof (one_of' _ D) as One. match type of Ec with context [irm_ctx _ ?m _ _ ?a ?b _ _ ?c _ _ _ _ ?d] => exists m, a, b, c, d; set (K := live_irm L m f a b c (weights_of wa) d) end. start1 One. exists (K s'). split.
  - rewrite E'. unfold irm_init. redo. finish.
  - unfold K, live_irm. single Re' One'.
Qed.
Lemma apo_moves ml_g ml_m level nf nr score wa norm rule thr draw C w0 : apo_init L rd f s ml_g ml_m level nf nr score wa norm rule thr draw = Ok (C, w0) ->
  exists mc nm th st, keeps_up f s (fun s => apo_init L rd f s ml_g ml_m level nf nr score wa norm rule thr draw) (live_apo L mc f nm th (weights_of wa) (treated_at f s level) st) w0.
Proof.
  intro H. unfold apo_init in H. bi H w B. cbv zeta in H. ri H D. ri H Zn. ri H Tr. bi H sc' Sc. bi H w' Rw. bi H gc G. bi H mm M. bi H u Og. bi H nm1 Nm. bi H th1 T. bi H u' W. apply ok_same in H. injection H as Ec <-.
  assert (One : M_Data.r_d (M_Data.dd_roles s) = [M_Data.c_d s]). { apply (one_of' true). rewrite andb_true_r. unfold one_treat. pose proof (some_treatment f s Re) as N. destruct (M_Data.r_d (M_Data.dd_roles s)) as [|a [|b l]]; [contradiction|reflexivity|discriminate D]. }
  match type of Ec with context [apo_ctx _ ?m _ _ ?b _ _ ?c _ _ _ _ _ ?d] => exists m, b, c, d; set (K := live_apo L m f b c (weights_of wa) (treated_at f s level) d) end. start1 One. exists (K s'). split.
  - rewrite E'. unfold apo_init. redo. finish.
  - unfold K, live_apo. single Re' One'.
Qed.
Lemma iivm_moves ml_g ml_m ml_r nf nr score sg norm rule thr draw C w0 : iivm_init L rd f s ml_g ml_m ml_r nf nr score sg norm rule thr draw = Ok (C, w0) ->
  exists mc nm a b th zc st, keeps_up f s (fun s => iivm_init L rd f s ml_g ml_m ml_r nf nr score sg norm rule thr draw) (live_iivm L mc f nm a b th zc st) w0.
Proof.
  intro H. unfold iivm_init in H. bi H w B. ri H D. destruct (M_Data.c_z s) as [[|z [|z' l]]|] eqn:Z; try discriminate. ri H Zn. bi H sc' Sc. cbv zeta in H. bi H w' Rw. bi H gc G. bi H mm M. bi H rr Mr. bi H u Og. bi H nm Nm. bi H th T. bi H p W. apply ok_same in H. injection H as Ec <-.
  pose proof (one_of' _ D) as One. match type of Ec with context [iivm_ctx _ ?m _ _ ?b _ ?x ?y _ ?c _ _ _ _ ?d] => exists m, b, x, y, c, z, d; set (K := live_iivm L m f b x y c z d) end. start1 One. exists (K s'). split.
  - rewrite E'. unfold iivm_init. redo. cbn [M_Data.c_z]. rewrite Z. redo. finish.
  - unfold K, live_iivm. single Re' One'.
Qed.
Lemma did_moves ml_g ml_m nf nr score norm rule thr draw C w0 : did_init L rd f s ml_g ml_m nf nr score norm rule thr draw = Ok (C, w0) ->
  exists mc obs nm th st, keeps_up f s (fun s => did_init L rd f s ml_g ml_m nf nr score norm rule thr draw) (live_did L mc f obs nm th st) w0.
Proof.
  intro H. unfold did_init in H. bi H w B. ri H Zn. ri H D. bi H sc' Sc. bi H nm Nm. bi H w' Rw. cbv zeta in H. bi H ls G. bi H th T. apply ok_same in H. injection H as Ec <-.
  pose proof (one_of' _ D) as One. match type of Ec with context [did_ctx _ ?m _ _ ?a ?b _ ?c _ _ _ ?d] => exists m, a, b, c, d; set (K := live_did L m f a b c d) end. start1 One. exists (K s'). split.
  - rewrite E'. unfold did_init. redo. finish.
  - unfold K, live_did. single Re' One'.
Qed.
Lemma cs_moves ml_g ml_m nf nr score norm rule thr draw C w0 : cs_init L rd f s ml_g ml_m nf nr score norm rule thr draw = Ok (C, w0) ->
  exists mc obs nm th tc st, keeps_up f s (fun s => cs_init L rd f s ml_g ml_m nf nr score norm rule thr draw) (live_cs L mc f obs nm th tc st) w0.
Proof.
  intro H. unfold cs_init in H. bi H w B. ri H Zn. ri H D. destruct (M_Data.c_t s) as [tc|] eqn:Et; [|discriminate]. ri H Z1. bi H sc' Sc. bi H nm Nm. cbv zeta in H. bi H w' Rw. bi H ls G. bi H th T. apply ok_same in H. injection H as Ec <-.
  pose proof (one_of' _ D) as One. match type of Ec with context [cs_ctx _ ?m _ _ ?a ?b _ ?c _ _ _ _ ?d] => exists m, a, b, c, tc, d; set (K := live_cs L m f a b c tc d) end. start1 One. exists (K s'). split.
  - rewrite E'. unfold cs_init. redo. cbn [M_Data.c_t]. rewrite Et. redo. finish.
  - unfold K, live_cs. single Re' One'.
Qed.
Lemma ssm_moves tts ml_g ml_pi ml_m nf nr score norm rule thr draw C w0 : length (dcols s) = 1%nat -> ssm_init L rd f s tts ml_g ml_pi ml_m nf nr score norm rule thr draw = Ok (C, w0) ->
  exists mc nm th selc st, keeps_up f s (fun s => ssm_init L rd f s tts ml_g ml_pi ml_m nf nr score norm rule thr draw) (live_ssm L mc f nm th selc st) w0 \/
    keeps_up f s (fun s => ssm_init L rd f s tts ml_g ml_pi ml_m nf nr score norm rule thr draw) (live_ssm_non L mc f tts nm th selc st) w0.
Proof.
  intros Ln H. assert (One : dcols s = [M_Data.c_d s]). { apply (one_of' true). rewrite andb_true_r. unfold one_treat. destruct (dcols s) as [|a [|b l]]; [discriminate|reflexivity|discriminate]. }
  unfold ssm_init in H. bi H w B. bi H th T. ri H Zq. bi H sc Sc. destruct (M_Data.c_s s) as [selc|] eqn:Es; [|discriminate]. cbv zeta in H. bi H w' Rw. bi H gc G. bi H p1 Mp. bi H mm M. bi H u Og. bi H nm Nm. apply ok_same in H. injection H as Ec <-.
  match type of Ec with context [ssm_ctx _ ?m _ _ ?b _ ?c _ _ _ _ ?d] => exists m, b, c, selc, d; set (mc0 := m); set (st := d) end. destruct (String.eqb sc "nonignorable") eqn:Non; [right|left]; start1 One.
  - exists (with_clusters f s' (ssm_non_ctx L mc0 n tts (dcols s') nm true th (x_of f s') (feats f (M_Data.optl (M_Data.c_z s'))) (col f (M_Data.c_y s')) (d_of f s') (col f selc) st)). split.
    + rewrite E'. unfold ssm_init. redo. cbn [M_Data.c_s]. rewrite Es. redo. cbv zeta. redo. rewrite Non. reflexivity.
    + unfold live_ssm_non. several Re'.
  - exists (with_clusters f s' (ssm_ctx L mc0 n (dcols s') nm true th (x_of f s') (col f (M_Data.c_y s')) (d_of f s') (col f selc) st)). split.
    + rewrite E'. unfold ssm_init. redo. cbn [M_Data.c_s]. rewrite Es. redo. cbv zeta. redo. rewrite Non. reflexivity.
    + unfold live_ssm. several Re'.
Qed.
End Moves.
(** ** Histories *)
Lemma cov_refl f s : S_Data.reachable f s -> same_but_covariates s s.
Proof. intros _. exists (M_Data.r_x (M_Data.dd_roles s)), (M_Data.dd_other s), (M_Data.dd_force s), (M_Data.c_d s), (M_Data.c_x s). destruct s as [[] ]. reflexivity. Qed.
Lemma cov_trans s s' s'' : same_but_covariates s s' -> same_but_covariates s' s'' -> same_but_covariates s s''.
Proof. intros (x & oth & fo & c & xl & ->) (x' & oth' & fo' & c' & xl' & ->). exists x', oth', fo', c', xl'. reflexivity. Qed.
Lemma cov_xd s c l : same_but_covariates s (M_Data.with_xd s c l).
Proof. exists (M_Data.r_x (M_Data.dd_roles s)), (M_Data.dd_other s), (M_Data.dd_force s), c, l. destruct s as [[] ]. reflexivity. Qed.
Lemma xd0_ok f s s1 : M_Data.set_xd0 f s = (s1, None) -> exists c l, s1 = M_Data.with_xd s c l.
Proof. unfold M_Data.set_xd0. destruct (M_Data.r_d _) as [|d r]; [discriminate|]. intro H. destruct (set_xd_cases _ _ _ _ _ H) as [(_ & _ & ->)|(N & _)]; [eauto|congruence]. Qed.
Lemma xd0_again f s c l s1 : M_Data.set_xd0 f s = (s1, None) -> M_Data.set_xd0 f (M_Data.with_xd s c l) = (s1, None).
Proof.
  unfold M_Data.set_xd0. change (M_Data.r_d (M_Data.dd_roles (M_Data.with_xd s c l))) with (M_Data.r_d (M_Data.dd_roles s)). destruct (M_Data.r_d _) as [|d r]; [discriminate|]. intro H. rewrite set_xd_eq in *.
  change (xd_ok f (M_Data.with_xd s c l) d) with (xd_ok f s d). destruct (xd_ok f s d); [exact H|discriminate].
Qed.
Definition about_covariates (o : M_Data.op) : Prop := match o with M_Data.SetX _ | M_Data.SetOther _ | M_Data.SetForce _ => True | _ => False end.
Lemma cov_assign f s o s1 : about_covariates o -> M_Data.assign f s o = (s1, None) -> same_but_covariates s s1 /\ forall c l, M_Data.assign f (M_Data.with_xd s c l) o = (s1, None).
Proof.
  intros A H. destruct o as [v|v|v|v|v|v|v|v|v|v]; try contradiction A; cbn [M_Data.assign] in *.
  - change (M_Data.dd_roles (M_Data.with_xd s _ _)) with (M_Data.dd_roles s) || idtac. unfold M_Data.arg in *. destruct (M_Data.x_arg f (M_Data.dd_roles s) v) as [x|e] eqn:Ex; [|discriminate]. unfold M_Data.check_disjoint in *. set (s0 := M_Data.with_roles s (M_Data.set_rx (M_Data.dd_roles s) x)) in *.
    unfold M_Data.next, M_Data.assert_ in H. destruct (M_Data.disjoint_roles (M_Data.dd_roles s0)) eqn:Dj; [|discriminate]. split.
    + destruct (xd0_ok f s0 s1 H) as (c & l & ->). apply (cov_trans s s0); [|apply cov_xd]. exists x, (M_Data.dd_other s), (M_Data.dd_force s), (M_Data.c_d s), (M_Data.c_x s). reflexivity.
    + intros c l. change (M_Data.dd_roles (M_Data.with_xd s c l)) with (M_Data.dd_roles s). try rewrite Ex. change (M_Data.with_roles (M_Data.with_xd s c l) (M_Data.set_rx (M_Data.dd_roles s) x)) with (M_Data.with_xd s0 c l).
      unfold M_Data.next, M_Data.assert_. change (M_Data.dd_roles (M_Data.with_xd s0 c l)) with (M_Data.dd_roles s0). rewrite Dj. exact (xd0_again f s0 c l s1 H).
  - unfold M_Data.arg in *. destruct (M_Data.bool_arg v) as [b|e]; [|discriminate]. set (s0 := M_Data.with_flags s b (M_Data.dd_force s)) in *. split.
    + destruct (xd0_ok f s0 s1 H) as (c & l & ->). apply (cov_trans s s0); [|apply cov_xd]. exists (M_Data.r_x (M_Data.dd_roles s)), b, (M_Data.dd_force s), (M_Data.c_d s), (M_Data.c_x s). unfold s0. destruct s as [[] ]. reflexivity.
    + intros c l. exact (xd0_again f s0 c l s1 H).
  - unfold M_Data.arg in *. destruct (M_Data.force_arg v) as [b|e]; [|discriminate]. set (s0 := M_Data.with_flags s (M_Data.dd_other s) b) in *. split.
    + destruct (xd0_ok f s0 s1 H) as (c & l & ->). apply (cov_trans s s0); [|apply cov_xd]. exists (M_Data.r_x (M_Data.dd_roles s)), (M_Data.dd_other s), b, (M_Data.c_d s), (M_Data.c_x s). unfold s0. destruct s as [[] ]. reflexivity.
    + intros c l. exact (xd0_again f s0 c l s1 H).
Qed.
Lemma switchable_cov f s s' : S_Data.reachable f s -> S_Data.reachable f s' -> switchable f s -> same_but_covariates s s' -> switchable f s'.
Proof. intros Re Re' U (x & oth & fo & c & xl & E). apply (switchable_iff f s' Re'). rewrite E. cbn. exact (proj1 (switchable_iff f s Re) U). Qed.

Lemma shared_recreated {P} f (Ks : list (M_Data.ddata -> ctx P)) makes s0 : S_Data.reachable f s0 -> switchable f s0 -> Forall2 (fun m K => exists w0, keeps_up f s0 m K w0) makes Ks ->
  forall ops s s' ws, S_Data.reachable f s -> same_but_covariates s0 s -> activated s s' -> covariates_only f ops s -> length ws = length Ks ->
  exists s'' ws' log, shared_run f Ks ops (s', ws) = ((s'', ws'), log) /\ length ws' = length Ks /\
    forall i m w, nth_error makes i = Some m -> nth_error ws i = Some w -> nth_error ws' i = Some (fst (recreated f m i ops s w)) /\ own_results i log = snd (recreated f m i ops s w).
Proof.
  intros R0 U0 Fo. induction ops as [|o ops IH]; intros s s' ws Re Sb As Oc Len; cbn [shared_run].
  - exists s', ws, []. repeat split; auto.
  - destruct o as [a|j o]; cbn [shared_step fst snd covariates_only] in *.
    + destruct Oc as (Oa & Oc). assert (X : S_Data.reachable f (fst (M_Data.assign f s a)) /\ same_but_covariates s (fst (M_Data.assign f s a)) /\ activated (fst (M_Data.assign f s a)) (fst (M_Data.assign f s' a))).
      { assert (Cv : about_covariates a -> snd (M_Data.assign f s a) = None -> S_Data.reachable f (fst (M_Data.assign f s a)) /\ same_but_covariates s (fst (M_Data.assign f s a)) /\ activated (fst (M_Data.assign f s a)) (fst (M_Data.assign f s' a))).
        { intros Ab N. destruct (M_Data.assign f s a) as (s1, e) eqn:Ea. cbn [fst snd] in *. subst e. destruct (cov_assign f s a s1 Ab Ea) as (S1 & Q). assert (R1 : S_Data.reachable f s1) by exact (S_Data.R_set _ _ _ _ Re Ea). split; [exact R1|]. split; [exact S1|]. destruct As as (c & _ & ->). rewrite Q. cbn [fst]. exact (reached_active f s1 R1). }
        destruct a as [v|v|v|v|v|v|v|v|v|v]; try contradiction Oa; try (apply Cv; [exact Logic.I|exact Oa]).
        destruct v as [|v|l|]; cbn [M_Data.assign fst] in *; try (split; [exact Re|]; split; [exact (cov_refl f s Re)|exact As]).
        destruct (M_Data.set_xd f s v) as (s1, e) eqn:E1. destruct (M_Data.set_xd f s' v) as (s2, e2) eqn:E2. cbn [fst].
        assert (A2 : activated s s2). { destruct (set_xd_cases f s' v s2 e2 E2) as [(_ & I & ->)|(_ & ->)]; [|exact As]. apply (activated_trans s s' _ As). exists v. auto. }
        destruct (set_xd_cases f s v s1 e E1) as [(-> & I & Q)|(_ & ->)]; [|split; [exact Re|]; split; [exact (cov_refl f s Re)|exact A2]].
        assert (R1 : S_Data.reachable f s1) by exact (S_Data.R_set f s (M_Data.SetXD (M_Data.CStr v)) s1 Re E1). split; [exact R1|]. split; [rewrite Q; apply cov_xd|]. assert (A1 : activated s s1) by (exists v; auto). exact (activated_trans _ _ _ (activated_back f s s1 Re A1) A2). }
      destruct X as (R1 & S1 & A1). destruct (IH _ _ ws R1 (cov_trans _ _ _ Sb S1) A1 Oc Len) as (s2 & ws2 & log & E2 & L2 & H). rewrite E2. exists s2, ws2, log. split; [reflexivity|]. split; [exact L2|exact H].
    + destruct (nth_error Ks j) as [K|] eqn:EK.
      * destruct (nth_error ws j) as [w|] eqn:Ew; [|apply nth_error_None in Ew; assert (j < length Ks)%nat by (apply nth_error_Some; congruence); lia].
        assert (X : exists m w0, nth_error makes j = Some m /\ keeps_up f s0 m K w0). { clear -Fo EK. revert j EK. induction Fo as [|m K0 Cs Ks H _ IH]; intros [|j] EK; try discriminate; cbn in *; [injection EK as <-; destruct H as (w0 & H); eauto|apply IH, EK]. }
        destruct X as (m & w0 & EC & FK). destruct (FK s Re Sb) as (C & Em & FC). destruct (matches_op f s C K (switchable_cov f s0 s R0 Re U0 Sb) FC o s' w As) as (s1 & A1 & E1). rewrite E1.
        destruct (IH s s1 (set_nth j (fst (run_op C o w)) ws) Re Sb A1 Oc) as (s2 & ws2 & log & E2 & L2 & H); [rewrite <- Len; apply L_Model.set_nth_length|]. rewrite E2. exists s2, ws2, (([(j, snd (run_op C o w))] ++ log)%list). split; [reflexivity|]. split; [exact L2|].
        intros i m' w' Hi Hw. cbn [recreated]. destruct (Nat.eqb_spec j i) as [->|N].
        -- assert (m' = m) as -> by congruence. assert (w' = w) as -> by congruence. destruct (H i m (fst (run_op C o w)) EC) as (H1 & H2); [exact (set_nth_self i _ ws w Ew)|].
           rewrite Em. destruct (run_op C o w) as (wn, e). cbn [fst snd] in *. destruct (recreated f m i ops s wn) as (w3, l3). cbn [fst snd] in *. split; [exact H1|]. unfold own_results in *. cbn [app filter fst]. rewrite Nat.eqb_refl. cbn [map snd]. now rewrite H2.
        -- destruct (H i m' w' Hi) as (H1 & H2); [rewrite set_nth_away; assumption|]. split; [exact H1|]. unfold own_results in *. cbn [app filter fst]. apply Nat.eqb_neq in N. rewrite N. exact H2.
      * destruct (IH s s' ws Re Sb As Oc Len) as (s2 & ws2 & log & E2 & L2 & H). rewrite E2. exists s2, ws2, log. split; [reflexivity|]. split; [exact L2|].
        intros i m w Hi Hw. cbn [recreated]. destruct (Nat.eqb_spec j i) as [->|N]; [|exact (H i m w Hi Hw)].
        exfalso. apply nth_error_None in EK. assert (i < length ws)%nat by (apply nth_error_Some; congruence). lia.
Qed.

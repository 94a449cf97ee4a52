(** DoubleMLQTE objects: sub-models, splits and acceptance. *)
From Verif Require Import L_DataProps L_ModelProps L_ModelInv L_Framework L_Contrast.
From Verif Require Export S_WrapObject L_WrapObject L_PqObject L_LpqObject L_QInit.
From Coq Require Import Lia Lra Permutation.
Local Open Scope R_scope.
Local Open Scope res_scope.
Local Open Scope string_scope.

Section Sub.
Context {P : Type}.
Variable sv : solvers.
Variable n : nat.
(** A sub-model reached by method calls, on data with [n] rows, without clusters. *)
Definition sub_sound (q : @qsub P) : Prop :=
  match q with
  | QNl K b => nk_n K = n /\ soundly_reached (nl_ctx K) (ob_world b)
  | QLin C w => c_n C = n /\ c_cluster C = None /\ length (c_dcols C) = 1%nat /\ soundly_reached C w
  end.
Definition sub_later (q0 q : @qsub P) : Prop :=
  match q0 with
  | QNl K b0 => exists b, q = QNl K b /\ nl_later sv K b0 b
  | QLin C w0 => exists w, q = QLin C w /\ later C w0 w
  end.
Lemma run_app (C : ctx P) l l' w : run C (l ++ l')%list w = run C l' (run C l w).
Proof. revert w. induction l as [|o l IH]; intro w; [reflexivity|]. cbn. apply IH. Qed.
Lemma nl_run_app K l l' (b : @nl_obj P) : nl_run sv K (l ++ l')%list b = nl_run sv K l' (nl_run sv K l b).
Proof. revert b. induction l as [|o l IH]; intro b; [reflexivity|]. cbn. apply IH. Qed.
Lemma nl_later_step K (b0 b : @nl_obj P) o : nl_good o -> nl_later sv K b0 b -> nl_later sv K b0 (nl_step sv K o b).
Proof. intros G (ops & O & ->). exists (ops ++ [o])%list. split; [intros x Hx; apply in_app_or in Hx as [Hx|[<-|[]]]; auto|]. rewrite nl_run_app. reflexivity. Qed.
Lemma later_step (C : ctx P) w0 w o : good_op o -> later C w0 w -> later C w0 (fst (run_op C o w)).
Proof. intros G (ops & O & ->). exists (ops ++ [o])%list. split; [intros x Hx; apply in_app_or in Hx as [Hx|[<-|[]]]; auto|]. rewrite run_app. reflexivity. Qed.
Lemma sub_later_refl q : sub_later q q.
Proof. destruct q; cbn; eexists; (split; [reflexivity|exists []; split; [intros ? []|reflexivity]]). Qed.
Lemma sub_set_later q0 q sp q' : sub_later q0 q -> qsub_set sv sp q = Ok q' -> sub_later q0 q'.
Proof.
  destruct q0 as [K b0|C w0]; intros (x & -> & La); cbn [qsub_set].
  - destruct (snd (set_sample_splitting (nl_ctx K) sp None (ob_world x))) as [u|e]; [|discriminate]. intro H. apply ok_inj in H. subst q'. eexists. split; [reflexivity|]. apply nl_later_step; [exact I|exact La].
  - destruct (set_sample_splitting C sp None x) as (w', [u|e]) eqn:E; [|discriminate]. intro H. apply ok_inj in H. subst q'. exists w'. split; [reflexivity|].
    replace w' with (fst (run_op C (OSet sp None) x)) by (cbn [run_op]; rewrite E; reflexivity). apply later_step; [exact I|exact La].
Qed.
Lemma sub_fit_later nj st md q0 q : sub_later q0 q -> sub_later q0 (fst (qsub_fit sv nj st md q)).
Proof.
  destruct q0 as [K b0|C w0]; intros (x & -> & La); cbn [qsub_fit].
  - pose proof (nl_later_step K b0 x (NFit nj st ExtNone md) Logic.I La) as Q. cbn [nl_step] in Q. destruct (nl_fit sv K nj st ExtNone md x) as (b', r). exists b'. auto.
  - pose proof (later_step C w0 x (OFit nj st ExtNone md) Logic.I La) as Q. cbn [run_op] in Q. destruct (fit C nj st ExtNone md x) as (w', r). exists w'. auto.
Qed.
Lemma sub_later_sound q0 q : sub_sound q0 -> sub_later q0 q -> sub_sound q.
Proof.
  destruct q0 as [K b0|C w0]; intros S (x & -> & La); cbn in *.
  - destruct S as (A & S). split; [exact A|]. destruct La as (ops & G & ->). revert b0 S G. induction ops as [|o ops IH]; intros b0 S G; [exact S|]. cbn [nl_run]. apply IH; [apply nl_step_sound; [apply G; now left|exact S]|intros y Hy; apply G; now right].
  - destruct S as (A & B & D & S). split; [exact A|]. split; [exact B|]. split; [exact D|]. exact (reached_later C w0 x S La).
Qed.
Lemma sub_set_on sp q q' : sub_sound q -> qsub_set sv sp q = Ok q' -> exists ck, check_sample_splitting n sp = Ok ck /\ qsub_split q' = Some (map (map nf) (ck_smpls ck)).
Proof.
  destruct q as [K b|C w]; cbn [qsub_set sub_sound].
  - intros (A & _) H. destruct (set_inv (nl_ctx K) sp None (ob_world b)) as [(ck & sc & E & Hs & Q)|(e & Q)]; cbn [nl_step] in H; rewrite Q in H; [|discriminate]. cbn [snd] in H. apply ok_inj in H. subst q'.
    cbn [nl_ctx c_n] in E. rewrite A in E. exists ck. split; [exact E|reflexivity].
  - intros (A & B & D & _) H. destruct (set_inv C sp None w) as [(ck & sc & E & Hs & Q)|(e & Q)]; rewrite Q in H; [|discriminate]. apply ok_inj in H. subst q'. rewrite A in E. exists ck. split; [exact E|reflexivity].
Qed.
Lemma sub_set_ok sp q ck : sub_sound q -> check_sample_splitting n sp = Ok ck -> exists q', qsub_set sv sp q = Ok q'.
Proof.
  destruct q as [K b|C w]; cbn [qsub_set sub_sound].
  - intros (A & _) H. unfold set_sample_splitting. cbn [nl_ctx c_n c_cluster]. rewrite A, H. cbn. eexists; reflexivity.
  - intros (A & B & D & _) H. unfold set_sample_splitting. rewrite A, B, H. cbn. eexists; reflexivity.
Qed.
Lemma sub_fit_split nj st md q : sub_sound q -> qsub_split (fst (qsub_fit sv nj st md q)) = qsub_split q.
Proof.
  destruct q as [K b|C w]; cbn [qsub_fit sub_sound].
  - intros _. pose proof (nl_fit_world sv K nj st ExtNone md b) as Q. destruct (nl_fit sv K nj st ExtNone md b) as (b', r). cbn in *. congruence.
  - intros (_ & _ & _ & S). pose proof (fit_ends C nj st ExtNone md w (reachable_wf _ _ (reached_reachable _ _ S))) as Q. destruct (fit C nj st ExtNone md w) as (w', r). cbn [fst] in *. cbn [qsub_split]. apply fe_split in Q. apply Q.
Qed.
Definition sub_plain (q : @qsub P) : Prop := match q with QNl _ b => untuned (ob_world b) | QLin _ w => untuned w end.
Lemma fresh_plain (C : ctx P) w : untuned (fresh C w).
Proof. intros l t r. unfold params_at, fresh. cbn. generalize (m_n_rep (w_obj w)) as k. intro k. revert r. induction k as [|k IH]; intros [|r]; cbn; auto. Qed.
Lemma sub_set_plain sp q q' : qsub_set sv sp q = Ok q' -> sub_plain q'.
Proof.
  destruct q as [K b|C w]; cbn [qsub_set].
  - intros H. destruct (set_inv (nl_ctx K) sp None (ob_world b)) as [(ck & sc & E & Hs & Q)|(e & Q)]; cbn [nl_step] in H; rewrite Q in H; [|discriminate]. cbn [snd] in H. apply ok_inj in H. subst q'. apply fresh_plain.
  - intros H. destruct (set_inv C sp None w) as [(ck & sc & E & Hs & Q)|(e & Q)]; rewrite Q in H; [|discriminate]. apply ok_inj in H. subst q'. apply fresh_plain.
Qed.
Lemma sub_fit_plain nj st md q : sub_sound q -> sub_plain q -> sub_plain (fst (qsub_fit sv nj st md q)).
Proof.
  destruct q as [K b|C w]; cbn [qsub_fit sub_sound].
  - intros _. pose proof (nl_fit_world sv K nj st ExtNone md b) as Q. destruct (nl_fit sv K nj st ExtNone md b) as (b', r). cbn in *. rewrite Q. auto.
  - intros (_ & _ & _ & S). pose proof (fit_ends C nj st ExtNone md w (reachable_wf _ _ (reached_reachable _ _ S))) as Q. destruct (fit C nj st ExtNone md w) as (w', r). cbn [fst] in *. cbn [sub_plain]. apply fe_split in Q.
    destruct Q as (_ & _ & _ & _ & _ & Q & _). unfold untuned, params_at. rewrite Q. auto.
Qed.
(** What the framework of a fitted sub-model looks like. *)
Lemma sub_fw nj st md q q' : (0 < n)%nat -> sub_sound q -> qsub_fit sv nj st md q = (q', Ok tt) ->
  exists F sm, qsub_fw q' = Some F /\ qsub_split q = Some sm /\ fw_wf F /\ fw_n_obs F = n /\ fw_n_rep F = length sm /\ fw_n_thetas F = 1%nat /\ fw_cluster F = None /\ at_ (fw_vs F) [0%nat] = INR n.
Proof.
  intros Hn. destruct q as [K b|C w]; cbn [qsub_fit sub_sound].
  - intros (A & S) H. destruct (nl_fit sv K nj st ExtNone md b) as (b', r) eqn:Hf. apply pair_equal_spec in H as (<- & ->).
    destruct (nl_fit_inv sv K (fun _ => True) ltac:(auto) ltac:(rewrite A; exact Hn) nj st ExtNone md b b' S Logic.I Hf) as (_ & _ & sm & reps & F & Em & Er & Ln & Ef & Each).
    assert (Hsm : (0 < length sm)%nat). { rewrite (wf_smpls _ _ (reachable_wf _ _ (reached_reachable _ _ S)) sm Em). apply (reachable_wf _ _ (reached_reachable _ _ S)). }
    destruct (nl_framework K ltac:(rewrite A; exact Hn) reps F) as (Fw & Fa & Fr & Ft & Fo & Fe); [intros ->; cbn in Ln; lia|exact Ef|].
    exists F, sm. cbn [qsub_fw qsub_split]. rewrite Er. split; [reflexivity|]. split; [exact Em|]. split; [exact Fw|]. split; [congruence|]. split; [congruence|]. split; [exact Ft|].
    destruct (mk_fw_inv _ _ Ef) as (_ & _ & _ & _ & _ & _ & _ & _ & _ & _ & F10 & _). cbn [nl_dict k_is_cluster k_cluster] in F10.
    split. { cbn in F10. congruence. }
    destruct (nth_error sm 0) as [fs|] eqn:N; [|apply nth_error_None in N; lia]. destruct (Each 0%nat fs N) as (_ & _ & s0 & s1 & p & _ & Rf & Np). destruct (Fe 0%nat p Np) as (_ & _ & Vs & _). rewrite Vs.
    unfold get_vs. clear p Np Rf s0 s1 fs N Vs. destruct (nth_error sm (length reps - 1)) as [fs|] eqn:N; [|apply nth_error_None in N; lia]. destruct (Each _ fs N) as (_ & _ & s0 & s1 & p & _ & Rf & Np). rewrite Np.
    unfold nl_rep_fit in Rf. match type of Rf with (match ?t with Ok _ => _ | Err _ => _ end) = _ => destruct t as [out|e] eqn:Eo end; [|discriminate].
    destruct (nl_est_coef _ _ _ _ _ _ _ _) as [(theta & warn)|] eqn:Nl in Rf; [|discriminate]. apply (f_equal snd) in Rf. unfold snd in Rf. apply bind_ok in Rf as (v & Ve & Rf). apply ok_inj in Rf. rewrite <- Rf. cbn [nr_vs]. unfold var_est in Ve. apply ok_inj in Ve. rewrite <- Ve. cbn [snd]. rewrite A. reflexivity.
  - intros (A & B & D & S) H. destruct (fit C nj st ExtNone md w) as (w', r) eqn:Hf. apply pair_equal_spec in H as (<- & ->).
    pose proof (reached_reachable _ _ S) as Rc. destruct (fit_reports C w nj st ExtNone md w') as (out & F & (sm & Em & _) & Cu & Rp & _ & _ & _ & _ & _); [intro Z; rewrite Z in D; discriminate|exact Rc|exact Hf|].
    destruct Cu as (k & ob & C1 & C2 & C3). assert (Hsm : (0 < m_n_rep (w_obj w))%nat) by apply (reachable_wf _ _ Rc).
    destruct (rp_se _ _ _ _ Rp 0%nat 0%nat) as (s2 & V & _); [rewrite (rp_n_rep _ _ _ _ Rp); exact Hsm|rewrite (rp_n_thetas _ _ _ _ Rp), D; lia|].
    assert (Cl : split_cluster C w 0 = None) by (unfold split_cluster; rewrite B; reflexivity). rewrite Cl in V. unfold var_est in V. apply ok_inj in V. apply (f_equal snd) in V. cbn [snd] in V.
    pose proof (rp_cluster _ _ _ _ Rp) as Rc'. rewrite B in Rc'.
    exists F, sm. cbn [qsub_fw qsub_split]. split; [unfold framework_of; rewrite C1, C2, C3; reflexivity|]. split; [exact Em|]. split; [exact (rp_wf _ _ _ _ Rp)|].
    split; [rewrite (rp_n_obs _ _ _ _ Rp); exact A|]. split; [rewrite (rp_n_rep _ _ _ _ Rp); symmetry; exact (wf_smpls _ _ (reachable_wf _ _ Rc) sm Em)|]. split; [rewrite (rp_n_thetas _ _ _ _ Rp); exact D|]. split; [exact Rc'|]. rewrite <- V, A. reflexivity.
Qed.
End Sub.

Section Make.
Context {E P : Type}.
Variable L : learner E row P.
Variable rd : randomness.
Variable f : M_Data.frame.
Variable s : M_Data.ddata.
Variable sv : solvers.
Hypothesis Re : S_Data.reachable f s.
Hypothesis Un : unclustered s.
Hypothesis Rd : sound_randomness rd.
Let n := M_Data.frows f.
Lemma make_sound score k o (ml_g ml_m : pylearner E) q norm rule thr nfv nrv i tr (u : @qsub P) : make_quantile L rd f s score k o ml_g ml_m q norm rule thr nfv nrv i tr = Ok u -> sub_sound n u.
Proof.
  unfold make_quantile. destruct (String.eqb score "PQ"); [|destruct (String.eqb score "LPQ")]; intro H; apply bind_ok in H as ((C, b) & H & Q); apply ok_inj in Q; subst u; cbn [fst snd sub_sound].
  - destruct (pq_made _ _ _ _ _ _ _ _ _ _ _ _ _ _ _ _ _ _ _ _ _ _ Re Rd Un H) as (dc & mc & tr' & q0 & nm0 & th & st & h & Bt & Kd & EK & Sr & _). split; [rewrite EK; reflexivity|exact Sr].
  - destruct (lpq_made _ _ _ _ _ _ _ _ _ _ _ _ _ _ _ _ _ _ _ _ _ _ Re Rd Un H) as (dc & zc & mc & tr' & q0 & nm0 & th & st & h & Bt & Bz & Kd & EK & Sr & _). split; [rewrite EK; reflexivity|exact Sr].
  - destruct (cvar_made _ _ _ _ _ _ _ _ _ _ _ _ _ _ _ _ _ _ _ _ Re Rd H) as (dc & mc & tr' & q0 & nm0 & th & st & Bt & EK & Sr & _). cbv zeta in EK. rewrite (plain_ctx f s Re _ Un) in EK.
    split; [rewrite EK; reflexivity|]. split; [rewrite EK; reflexivity|]. split; [rewrite EK; reflexivity|exact Sr].
Qed.
Variables (score : string) (k : vec -> vec -> R) (o : nat -> bool -> nat -> nat -> q_oracles) (ml_g ml_m : pylearner E) (qs : list R) (norm rule thr : pyval).
Notation K := (qte_class L rd f s sv score k o ml_g ml_m qs norm rule thr).
(** Arguments of [fit]. *)
Definition qargs := (pyval * pyval * ext_arg * pyval)%type.
Definition qte_do (a : qargs) (b : wobj (@qsub P * @qsub P)) : wobj (qsub * qsub) * result unit := let '(nj, st, ext, md) := a in qte_fit sv K nj st ext md b.
Definition sub_next (q q' : @qsub P) : Prop := q' = q \/ exists nj st md, q' = fst (qsub_fit sv nj st md q).
Definition pair_next (i : nat) (p p' : @qsub P * @qsub P) : Prop := sub_next (fst p) (fst p') /\ sub_next (snd p) (snd p').
Definition pair_good (p : @qsub P * @qsub P) (sm : list (list fold)) : Prop := pair_on p sm /\ sub_sound n (fst p) /\ sub_sound n (snd p) /\ sub_plain (fst p) /\ sub_plain (snd p).
Lemma next_later q0 q q' : sub_later sv q0 q -> sub_next q q' -> sub_later sv q0 q'.
Proof. intros La [-> |(nj & st & md & ->)]; [exact La|apply sub_fit_later; exact La]. Qed.
Lemma next_sound q q' : sub_sound n q -> sub_next q q' -> sub_sound n q'.
Proof. intros S N. eapply sub_later_sound; [exact S|]. eapply next_later; [apply sub_later_refl|exact N]. Qed.
Lemma next_split q q' : sub_sound n q -> sub_next q q' -> qsub_split q' = qsub_split q.
Proof. intros S [-> |(nj & st & md & ->)]; [reflexivity|apply (sub_fit_split sv n); exact S]. Qed.
Lemma next_plain q q' : sub_sound n q -> sub_plain q -> sub_next q q' -> sub_plain q'.
Proof. intros S Q [-> |(nj & st & md & ->)]; [exact Q|apply (sub_fit_plain sv n); assumption]. Qed.
Lemma qte_make_inv nfv nrv i p : wk_make K nfv nrv i = Ok p -> forall tr, make_quantile L rd f s score k o ml_g ml_m (nth i qs 0) norm rule thr nfv nrv i tr = Ok (if tr then snd p else fst p).
Proof.
  cbn [wk_make qte_class]. intros H. apply bind_ok in H as (m0 & A & H). apply bind_ok in H as (m1 & B & H). apply ok_inj in H. subst p. intros []; assumption.
Qed.
Lemma qte_make_sound nfv nrv i p : wk_make K nfv nrv i = Ok p -> sub_sound n (fst p) /\ sub_sound n (snd p).
Proof. intro H. split; eapply make_sound; [exact (qte_make_inv _ _ _ _ H false)|exact (qte_make_inv _ _ _ _ H true)]. Qed.
Lemma qte_set_on nfv nrv i sp p p' : wk_make K nfv nrv i = Ok p -> wk_set K sp p = Ok p' -> exists ck, check_sample_splitting (wk_n K) sp = Ok ck /\ pair_good p' (map (map nf) (ck_smpls ck)).
Proof.
  intros Mk H. destruct (qte_make_sound _ _ _ _ Mk) as (S0 & S1). cbn [wk_set qte_class] in H. apply bind_ok in H as (m0 & A & H). apply bind_ok in H as (m1 & B & H). apply ok_inj in H. subst p'.
  destruct (sub_set_on sv n _ _ _ S0 A) as (ck & Ec & Es). destruct (sub_set_on sv n _ _ _ S1 B) as (ck' & Ec' & Es'). rewrite Ec in Ec'. injection Ec' as <-. exists ck. split; [exact Ec|].
  split; [split; [exact Es|exact Es']|]. split; [eapply sub_later_sound; [exact S0|eapply sub_set_later; [apply sub_later_refl|exact A]]|]. split; [eapply sub_later_sound; [exact S1|eapply sub_set_later; [apply sub_later_refl|exact B]]|].
  split; [exact (sub_set_plain sv _ _ _ A)|exact (sub_set_plain sv _ _ _ B)].
Qed.
Lemma qte_set_ok nfv nrv i p sp ck : wk_make K nfv nrv i = Ok p -> check_sample_splitting (wk_n K) sp = Ok ck -> exists p', wk_set K sp p = Ok p'.
Proof.
  intros Mk H. destruct (qte_make_sound _ _ _ _ Mk) as (S0 & S1). cbn [wk_set qte_class]. destruct (sub_set_ok sv n _ _ _ S0 H) as (m0 & ->). destruct (sub_set_ok sv n _ _ _ S1 H) as (m1 & ->). cbn. eauto.
Qed.
Lemma pair_next_on (i : nat) p p' sm : pair_next i p p' -> pair_good p sm -> pair_good p' sm.
Proof.
  intros (N0 & N1) ((A & B) & S0 & S1 & P0 & P1). split; [split|split; [|split; [|split; [exact (next_plain _ _ S0 P0 N0)|exact (next_plain _ _ S1 P1 N1)]]]]; [rewrite (next_split _ _ S0 N0); exact A|rewrite (next_split _ _ S1 N1); exact B|exact (next_sound _ _ S0 N0)|exact (next_sound _ _ S1 N1)].
Qed.
Lemma pair_fit_next nj st md (i : nat) p : pair_next i p (fst (pair_fit sv nj st md p)).
Proof.
  unfold pair_fit, pair_next. destruct (qsub_fit sv nj st md (fst p)) as (q0, [u|e]) eqn:E0.
  - destruct (qsub_fit sv nj st md (snd p)) as (q1, r) eqn:E1. cbn. split; right; exists nj, st, md; rewrite ?E0, ?E1; reflexivity.
  - cbn. split; [right; exists nj, st, md; rewrite E0; reflexivity|left; reflexivity].
Qed.
Lemma qte_do_is a b : fst (qte_do a b) = b \/ exists fitter, fst (qte_do a b) = fst (wrap_fit K fitter b) /\ forall i p, pair_next i p (fst (fitter i p)).
Proof.
  destruct a as (((nj, st), ext), md). cbn [qte_do]. unfold qte_fit. destruct ext; [|left; reflexivity..]. right. exists (fun _ => pair_fit sv nj st md). split; [reflexivity|]. intros. apply pair_fit_next.
Qed.
(** A sub-model held by the object: constructed, split and refitted. *)
Lemma qte_origin nfv nrv sm i p : origin K pair_next nfv nrv sm i p -> forall tr, exists q0,
  make_quantile L rd f s score k o ml_g ml_m (nth i qs 0) norm rule thr nfv nrv i tr = Ok q0 /\ sub_later sv q0 (if tr then snd p else fst p).
Proof.
  intros (m0 & m1 & Mk & St & Rf) tr. exists (if tr then snd m0 else fst m0). split; [exact (qte_make_inv _ _ _ _ Mk tr)|].
  cbn [wk_set qte_class] in St. apply bind_ok in St as (a0 & A & H). apply bind_ok in H as (a1 & B & H). apply ok_inj in H. subst m1.
  induction Rf as [|p' p'' R IH (N0 & N1)].
  - destruct tr; eapply sub_set_later; [apply sub_later_refl|exact B|apply sub_later_refl|exact A].
  - destruct tr; eapply next_later; [exact IH|exact N1|exact IH|exact N0].
Qed.
End Make.

Section Accept.
Context {E P : Type}.
Variable L : learner E row P.
Variable rd : randomness.
Variable f : M_Data.frame.
Variable s : M_Data.ddata.
Variable sv : solvers.
Hypothesis Con : S_Data.constructed f s.
Hypothesis Un : unclustered s.
Hypothesis Ba : both_arms f s.
Hypothesis Rd : sound_randomness rd.
Let n := M_Data.frows f.
Let Re := S_Data.R_new f s Con.
Definition pos_ints (nfv nrv : pyval) : Prop := is_int nfv = true /\ (1 <= int_val nfv)%Z /\ is_int nrv = true /\ (1 <= int_val nrv)%Z.
Lemma unsplit_args m nfv nrv v : split_args m nfv nrv (PBool false) v <-> pos_ints nfv nrv.
Proof.
  unfold split_args, pos_ints. split; [tauto|]. intros (A & B & C & D). split; [exact A|]. split; [exact B|]. split; [exact C|]. split; [exact D|]. exists false. split; [reflexivity|discriminate].
Qed.
Definition sub_args (score : string) (q : R) (norm rule thr nfv nrv : pyval) (ml_g ml_m : pylearner E) : Prop :=
  0 < q < 1 /\ boolean norm /\ trimming_ok rule thr /\ (exists c, binary_treatment f s c) /\ pos_ints nfv nrv /\ predicts_probabilities ml_m /\ score_setting f s (PStr score) ml_g.
Lemma q_ok q : (exists q', quantile_ok (PFloat q) q') <-> 0 < q < 1.
Proof. split; [intros (q' & Q & H); injection Q as ->; exact H|intro H; exists q; split; [reflexivity|exact H]]. Qed.
Lemma tr_ok (tr : bool) : exists a, arm_number (PInt (if tr then 1 else 0)) a.
Proof. destruct tr; [exists 1; right|exists 0; left]; auto. Qed.
Lemma make_accepts score k o ml_g ml_m q norm rule thr nfv nrv i tr : In score ["PQ"; "LPQ"; "CVaR"] ->
  (succeeds (@make_quantile E P L rd f s score k o ml_g ml_m q norm rule thr nfv nrv i tr) <-> sub_args score q norm rule thr nfv nrv ml_g ml_m).
Proof.
  intro Hs. assert (X : forall {A B} (r : result A) (h : A -> B), succeeds (let! x := r in Ok (h x)) <-> succeeds r).
  { intros A B r h. destruct r as [x|e]; cbn; split; intros (y & Q); try discriminate; eexists; reflexivity. }
  pose proof (tr_ok tr) as Tr. unfold sub_args, score_setting. destruct Hs as [<-|[<-|[<-|[]]]]; cbn [make_quantile String.eqb Ascii.eqb Bool.eqb].
  - rewrite X. etransitivity; [apply (pq_accepts L rd f s Con Un Ba)|]. unfold quantile_options. rewrite q_ok. split.
    + intros (A & (c & B & Sp) & (_ & Q & _ & Bn & T) & _ & Pg & Pm). apply unsplit_args in Sp. eauto 12.
    + intros (Q & Bn & T & (c & B) & Pi & Pm & [(_ & A & Pg)|[(Z & _)|(Z & _)]]); try discriminate Z. split; [exact A|]. split; [exists c; split; [exact B|apply unsplit_args; exact Pi]|]. split; [auto 8|]. split; [right; eauto|auto].
  - rewrite X. etransitivity; [apply (lpq_accepts L rd f s Con Un Ba)|]. unfold quantile_options. rewrite q_ok. split.
    + intros ((c & z & B & Bz & Sp) & (_ & Q & _ & Bn & T) & _ & Pg & Pm). apply unsplit_args in Sp. eauto 14.
    + intros (Q & Bn & T & (c & B) & Pi & Pm & [(Z & _)|[(_ & (z & Bz) & Pg)|(Z & _)]]); try discriminate Z. split; [exists c, z; split; [exact B|split; [exact Bz|apply unsplit_args; exact Pi]]|]. split; [auto 8|]. split; [right; eauto|auto].
  - rewrite X. etransitivity; [apply (cvar_accepts L rd f s Con Un Ba)|]. unfold quantile_options. rewrite q_ok. split.
    + intros (A & (c & B & Sp) & (_ & Q & _ & Bn & T) & Pg & Pm). apply unsplit_args in Sp. eauto 14.
    + intros (Q & Bn & T & (c & B) & Pi & Pm & [(Z & _)|[(Z & _)|(_ & A & Pg)]]); try discriminate Z. split; [exact A|]. split; [exists c; split; [exact B|apply unsplit_args; exact Pi]|]. split; [auto 8|]. auto.
Qed.
Lemma qte_make_accepts score k o ml_g ml_m qs norm rule thr nfv nrv i : In score ["PQ"; "LPQ"; "CVaR"] ->
  (succeeds (wk_make (@qte_class E P L rd f s sv score k o ml_g ml_m qs norm rule thr) nfv nrv i) <-> sub_args score (nth i qs 0) norm rule thr nfv nrv ml_g ml_m).
Proof.
  intro Hs. cbn [wk_make qte_class]. split.
  - intros (p & H). apply bind_ok in H as (m0 & A & _). apply (make_accepts score k o ml_g ml_m _ _ _ _ _ _ i false Hs). exists m0. exact A.
  - intro H. destruct (proj2 (make_accepts score k o ml_g ml_m _ _ _ _ _ _ i false Hs) H) as (m0 & A). destruct (proj2 (make_accepts score k o ml_g ml_m _ _ _ _ _ _ i true Hs) H) as (m1 & B). exists (m0, m1). rewrite A, B. reflexivity.
Qed.
Lemma score_cases score : (exists sc, check_score score ["PQ"; "LPQ"; "CVaR"] = Ok sc) <-> exists sc, score = PStr sc /\ In sc ["PQ"; "LPQ"; "CVaR"].
Proof. split; intros (sc & H); exists sc; apply score_iff; exact H. Qed.
Lemma quantiles_iff qs : negb (existsb (fun q => rleb q 0 || rleb 1 q) qs) = true <-> forall q, In q qs -> 0 < q < 1.
Proof.
  rewrite negb_true_iff. split.
  - intros H q I. destruct (rleb q 0 || rleb 1 q) eqn:Q. { exfalso. assert (existsb (fun q => rleb q 0 || rleb 1 q) qs = true) by (apply existsb_exists; exists q; auto). congruence. }
    apply orb_false_iff in Q as (A & B). apply rleb_not in A. apply rleb_not in B. lra.
  - intro H. destruct (existsb _ qs) eqn:Q; [|reflexivity]. exfalso. apply existsb_exists in Q as (q & I & Q). specialize (H q I). apply orb_prop in Q as [Q|Q]; apply rleb_flag in Q; lra.
Qed.
Lemma cloneable_iff {F} (l : pylearner F) : cloneable l = true <-> can_clone l.
Proof. unfold cloneable, can_clone. rewrite andb_true_iff, negb_true_iff. tauto. Qed.
(** Everything checked before the split is drawn. *)
Definition qte_base (qs : list R) (kde : kde_arg) (score norm rule thr : pyval) (ml_g : pylearner E) (ml_m : option (pylearner E)) (sc : string) (m : pylearner E) : Prop :=
  (forall q, In q qs -> 0 < q < 1) /\ kernel_ok kde /\ score = PStr sc /\ In sc ["PQ"; "LPQ"; "CVaR"] /\ (exists c, binary_treatment f s c) /\ trimming_ok rule thr /\ boolean norm /\ can_clone ml_g /\ ml_m = Some m /\ can_clone m.
Lemma qte_unfold dflt o ml_g ml_m qs nfv nrv score norm kde rule thr draw K b :
  @qte_init E P L rd f s sv dflt o ml_g ml_m qs nfv nrv score norm kde rule thr draw = Ok (K, b) <->
  exists sc m k, qte_base qs kde score norm rule thr ml_g ml_m sc m /\ check_kde dflt kde = Ok k /\
    K = qte_class L rd f s sv sc k o (cloned_learner L ml_g) (cloned_learner L m) qs norm rule thr /\ wrap_new K nfv nrv draw (rd_g rd) = Ok b.
Proof.
  unfold qte_init, qte_base. split.
  - intro H. ri H Q. bi H k Kd. bi H sc Sc. ri H D. bi H th T. bi H nm Nm. ri H Cg. destruct ml_m as [m|]; [|discriminate]. ri H Cm. cbv zeta in H. bi H b' W. apply ok_inj in H. injection H as <- <-.
    pose proof (proj1 (quantiles_iff qs) Q) as Q'. clear Q. rename Q' into Q. apply score_iff in Sc as (Sc & Sc'). apply (one_binary f s Con) in D. apply trimming_iff in T as (T1 & T2 & T3). apply bool_iff in Nm. apply cloneable_iff in Cg. apply cloneable_iff in Cm.
    exists sc, m, k. split; [|auto]. split; [exact Q|]. split; [apply (kernel_iff dflt); exists k; exact Kd|]. split; [exact Sc|]. split; [exact Sc'|]. split; [exists (M_Data.c_d s); exact D|]. split; [split; [exact T1|eauto]|]. split; [eexists; exact Nm|]. auto.
  - intros (sc & m & k & (Q & Kk & Sc & Sc' & (c & Bt) & (T1 & t & T2 & T3) & (nm & Nm) & Cg & -> & Cm) & Kd & -> & W). pose proof (binary_active f s Con c Bt) as ->.
    rewrite (proj2 (quantiles_iff qs) Q). cbn [require]. rewrite Kd. cbn [bind]. rewrite (proj2 (score_iff score _ sc) (conj Sc Sc')). cbn [bind]. rewrite (proj2 (one_binary f s Con) Bt). cbn [require].
    rewrite (proj2 (trimming_iff rule thr t) (conj T1 (conj T2 T3))). cbn [bind]. rewrite (proj2 (bool_iff _ _) Nm). cbn [bind]. rewrite (proj2 (cloneable_iff ml_g) Cg), (proj2 (cloneable_iff m) Cm). cbn [require]. rewrite W. reflexivity.
Qed.
Lemma estimator_clone {F} (l : pylearner F) : estimator l -> can_clone l.
Proof. intros (A & _ & _ & B). split; assumption. Qed.
Lemma qte_unsplit dflt o ml_g ml_m qs nfv nrv score norm kde rule thr :
  succeeds (@qte_init E P L rd f s sv dflt o ml_g ml_m qs nfv nrv score norm kde rule thr false) <->
  (forall q, In q qs -> 0 < q < 1) /\ kernel_ok kde /\ (score = PStr "PQ" \/ score = PStr "LPQ" \/ score = PStr "CVaR") /\ (exists c, binary_treatment f s c) /\ trimming_ok rule thr /\ boolean norm /\
  can_clone ml_g /\ exists m, ml_m = Some m /\ can_clone m.
Proof.
  split.
  - intros ((K, b) & H). apply qte_unfold in H as (sc & m & k & (Q & Kk & Sc & Sc' & Bt & T & Nm & Cg & Em & Cm) & _). split; [exact Q|]. split; [exact Kk|].
    split. { rewrite Sc. destruct Sc' as [<-|[<-|[<-|[]]]]; auto. } eauto 10.
  - intros (Q & Kk & Sc & Bt & T & Nm & Cg & m & Em & Cm). destruct (proj2 (kernel_iff dflt kde) Kk) as (k & Kd).
    assert (X : exists sc, score = PStr sc /\ In sc ["PQ"; "LPQ"; "CVaR"]) by (destruct Sc as [->|[->| ->]]; eexists; (split; [reflexivity|cbn; auto])). destruct X as (sc & X1 & X2).
    eexists (_, _). apply qte_unfold. exists sc, m, k. split; [|split; [exact Kd|split; [reflexivity|reflexivity]]]. unfold qte_base. auto 14.
Qed.
Hypothesis Hn : (0 < n)%nat.
Section Obj.
Variables (score : string) (k : vec -> vec -> R) (o : nat -> bool -> nat -> nat -> q_oracles) (ml_g ml_m : pylearner E) (qs : list R) (norm rule thr : pyval).
Let K := @qte_class E P L rd f s sv score k o ml_g ml_m qs norm rule thr.
Hypothesis Hs : In score ["PQ"; "LPQ"; "CVaR"].
Hypothesis Hq : (0 < length qs)%nat.
Let so := qte_set_ok L rd f s sv Re Un Rd score k o ml_g ml_m qs norm rule thr.
Let sn := qte_set_on L rd f s sv Re Un Rd score k o ml_g ml_m qs norm rule thr.
Let di := qte_do_is L rd f s sv score k o ml_g ml_m qs norm rule thr.
Let ro := @pair_next_on P f sv.
Lemma qte_any nfv nrv nfv' nrv' i p : wk_make K nfv nrv i = Ok p -> is_int nfv' = true -> (1 <= int_val nfv')%Z -> is_int nrv' = true -> (1 <= int_val nrv')%Z -> exists p', wk_make K nfv' nrv' i = Ok p'.
Proof.
  intros H A B C D. destruct (proj1 (qte_make_accepts score k o ml_g ml_m qs norm rule thr nfv nrv i Hs) (ex_intro _ p H)) as (X1 & X2 & X3 & X4 & _ & X5). apply (proj2 (qte_make_accepts score k o ml_g ml_m qs norm rule thr nfv' nrv' i Hs)).
  unfold sub_args. split; [exact X1|]. split; [exact X2|]. split; [exact X3|]. split; [exact X4|]. split; [split; auto|exact X5].
Qed.
Lemma qte_new nfv nrv g : shuffles g -> (succeeds (wrap_new K nfv nrv true g) <->
  split_args n nfv nrv (PBool true) (Some (col f (M_Data.c_d s))) /\ whole_numbers n (col f (M_Data.c_d s)) /\ forall i, (i < length qs)%nat -> sub_args score (nth i qs 0) norm rule thr nfv nrv ml_g ml_m).
Proof.
  intro Sh. etransitivity; [apply (new_accepts K Hn Hq so nfv nrv g Sh)|]. cbn [K wk_n wk_strata wk_count qte_class].
  split; intros (A & B & C); (split; [exact A|]); (split; [exact B|]); intros i Hi; apply (qte_make_accepts score k o ml_g ml_m qs norm rule thr nfv nrv i Hs), C, Hi.
Qed.
Lemma qte_new_split nfv nrv g b : shuffles g -> wrap_new K nfv nrv true g = Ok b ->
  exists sm, wo_smpls b = Some sm /\ spread n nfv nrv (col f (M_Data.c_d s)) sm /\ all_on pair_on b sm.
Proof.
  intros Sh H. destruct (new_split K (pair_good f) (pair_next sv) Hn Hq sn ro nfv nrv g b Sh H) as (sm & l & A & B & C & _ & D). exists sm. split; [exact A|]. split; [exact B|]. exists l. split; [exact C|]. intros m I. apply D, I.
Qed.
Lemma qte_inv nfv nrv draw g b0 b : shuffles g -> wrap_new K nfv nrv draw g = Ok b0 -> wlater K (qte_do L rd f s sv score k o ml_g ml_m qs norm rule thr) b0 b -> winv K (pair_next sv) b.
Proof.
  intros Sh H La. apply (calls_winv K _ (pair_good f) (pair_next sv) Hn Hq sn di b0 b); [|exact La]. exact (new_winv K _ (pair_good f) (pair_next sv) Hn Hq sn di nfv nrv draw g b0 Sh H).
Qed.
Lemma qte_refused_new nfv nrv g : shuffles g -> type_or_value_error (wrap_new K nfv nrv true g).
Proof.
  intros Sh e H. destruct (new_refused K Hn Hq so nfv nrv g e Sh H) as [R|(i & Hi & R)].
  - revert e R H. unfold resample. assert (X : forall kk, type_or_value_error (require (Z.leb 2 kk) ValueError (require (is_int nrv && Z.leb 1 (int_val nrv)) ValueError (require (all_whole (wk_n K) (wk_strata K)) ValueError (resampling (Z.to_nat kk) (Z.to_nat (int_val nrv)) (wk_n K) (Some (value_codes (wk_strata K))) g))))).
    { intro kk. apply td_req_v, td_req_v, td_req_v, td_resampling. }
    intros e R _. revert e R. destruct nfv; cbn [bind]; try apply X; first [apply td_type|apply td_value].
  - revert e R H. cbn [K wk_make qte_class]. intros e R _. revert e R. change (type_or_value_error (let! m0 := make_quantile L rd f s score k o ml_g ml_m (nth i qs 0) norm rule thr nfv nrv i false in let! m1 := make_quantile L rd f s score k o ml_g ml_m (nth i qs 0) norm rule thr nfv nrv i true in Ok (m0, m1))).
    assert (X : forall tr, type_or_value_error (@make_quantile E P L rd f s score k o ml_g ml_m (nth i qs 0) norm rule thr nfv nrv i tr)).
    { intro tr. unfold make_quantile. destruct (String.eqb score "PQ"); [|destruct (String.eqb score "LPQ")]; (apply td_bind; [|intro; apply td_ok]); [apply pq_refused|apply lpq_refused|apply cvar_refused]; assumption. }
    apply td_bind; [apply X|intro]. apply td_bind; [apply X|intro; apply td_ok].
Qed.
Lemma qte_synced nfv nrv draw g b0 l : shuffles g -> wrap_new K nfv nrv draw g = Ok b0 -> (forall c, In c l -> wgood c /\ ~ asks_no_split n c) ->
  forall subs, wo_subs (wcalls K (qte_do L rd f s sv score k o ml_g ml_m qs norm rule thr) l b0) = Some subs ->
  exists sm, wo_smpls (wcalls K (qte_do L rd f s sv score k o ml_g ml_m qs norm rule thr) l b0) = Some sm /\ all_on pair_on (wcalls K (qte_do L rd f s sv score k o ml_g ml_m qs norm rule thr) l b0) sm.
Proof.
  intros Sh H G subs Es. pose proof (new_synced K (pair_good f) (pair_next sv) Hn Hq sn ro nfv nrv draw g b0 Sh H) as S0. pose proof (new_winv K _ (pair_good f) (pair_next sv) Hn Hq sn di nfv nrv draw g b0 Sh H) as I0.
  destruct (calls_synced K _ (pair_good f) (pair_next sv) Hn Hq sn ro di so qte_any b0 l I0 S0) with (l := subs) as (sm & A & B).
  - intros c Hc. destruct (G c Hc) as (G1 & G2). split; [exact G1|]. split; [exact G2|left; reflexivity].
  - exact Es.
  - exists sm. split; [exact A|]. exists subs. split; [exact Es|]. intros m I. apply B, I.
Qed.
Lemma qte_shared nfv nrv draw g b0 b subs : shuffles g -> wrap_new K nfv nrv draw g = Ok b0 -> wlater K (qte_do L rd f s sv score k o ml_g ml_m qs norm rule thr) b0 b -> wo_subs b = Some subs ->
  length subs = length qs /\ exists sm, crossed n sm /\ all_on pair_on b sm.
Proof.
  intros Sh H La Es. destruct (proj2 (qte_inv nfv nrv draw g b0 b Sh H La) subs Es) as (nf1 & nr1 & sm & I). pose proof (subs_on K (pair_good f) (pair_next sv) sn ro subs nf1 nr1 sm I) as On.
  destruct I as (Cr & _ & _ & Ln & _). split; [exact Ln|]. exists sm. split; [exact Cr|]. exists subs. split; [exact Es|]. intros m Im. apply On, Im.
Qed.
Lemma qte_no_split b sp reps : good_split n sp reps -> no_split n reps ->
  exists b' e, wrap_set K sp b = (b', Err e) /\ wo_smpls b' = Some [[(seq 0 n, seq 0 n)]] /\ wo_subs b' = wo_subs b.
Proof. intros G N. destruct (no_split_set K (pair_good f) Hn Hq sn b sp reps G N) as (b' & e & A & B & _ & _ & C & _). eauto. Qed.
Lemma qte_never nfv nrv g b0 b : ~ score_setting f s (PStr score) ml_g \/ ~ predicts_probabilities ml_m -> wrap_new K nfv nrv false g = Ok b0 -> wlater K (qte_do L rd f s sv score k o ml_g ml_m qs norm rule thr) b0 b ->
  wo_subs b = None.
Proof.
  intros Bad H La. apply (never_made_later K _ (pair_next sv) Hn Hq di 0 b0 b); [exact Hq| |injection H as <-; reflexivity|exact La].
  intros nf1 nr1 m Q. destruct (proj1 (qte_make_accepts score k o ml_g ml_m qs norm rule thr nf1 nr1 0 Hs) (ex_intro _ m Q)) as (_ & _ & _ & _ & _ & A & B). tauto.
Qed.
End Obj.
Lemma qte_accepts dflt o ml_g ml_m qs nfv nrv score norm kde rule thr : qs <> [] ->
  (succeeds (@qte_init E P L rd f s sv dflt o ml_g ml_m qs nfv nrv score norm kde rule thr true) <->
   (forall q, In q qs -> 0 < q < 1) /\ kernel_ok kde /\ boolean norm /\ trimming_ok rule thr /\
   exists m c, ml_m = Some m /\ binary_treatment f s c /\ split_args n nfv nrv (PBool true) (Some (col f c)) /\ predicts_probabilities m /\ score_setting f s score ml_g).
Proof.
  intro Hq. assert (Sh : shuffles (rd_g rd)) by apply Rd. assert (Len : (0 < length qs)%nat) by (destruct qs; [congruence|cbn; lia]). split.
  - intros ((K, b) & H). apply qte_unfold in H as (sc & m & k & (Q & Kk & Sc & Sc' & (c & Bt) & T & Nm & Cg & Em & Cm) & Kd & EK & W). pose proof (binary_active f s Con c Bt) as Ec. subst K.
    destruct (proj1 (qte_new sc k o (cloned_learner L ml_g) (cloned_learner L m) qs norm rule thr Sc' Len nfv nrv (rd_g rd) Sh) (ex_intro _ b W)) as (Sp & Wh & Mk). destruct (Mk 0%nat Len) as (_ & _ & _ & _ & _ & Pm & St).
    split; [exact Q|]. split; [exact Kk|]. split; [exact Nm|]. split; [exact T|]. exists m, c. split; [exact Em|]. split; [exact Bt|]. split; [rewrite Ec; exact Sp|]. split; [exact Pm|]. rewrite Sc. exact St.
  - intros (Q & Kk & Nm & T & m & c & Em & Bt & Sp & Pm & St). pose proof (binary_active f s Con c Bt) as Ec. destruct (proj2 (kernel_iff dflt kde) Kk) as (k & Kd).
    assert (X : exists sc, score = PStr sc /\ In sc ["PQ"; "LPQ"; "CVaR"] /\ can_clone ml_g).
    { destruct St as [(-> & _ & (A & _))|[(-> & _ & (A & _))|(-> & _ & (A & _))]]; eexists; (split; [reflexivity|split; [cbn; auto|apply estimator_clone; exact A]]). }
    destruct X as (sc & X1 & X2 & X3).
    assert (W : succeeds (wrap_new (@qte_class E P L rd f s sv sc k o (cloned_learner L ml_g) (cloned_learner L m) qs norm rule thr) nfv nrv true (rd_g rd))).
    { apply (qte_new sc k o (cloned_learner L ml_g) (cloned_learner L m) qs norm rule thr X2 Len nfv nrv (rd_g rd) Sh). split; [rewrite <- Ec; exact Sp|]. split; [rewrite <- Ec; apply zero_one_whole, Bt|].
      intros i Hi. split; [apply Q, nth_In, Hi|]. split; [exact Nm|]. split; [exact T|]. split; [exists c; exact Bt|]. split; [destruct Sp as (S1 & S2 & S3 & S4 & _); split; auto|]. split; [exact Pm|]. rewrite X1 in St. exact St. }
    destruct W as (b & W). eexists (_, b). apply qte_unfold. exists sc, m, k. split; [|split; [exact Kd|split; [reflexivity|exact W]]].
    unfold qte_base. split; [exact Q|]. split; [exact Kk|]. split; [exact X1|]. split; [exact X2|]. split; [exists c; exact Bt|]. split; [exact T|]. split; [exact Nm|]. split; [exact X3|]. split; [exact Em|apply estimator_clone, Pm].
Qed.
Lemma qte_refused dflt o ml_g ml_m qs nfv nrv score norm kde rule thr draw : qs <> [] -> type_or_value_error (@qte_init E P L rd f s sv dflt o ml_g ml_m qs nfv nrv score norm kde rule thr draw).
Proof.
  intro Hq. assert (Len : (0 < length qs)%nat) by (destruct qs; [congruence|cbn; lia]).
  unfold qte_init. apply td_req_v. apply td_bind; [apply td_kernel|intro k]. intros e H. destruct (check_score score ["PQ"; "LPQ"; "CVaR"]) as [sc|e'] eqn:Sc; cbn [bind] in H; [|injection H as <-; revert e' Sc; apply td_score].
  apply score_iff in Sc as (_ & Sc). revert e H. apply td_req_v. apply td_bind; [apply td_trim|intro]. apply td_bind; [apply td_bool|intro]. apply td_req_t. destruct ml_m as [m|]; [|apply td_type]. apply td_req_t. cbv zeta.
  apply td_bind; [|intro; apply td_ok]. destruct draw; [|intros e H; discriminate H]. pose proof (qte_refused_new sc k o (cloned_learner L ml_g) (cloned_learner L m) qs norm rule thr Len nfv nrv (rd_g rd)) as X. apply X. apply Rd.
Qed.
End Accept.

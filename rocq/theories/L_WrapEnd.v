(** Quantile effect and potential outcome objects, from the constructor to the
    results. *)
From Verif Require Import L_DataProps L_ModelProps L_ModelInv L_InitAccept L_InitMade L_FitSuccess2 L_QSuccess.
From Verif Require Export L_WrapApos.
From Coq Require Import Lia Lra Permutation.
Local Open Scope R_scope.
Local Open Scope res_scope.
Local Open Scope string_scope.

Section Qte.
Context {E P : Type}.
Variable L : learner E row P.
Variable rd : randomness.
Variable f : M_Data.frame.
Variable s : M_Data.ddata.
Variable sv : solvers.
Hypothesis Con : S_Data.constructed f s.
Hypothesis Un : unclustered s.
Hypothesis Ba : both_arms f s.
Hypothesis Rd : sound_randomness rd.
Let n := M_Data.frows f.
Hypothesis Hn : (0 < n)%nat.
Let Re := S_Data.R_new f s Con.
Variables (dflt : vec -> vec -> R) (o : nat -> bool -> nat -> nat -> q_oracles) (ml_g : pylearner E) (ml_m : option (pylearner E)) (qs : list R) (nfv nrv score norm : pyval) (kde : kde_arg) (rule thr : pyval).
Hypothesis Hq : qs <> [].
Let Hq' : (0 < length qs)%nat.
Proof. destruct qs; [contradiction|cbn; lia]. Qed.
Let Sg : shuffles (rd_g rd) := proj1 (proj2 (proj2 Rd)).

Lemma qte_drawn K b : @qte_init E P L rd f s sv dflt o ml_g ml_m qs nfv nrv score norm kde rule thr true = Ok (K, b) ->
  exists c sm, binary_treatment f s c /\ wo_smpls b = Some sm /\ spread n nfv nrv (col f c) sm /\ all_on pair_on b sm.
Proof.
  intro H. apply (qte_unfold L rd f s sv Con) in H as (sc & m & k & Ba' & _ & -> & W). destruct Ba' as (_ & _ & _ & Sc & (c & Bt) & _). assert (Ec : c = M_Data.c_d s) by exact (binary_active f s Con c Bt).
  destruct (qte_new_split L rd f s sv Con Un Rd Hn sc k o _ _ qs norm rule thr Hq' nfv nrv _ b Sg W) as (sm & A & B & C). exists c, sm. split; [exact Bt|]. subst c. auto.
Qed.
Lemma qte_needs_m draw : forall x, @qte_init E P L rd f s sv dflt o ml_g None qs nfv nrv score norm kde rule thr draw <> Ok x.
Proof. intros (K, b) H. apply (qte_unfold L rd f s sv Con) in H as (sc & m & k & (_ & _ & _ & _ & _ & _ & _ & _ & Q & _) & _). discriminate. Qed.
Lemma clone_proba (l : pylearner E) : predicts_probabilities (cloned_learner L l) <-> predicts_probabilities l.
Proof. reflexivity. Qed.
Lemma clone_setting v (l : pylearner E) : score_setting f s v (cloned_learner L l) <-> score_setting f s v l.
Proof. reflexivity. Qed.
Lemma qte_unusable m K b0 b : @qte_init E P L rd f s sv dflt o ml_g (Some m) qs nfv nrv score norm kde rule thr false = Ok (K, b0) ->
  ~ score_setting f s score ml_g \/ ~ predicts_probabilities m -> wlater K (qte_call sv K) b0 b ->
  wo_subs b = None /\ forall nj store smod, qte_fit sv K nj store ExtNone smod b = (b, Err AttributeError).
Proof.
  intros H Bad La. apply (qte_unfold L rd f s sv Con) in H as (sc & m' & k & Ba' & _ & -> & W). destruct Ba' as (_ & _ & -> & Sc & _ & _ & _ & _ & Q & _). injection Q as <-.
  assert (Bad' : ~ score_setting f s (PStr sc) (cloned_learner L ml_g) \/ ~ predicts_probabilities (cloned_learner L m)). { destruct Bad as [Bad|Bad]; [left|right]; intro X; apply Bad; [apply clone_setting|apply clone_proba]; exact X. }
  assert (Z : wo_subs b = None). { exact (qte_never L rd f s sv Con Un Ba Hn sc k o _ _ qs norm rule thr Sc Hq' nfv nrv (rd_g rd) b0 b Bad' W La). }
  split; [exact Z|]. intros. unfold qte_fit, wrap_fit. rewrite Z. reflexivity.
Qed.
Variable draw : bool.
Lemma qte_history K b0 b subs : @qte_init E P L rd f s sv dflt o ml_g ml_m qs nfv nrv score norm kde rule thr draw = Ok (K, b0) -> wlater K (qte_call sv K) b0 b -> wo_subs b = Some subs ->
  length subs = length qs /\ exists sm, crossed n sm /\ all_on pair_on b sm.
Proof.
  intros H La Es. apply (qte_unfold L rd f s sv Con) in H as (sc & m & k & Ba' & _ & -> & W). exact (qte_shared L rd f s sv Con Un Rd Hn sc k o _ _ qs norm rule thr Hq' nfv nrv draw _ b0 b subs Sg W La Es).
Qed.
Lemma qte_reported K b0 l subs : @qte_init E P L rd f s sv dflt o ml_g ml_m qs nfv nrv score norm kde rule thr draw = Ok (K, b0) -> (forall c, In c l -> wgood c /\ ~ asks_no_split n c) ->
  let b := wcalls K (qte_call sv K) l b0 in wo_subs b = Some subs -> exists sm, wo_smpls b = Some sm /\ all_on pair_on b sm.
Proof.
  intros H G. apply (qte_unfold L rd f s sv Con) in H as (sc & m & k & Ba' & _ & -> & W). destruct Ba' as (_ & _ & _ & Sc & _).
  exact (qte_synced L rd f s sv Con Un Ba Rd Hn sc k o _ _ qs norm rule thr Sc Hq' nfv nrv draw _ b0 l Sg W G subs).
Qed.
Lemma qte_no_split_set K b0 b sp reps : @qte_init E P L rd f s sv dflt o ml_g ml_m qs nfv nrv score norm kde rule thr draw = Ok (K, b0) -> good_split n sp reps -> no_split n reps ->
  exists b' e, wrap_set K sp b = (b', Err e) /\ wo_smpls b' = Some [[(seq 0 n, seq 0 n)]] /\ wo_subs b' = wo_subs b.
Proof.
  intros H G N. apply (qte_unfold L rd f s sv Con) in H as (sc & m & k & Ba' & _ & -> & W). exact (qte_no_split L rd f s sv Con Un Rd Hn sc k o _ _ qs norm rule thr Hq' b sp reps G N).
Qed.
Lemma qte_end K b0 b nj st ext md b' : @qte_init E P L rd f s sv dflt o ml_g ml_m qs nfv nrv score norm kde rule thr draw = Ok (K, b0) -> wlater K (qte_call sv K) b0 b ->
  qte_fit sv K nj st ext md b = (b', Ok tt) ->
  ext = ExtNone /\ exists sc m h sm F fs, score = PStr sc /\ ml_m = Some m /\ kernel_used dflt kde h /\ crossed n sm /\ all_on pair_on b sm /\ wo_fw b' = Some F /\ length fs = length qs /\ effects_of n (length sm) fs F /\
  forall i q F0 F1, nth_error qs i = Some q -> nth_error fs i = Some (F0, F1) ->
    arm_fitted L rd f s sv sc h (o i false) ml_g m q false norm rule thr nj st md sm F0 /\ arm_fitted L rd f s sv sc h (o i true) ml_g m q true norm rule thr nj st md sm F1.
Proof.
  intros H La Ft. apply (qte_unfold L rd f s sv Con) in H as (sc & m & k & Ba' & Kd & -> & W). destruct Ba' as (_ & _ & Es & Sc & _ & _ & _ & _ & Em & _).
  pose proof (qte_inv L rd f s sv Con Un Rd Hn sc k o _ _ qs norm rule thr Hq' nfv nrv draw _ b0 b Sg W La) as I.
  destruct (qte_fitted L rd f s sv Con Un Rd Hn sc k o ml_g m qs norm rule thr Sc Hq' b nj st ext md b' I Ft) as (Ee & sm & F & fs & A). split; [exact Ee|]. exists sc, m, k, sm, F, fs. split; [exact Es|]. split; [exact Em|]. split; [|exact A].
  destruct kde; cbn in Kd; try discriminate; injection Kd as <-; [left|right]; auto.
Qed.
(** Fits that succeed. *)
Lemma arm_success sc h og (oo : nat -> bool -> nat -> nat -> q_oracles) m q i tr q0 u sm fv gv nj st md : In sc ["PQ"; "LPQ"; "CVaR"] ->
  make_quantile L rd f s sc h oo og m q norm rule thr nfv nrv i tr = Ok q0 -> sub_later sv q0 u -> qsub_split u = Some sm -> sub_plain u ->
  row_wise L fv gv -> classifier_ok L gv -> clone_ok L -> trains L -> (forall r k, solver_ok (oo i tr r k)) -> brentq_ok sv -> fmin_ok sv -> no_jobs_or_int nj ->
  (forall r fs, nth_error sm r = Some fs -> arm_usable f s (PStr sc) (oo i tr r (length fs)) tr fs) -> snd (qsub_fit sv nj (PBool st) (PBool md) u) = Ok tt.
Proof.
  intros Sc Mk La Sp Pl Rw Co Cl Tr So Hb Hf Hj U.
  assert (Ne : exists fs0, nth_error sm 0 = Some fs0).
  { pose proof (make_sound L rd f s Re Un Rd _ _ _ _ _ _ _ _ _ _ _ _ _ _ Mk) as S0. pose proof (sub_later_sound sv n _ _ S0 La) as S1. destruct sm as [|fs0 sm]; [|eexists; reflexivity]. exfalso. destruct u as [K b|C w]; cbn [sub_sound qsub_split] in S1, Sp.
    - destruct S1 as (_ & S1). pose proof (reachable_wf _ _ (reached_reachable _ _ S1)) as W. pose proof (wf_smpls _ _ W _ Sp) as X. assert (0 < m_n_rep (w_obj (ob_world b)))%nat by apply W. cbn in X. lia.
    - destruct S1 as (_ & _ & _ & S1). pose proof (reachable_wf _ _ (reached_reachable _ _ S1)) as W. pose proof (wf_smpls _ _ W _ Sp) as X. assert (0 < m_n_rep (w_obj w))%nat by apply W. cbn in X. lia. }
  destruct Ne as (fs0 & Ne). pose proof (U 0%nat fs0 Ne) as U0.
  assert (Pf : forall (w : world P) l d r k, untuned w -> params_fit (params_at w l d r) k) by (intros w l d r k Q; rewrite (Q l d r); exact Logic.I).
  assert (An : arm_number (PInt (if tr then 1 else 0)) (if tr then 1 else 0)). { destruct tr; [right|left]; (split; [auto|reflexivity]). }
  unfold make_quantile in Mk. destruct (String.eqb sc "PQ") eqn:E1; [|destruct (String.eqb sc "LPQ") eqn:E2]; apply bind_ok in Mk as ((C, b) & Mk & Q); apply ok_inj in Q; subst q0; cbn [fst snd sub_later] in La; destruct La as (x & -> & La); cbn [qsub_split] in Sp; cbn [sub_plain] in Pl; cbn [qsub_fit].
  - apply String.eqb_eq in E1. subst sc. destruct U0 as [(_ & d & Bt & _)|(X & _)]; [|discriminate X].
    destruct (pq_fit_succeeds _ _ L fv gv rd f s _ _ _ _ _ _ _ _ _ _ _ _ _ _ C b x sv nj st md sm d (if tr then 1 else 0) Re Un Rd Hn Mk An Bt Rw Co Cl Tr So Hb Hf La Sp Hj) as (b' & Z).
    + intros r fs Hr. split; [|split; apply Pf, Pl]. destruct (U r fs Hr) as [(_ & d' & Bt' & Us)|(X & _)]; [|discriminate X]. assert (d' = d) as -> by (destruct Bt, Bt'; congruence). exact Us.
    + unfold n, Re in *. match goal with |- snd (let (_, _) := ?X in _) = _ => replace X with (b', Ok tt : result unit) by (symmetry; exact Z) end. reflexivity.
  - apply String.eqb_eq in E2. subst sc. destruct U0 as [([X|X] & _)|(_ & d & z & Bt & Bz & _)]; [discriminate X..|].
    destruct (lpq_fit_succeeds _ _ L fv gv rd f s _ _ _ _ _ _ _ _ _ _ _ _ _ _ C b x sv nj st md sm d z Re Un Rd Hn Mk Bt Bz Rw Co Cl Tr So Hb Hf La Sp Hj) as (b' & Z).
    + intros r fs Hr. split; [|intros l _; apply Pf, Pl]. destruct (U r fs Hr) as [([X|X] & _)|(_ & d' & z' & Bt' & Bz' & Us)]; [discriminate X..|]. assert (d' = d) as -> by (destruct Bt, Bt'; congruence). assert (z' = z) as -> by (destruct Bz, Bz'; congruence). exact Us.
    + match goal with |- snd (let (_, _) := ?X in _) = _ => replace X with (b', Ok tt : result unit) by (symmetry; exact Z) end. reflexivity.
  - assert (sc = "CVaR") as -> by (destruct Sc as [<-|[<-|[<-|[]]]]; [discriminate E1|discriminate E2|reflexivity]). destruct U0 as [(_ & d & Bt & _)|(X & _)]; [|discriminate X].
    destruct (cvar_fit_succeeds _ _ L fv gv rd f s _ _ _ _ _ _ _ _ _ _ _ _ C b x nj st md sm d (if tr then 1 else 0) Re Un Rd Hn Mk An Bt Rw Co Cl Tr La Sp Hj) as (b' & Z).
    + intros r fs Hr. split; [|split; apply Pf, Pl]. destruct (U r fs Hr) as [(_ & d' & Bt' & Us)|(X & _)]; [|discriminate X]. assert (d' = d) as -> by (destruct Bt, Bt'; congruence). exact Us.
    + match goal with |- snd (let (_, _) := ?X in _) = _ => replace X with (b', Ok tt : result unit) by (symmetry; exact Z) end. reflexivity.
Qed.
End Qte.
Section QteOk.
Context {E P : Type}.
Variable L : learner E row P.
Variable rd : randomness.
Variable f : M_Data.frame.
Variable s : M_Data.ddata.
Variable sv : solvers.
Hypothesis Con : S_Data.constructed f s.
Hypothesis Un : unclustered s.
Hypothesis Rd : sound_randomness rd.
Let n := M_Data.frows f.
Hypothesis Hn : (0 < n)%nat.
Let Re := S_Data.R_new f s Con.
Lemma qte_success dflt o ml_g ml_m qs nfv nrv score norm kde rule thr draw K b0 b sm fv gv nj st md : qs <> [] ->
  @qte_init E P L rd f s sv dflt o ml_g ml_m qs nfv nrv score norm kde rule thr draw = Ok (K, b0) -> wlater K (qte_call sv K) b0 b -> all_on pair_on b sm ->
  row_wise L fv gv -> classifier_ok L gv -> clone_ok L -> trains L -> (forall i tr r k, solver_ok (o i tr r k)) -> brentq_ok sv -> fmin_ok sv -> no_jobs_or_int nj ->
  (forall i tr r fs, (i < length qs)%nat -> nth_error sm r = Some fs -> arm_usable f s score (o i tr r (length fs)) tr fs) ->
  exists b', qte_fit sv K nj (PBool st) ExtNone (PBool md) b = (b', Ok tt).
Proof.
  intros Hq H La (l & El & On) Rw Co Cl Tr So Hb Hf Hj U. assert (Hq' : (0 < length qs)%nat) by (destruct qs; [contradiction|cbn; lia]).
  apply (qte_unfold L rd f s sv Con) in H as (sc & m & k & Ba' & Kd & -> & W). destruct Ba' as (_ & _ & -> & Sc & _).
  pose proof (qte_inv L rd f s sv Con Un Rd Hn sc k o _ _ qs norm rule thr Hq' nfv nrv draw _ b0 b (proj1 (proj2 (proj2 Rd))) W La) as I.
  apply (qte_succeeds L rd f s sv Con Un Rd Hn sc k o ml_g m qs norm rule thr Hq' b nj (PBool st) (PBool md) l I El).
  intros p Hp. destruct (proj2 I l El) as (nf1 & nr1 & sm' & Sub).
  pose proof (subs_on _ (pair_good f) (pair_next sv) (qte_set_on L rd f s sv Re Un Rd sc k o _ _ qs norm rule thr) (@pair_next_on P f sv) l nf1 nr1 sm' Sub p Hp) as ((Sp0 & Sp1) & _ & _ & P0 & P1).
  destruct (On p Hp) as (Q0 & _). assert (sm' = sm) by congruence. subst sm'. destruct Sub as (_ & _ & _ & Lq & Or). cbn [wk_count qte_class] in Lq. apply In_nth_error in Hp as (j & Hj').
  assert (Hl : (j < length qs)%nat) by (rewrite <- Lq; apply nth_error_Some; congruence).
  destruct (qte_origin L rd f s sv sc k o _ _ qs norm rule thr nf1 nr1 sm j p (Or j p Hj') false) as (q0 & M0 & La0). destruct (qte_origin L rd f s sv sc k o _ _ qs norm rule thr nf1 nr1 sm j p (Or j p Hj') true) as (q1 & M1 & La1).
  split.
  - exact (arm_success L rd f s sv Con Un Rd Hn qs nf1 nr1 norm rule thr Hq sc k _ o _ _ j false q0 (fst p) sm fv gv nj st md Sc M0 La0 Sp0 P0 Rw Co Cl Tr (So j false) Hb Hf Hj (fun r fs Hr => U j false r fs Hl Hr)).
  - exact (arm_success L rd f s sv Con Un Rd Hn qs nf1 nr1 norm rule thr Hq sc k _ o _ _ j true q1 (snd p) sm fv gv nj st md Sc M1 La1 Sp1 P1 Rw Co Cl Tr (So j true) Hb Hf Hj (fun r fs Hr => U j true r fs Hl Hr)).
Qed.
End QteOk.

Section Apos.
Context {E P : Type}.
Variable L : learner E row P.
Variable rd : randomness.
Variable f : M_Data.frame.
Variable s : M_Data.ddata.
Hypothesis Con : S_Data.constructed f s.
Hypothesis Un : unclustered s.
Hypothesis Rd : sound_randomness rd.
Let n := M_Data.frows f.
Hypothesis Hn : (0 < n)%nat.
Let Re := S_Data.R_new f s Con.
(** One potential outcome model: fits that succeed. *)
Lemma level_success ml_g ml_m v nfv nrv score weights norm rule thr draw C w0 w sm fv gv nj b b' : apo_init L rd f s ml_g ml_m v nfv nrv score weights norm rule thr draw = Ok (C, w0) -> later C w0 w ->
  m_smpls (w_obj w) = Some sm -> untuned w -> row_wise L fv gv -> classifier_ok L gv -> clone_ok L -> trains L -> (forall r t l fs, nth_error sm r = Some fs -> schedule (rd_order rd r t l) (length fs)) -> no_jobs_or_int nj ->
  ly_classifier ml_g = false -> ~ S_Data.zero_one_column f (M_Data.r_y (M_Data.dd_roles s)) -> (forall fs, In fs sm -> fs <> []) -> (forall fs, In fs sm -> level_usable f s v fs) ->
  exists w', fit C nj (PBool b) ExtNone (PBool b') w = (w', Ok tt).
Proof.
  intros H La Es Ut Rw Co Cl Tr Sc Hj Rg Nb Ne U. destruct (apo_made L rd f s Re Rd _ _ _ _ _ _ _ _ _ _ _ _ _ H) as (c & _ & _ & _ & _ & _ & Dc & _ & Sr & Ec & _).
  pose proof (reached_later _ _ _ Sr La) as Sw. assert (By : M_Data.dd_by s = false). { destruct (binary_constructed f s Con) as (B & _). destruct (M_Data.dd_by s); [|reflexivity]. exfalso. apply Nb, B. reflexivity. }
  unfold apo_init in H. bi H w1 B. cbv zeta in H. ri H D. ri H Zn. ri H Tr'. bi H sc' Sc'. bi H w' Rw'. bi H gc G. bi H mm M. bi H u Og. bi H nm Nm. bi H th T. bi H u' W. apply ok_inj in H. apply pair_equal_spec in H as (Hc & _).
  apply learner_either in G as (_ & G). rewrite (plain_ctx f s Re _ Un), By in Hc. rewrite <- Hc in *. clear Hc. unfold M_Data.frows in *.
  assert (Pn : forall r name, nth r (m_params (w_obj w) name (hd EmptyString (M_Data.r_d (M_Data.dd_roles s)))) None = None) by (intros r name; apply (Ut name _ r)).
  apply (apo_fit_success L fv gv); [exact Hn|exact Sw|split; [exact Rw|exact Cl|intros sm' r t l fs E1 E2; rewrite Es in E1; injection E1 as <-; exact (Sc r t l fs E2)]|exact Hj|eauto| | | |discriminate].
  - intros sm' r fs E1 E2. rewrite Es in E1. injection E1 as <-. destruct (U fs (nth_error_In _ _ E2)) as (x & Ex & Us). split.
    + intros k p data Hk Hp Hd. cbn [setup_of su_params] in Hp. rewrite Pn in Hp. cbn in Hp. subst p. cbn [fitted]. apply Tr, Hd.
    + intros l Hl. cbn [setup_of su_params] in Hl. rewrite Pn in Hl. discriminate Hl.
    + intros h Hh. destruct (Us h Hh) as (i & j & Ii & Ij & Ni & Nj & Vi & Vj). exists j. split; [exact Nj|]. split; [|exact Ij]. unfold treated_at. change (level_of v) with (level_number v). rewrite Ex. destruct (Req_EM_T _ _); [contradiction|reflexivity].
    + intro Q. cbn [setup_of su_proba] in Q. change (gc = true) in Q. rewrite G, Rg in Q. discriminate.
    + intro Q. cbn [setup_of su_proba] in Q. change (gc = true) in Q. rewrite G, Rg in Q. discriminate.
  - intros sm' r fs E1 E2. rewrite Es in E1. injection E1 as <-. destruct (U fs (nth_error_In _ _ E2)) as (x & Ex & Us). split.
    + intros k p data Hk Hp Hd. cbn [setup_of su_params] in Hp. rewrite Pn in Hp. cbn in Hp. subst p. cbn [fitted]. apply Tr, Hd.
    + intros l Hl. cbn [setup_of su_params] in Hl. rewrite Pn in Hl. discriminate Hl.
    + intros h Hh. destruct (Us h Hh) as (i & j & Ii & Ij & Ni & Nj & Vi & Vj). exists i. split; [exact Ni|]. split; [|exact Ii]. unfold treated_at. change (level_of v) with (level_number v). rewrite Ex. destruct (Req_EM_T _ _); [reflexivity|contradiction].
    + intro Q. cbn [setup_of su_proba] in Q. change (gc = true) in Q. rewrite G, Rg in Q. discriminate.
    + intro Q. cbn [setup_of su_proba] in Q. change (gc = true) in Q. rewrite G, Rg in Q. discriminate.
  - intros sm' r fs E1 E2. rewrite Es in E1. injection E1 as <-. destruct (U fs (nth_error_In _ _ E2)) as (x & Ex & Us).
    assert (Lv : forall i, treated_at f s v i = if Req_EM_T (col f (M_Data.c_d s) i) x then 1 else 0) by (intro i; unfold treated_at; change (level_of v) with (level_number v); rewrite Ex; reflexivity). split.
    + intros k p data Hk Hp Hd. cbn [setup_of su_params] in Hp. rewrite Pn in Hp. cbn in Hp. subst p. cbn [fitted]. apply Tr, Hd.
    + intros l Hl. cbn [setup_of su_params] in Hl. rewrite Pn in Hl. discriminate Hl.
    + intros h Hh. destruct (Us h Hh) as (i & j & Ii & Ij & Ni & Nj & Vi & Vj). exists i. split; [exact Ni|]. split; [exact Logic.I|exact Ii].
    + intros _. split; [exact Co|]. intros h i Hh Hi. destruct (Us h Hh) as (i1 & j1 & Ii & Ij & Ni & Nj & Vi & Vj).
      destruct (Req_EM_T (col f (M_Data.c_d s) i) x) as [Q|Q]; [exists i1|exists j1]; (split; [assumption|]); (split; [exact Logic.I|]); (split; [assumption|]); rewrite !Lv; repeat destruct (Req_EM_T _ _); try reflexivity; contradiction.
    + intros _. destruct fs as [|h fs].
      * exfalso. exact (Ne [] (nth_error_In _ _ E2) eq_refl).
      * destruct (Us h (or_introl eq_refl)) as (i1 & j1 & Ii & Ij & Ni & Nj & Vi & Vj). exists i1, j1. split; [exact Ni|]. split; [exact Nj|]. rewrite !Lv. repeat destruct (Req_EM_T _ _); try contradiction; lra.
Qed.

Variables (ml_g ml_m : pylearner E) (levels : list pyval) (nfv nrv score : pyval) (weights : warg) (norm rule thr : pyval).
Hypothesis Hq : levels <> [].
Let Hq' : (0 < length levels)%nat.
Proof. destruct levels; [contradiction|cbn; lia]. Qed.
Let Sg : shuffles (rd_g rd) := proj1 (proj2 (proj2 Rd)).

Lemma apos_drawn K b : @apos_init E P L rd f s ml_g ml_m levels nfv nrv score weights norm rule thr true = Ok (K, b) ->
  exists c sm, M_Data.r_d (M_Data.dd_roles s) = [c] /\ wo_smpls b = Some sm /\ spread n nfv nrv (col f c) sm /\ all_on apo_on b sm.
Proof.
  intro H. assert (Ac : succeeds (@apos_init E P L rd f s ml_g ml_m levels nfv nrv score weights norm rule thr true)) by (eexists; exact H).
  apply (apos_accepts L rd f s Con Un Rd Hn) in Ac; [|exact Hq]. destruct Ac as (_ & (c & Dc & _) & _). pose proof (one_treatment f s Con c Dc) as Ec.
  apply (apos_unfold L rd f s Con Hn) in H as (_ & -> & W). destruct (apos_new_split L rd f s Con Un Rd Hn _ _ levels score _ norm rule thr Hq' nfv nrv _ b Sg W) as (sm & A & B & C). exists c, sm. split; [exact Dc|]. subst c. auto.
Qed.
Lemma apos_unusable K b0 b v : @apos_init E P L rd f s ml_g ml_m levels nfv nrv score weights norm rule thr false = Ok (K, b0) ->
  In v levels -> ~ (exists c, M_Data.r_d (M_Data.dd_roles s) = [c]) \/ ~ frequent f (M_Data.c_d s) v -> wlater K (apos_call s levels K) b0 b ->
  wo_subs b = None /\ forall nj store smod, apos_fit s levels K nj store AxNone smod b = (b, Err AttributeError).
Proof.
  intros H Iv Bad La. apply (apos_unfold L rd f s Con Hn) in H as (_ & -> & W).
  assert (Z : wo_subs b = None) by exact (apos_never L rd f s Con Un Hn _ _ levels score _ norm rule thr Hq' nfv nrv (rd_g rd) b0 b v Iv Bad W La).
  split; [exact Z|]. intros. unfold apos_fit, wrap_fit. rewrite Z. reflexivity.
Qed.
Lemma apos_redraw K b g b' : K = @apos_class E P L rd f s (cloned_learner L ml_g) (cloned_learner L ml_m) levels score (stored_weights f weights) norm rule thr -> shuffles g -> wrap_draw K g b = (b', Ok tt) ->
  wo_subs b' = wo_subs b /\ exists sm, wo_smpls b' = Some sm /\ spread n (wo_folds b) (wo_reps b) (col f (M_Data.c_d s)) sm.
Proof.
  intros -> Sh. unfold wrap_draw. destruct (resample _ (wo_folds b) (wo_reps b) g) as [sm|e] eqn:Q; [|discriminate]. cbn [wk_remake apos_class]. intro H. apply pair_equal_spec in H as (<- & _). split; [reflexivity|]. exists sm. split; [reflexivity|].
  match type of Q with resample ?K _ _ _ = _ => destruct (resample_ok K Hn Hq' _ _ _ _ Sh Q) as (A & _) end. exact A.
Qed.
Variable draw : bool.
Lemma apos_history K b0 b subs : @apos_init E P L rd f s ml_g ml_m levels nfv nrv score weights norm rule thr draw = Ok (K, b0) -> wlater K (apos_call s levels K) b0 b -> wo_subs b = Some subs ->
  length subs = length levels /\ exists sm, crossed n sm /\ all_on apo_on b sm.
Proof.
  intros H La Es. apply (apos_unfold L rd f s Con Hn) in H as (_ & -> & W). exact (apos_shared L rd f s Con Un Rd Hn _ _ levels score _ norm rule thr Hq' nfv nrv draw _ b0 b subs Sg W La Es).
Qed.
Lemma apos_reported K b0 l subs : (forall a b x, weights <> WDict a b x) -> @apos_init E P L rd f s ml_g ml_m levels nfv nrv score weights norm rule thr draw = Ok (K, b0) -> (forall c, In c l -> wgood c /\ ~ asks_no_split n c /\ forall g, c <> WcDraw g) ->
  let b := wcalls K (apos_call s levels K) l b0 in wo_subs b = Some subs -> exists sm, wo_smpls b = Some sm /\ all_on apo_on b sm.
Proof.
  intros Nd H G. apply (apos_unfold L rd f s Con Hn) in H as (_ & -> & W).
  refine (apos_synced L rd f s Con Un Rd Hn _ _ levels score _ norm rule thr Hq' nfv nrv draw _ b0 l _ Sg W G subs). intros a b x. unfold stored_weights. destruct weights; try discriminate. exact (fun _ => Nd _ _ _ eq_refl).
Qed.
Lemma apos_no_split_set K b0 b sp reps : @apos_init E P L rd f s ml_g ml_m levels nfv nrv score weights norm rule thr draw = Ok (K, b0) -> good_split n sp reps -> no_split n reps ->
  exists b' e, wrap_set K sp b = (b', Err e) /\ wo_smpls b' = Some [[(seq 0 n, seq 0 n)]] /\ wo_subs b' = wo_subs b.
Proof.
  intros H G N. apply (apos_unfold L rd f s Con Hn) in H as (_ & -> & W). exact (apos_no_split L rd f s Con Un Rd Hn _ _ levels score _ norm rule thr Hq' b sp reps G N).
Qed.
Lemma apos_redrawn K b0 b g b' : @apos_init E P L rd f s ml_g ml_m levels nfv nrv score weights norm rule thr draw = Ok (K, b0) -> shuffles g -> wrap_draw K g b = (b', Ok tt) ->
  wo_subs b' = wo_subs b /\ exists sm, wo_smpls b' = Some sm /\ spread n (wo_folds b) (wo_reps b) (col f (M_Data.c_d s)) sm.
Proof. intros H. apply (apos_unfold L rd f s Con Hn) in H as (_ & Ek & W). exact (apos_redraw K b g b' Ek). Qed.
Lemma apos_end K b0 b nj st ext md b' : @apos_init E P L rd f s ml_g ml_m levels nfv nrv score weights norm rule thr draw = Ok (K, b0) -> wlater K (apos_call s levels K) b0 b ->
  apos_fit s levels K nj st ext md b = (b', Ok tt) ->
  exists dcol sm F fs, M_Data.r_d (M_Data.dd_roles s) = [dcol] /\ crossed n sm /\ all_on apo_on b sm /\ wo_fw b' = Some F /\ length fs = length levels /\ levels_of n (length sm) fs F /\
  forall i v Fi, nth_error levels i = Some v -> nth_error fs i = Some Fi -> exists e, level_predictions dcol ext v e /\ level_fitted L rd f s ml_g ml_m v score weights norm rule thr nj st e md sm Fi.
Proof.
  intros H La Ft. apply (apos_unfold L rd f s Con Hn) in H as (_ & -> & W).
  pose proof (apos_inv L rd f s Con Un Rd Hn _ _ levels score _ norm rule thr Hq' nfv nrv draw _ b0 b Sg W La) as I.
  destruct (apos_fitted L rd f s Con Un Rd Hn _ _ levels score _ norm rule thr Hq' b nj st ext md b' I Ft) as (sm & F & fs & Cr & On & Fw & Lf & Lo & Each).
  assert (Dc : exists c, M_Data.r_d (M_Data.dd_roles s) = [c]).
  { destruct levels as [|v ls] eqn:El; [contradiction|]. destruct fs as [|F0 fs]; [discriminate Lf|]. destruct (Each 0%nat v F0 eq_refl eq_refl) as (nf1 & nr1 & e & C & w0 & w & w' & _ & Mk & _).
    destruct (apo_made L rd f s Re Rd _ _ _ _ _ _ _ _ _ _ _ _ _ Mk) as (c & _ & _ & _ & _ & _ & Dc & _). exists c. exact Dc. }
  destruct Dc as (dcol & Dc). exists dcol, sm, F, fs. split; [exact Dc|]. split; [exact Cr|]. split; [exact On|]. split; [exact Fw|]. split; [exact Lf|]. split; [exact Lo|].
  intros i v Fi Hv Hf. destruct (Each i v Fi Hv Hf) as (nf1 & nr1 & e & C & w0 & w & w' & Lp & Mk & Rest). rewrite Dc in Lp. exists e. split; [exact Lp|]. exists nf1, nr1, C, w0, w, w'. split; [exact Mk|exact Rest].
Qed.
Lemma apos_missing_levels K b0 b nj st md l v : @apos_init E P L rd f s ml_g ml_m levels nfv nrv score weights norm rule thr draw = Ok (K, b0) ->
  (forall k e, In (k, e) l -> (exists v', In v' levels /\ exists r, level_number k = Some r /\ level_number v' = Some r) /\ exists il, e = LxDict il /\ forall x, In x il -> In (fst x) ["ml_g_d_lvl0"; "ml_g_d_lvl1"; "ml_m"]) ->
  In v levels -> (forall k e r, In (k, e) l -> level_number k = Some r -> level_number v <> Some r) -> apos_fit s levels K nj st (AxDict l) md b = (b, Err KeyError).
Proof.
  intros H. apply (apos_unfold L rd f s Con Hn) in H as (_ & -> & W). exact (apos_missing L rd f s _ _ levels score _ norm rule thr b nj st md l v).
Qed.
Lemma apos_success K b0 b sm fv gv nj st md : @apos_init E P L rd f s ml_g ml_m levels nfv nrv score weights norm rule thr draw = Ok (K, b0) -> wlater K (apos_call s levels K) b0 b -> all_on apo_on b sm ->
  row_wise L fv gv -> classifier_ok L gv -> clone_ok L -> trains L -> (forall r t l fs, nth_error sm r = Some fs -> schedule (rd_order rd r t l) (length fs)) -> no_jobs_or_int nj ->
  ly_classifier ml_g = false -> ~ S_Data.zero_one_column f (M_Data.r_y (M_Data.dd_roles s)) -> (forall v fs, In v levels -> In fs sm -> level_usable f s v fs) ->
  exists b', apos_fit s levels K nj (PBool st) AxNone (PBool md) b = (b', Ok tt).
Proof.
  intros H La (l & El & On) Rw Co Cl Tr Sc Hj Rg Nb U. apply (apos_unfold L rd f s Con Hn) in H as (_ & -> & W).
  pose proof (apos_inv L rd f s Con Un Rd Hn _ _ levels score _ norm rule thr Hq' nfv nrv draw _ b0 b Sg W La) as I.
  apply (apos_succeeds L rd f s Con Un Rd Hn _ _ levels score _ norm rule thr Hq' b nj (PBool st) (PBool md) l I El).
  intros p Hp. destruct (proj2 I l El) as (nf1 & nr1 & sm' & Sub).
  destruct (subs_on _ (apo_good n) (@apo_next P) (apos_set_on L rd f s Con Un Rd _ _ levels score _ norm rule thr) (apo_next_on n) l nf1 nr1 sm' Sub p Hp) as (On' & _ & Ut).
  pose proof (On p Hp) as On1. unfold apo_on in On', On1. assert (sm' = sm) by congruence. subst sm'. destruct Sub as (Cr & _ & _ & Lq & Or). cbn [wk_count apos_class] in Lq. apply In_nth_error in Hp as (j & Hj').
  assert (Hl : (j < length levels)%nat) by (rewrite <- Lq; apply nth_error_Some; congruence).
  destruct (apos_origin L rd f s _ _ levels score _ norm rule thr nf1 nr1 sm j p (Or j p Hj')) as ((C0, w0) & Mk & (Q & Lt)). destruct p as (C, w). cbn [fst snd] in *. subst C0. cbn [wk_make apos_class] in Mk.
  destruct (level_success _ _ _ _ _ _ _ _ _ _ _ _ _ _ sm fv gv nj st md Mk Lt On1 Ut Rw Co Cl Tr Sc Hj Rg Nb) as (w' & Z).
  - destruct Cr as (_ & _ & Cr). intros fs Hf. apply (Cr fs Hf).
  - intros fs Hf. apply U; [apply nth_In, Hl|exact Hf].
  - rewrite Z. reflexivity.
Qed.
End Apos.

(** Fits of the quantile objects succeed. *)
From Verif Require Import L_Framework L_FitSuccess L_NestedSuccess L_CrossPath L_CrossProps L_Estimation L_LocalFit L_Local L_Lpq L_Quantile.
From Verif Require Export L_LpqObject S_External.
From Verif Require Import L_External.
From Coq Require Import Lia Lra.
Local Open Scope R_scope.
Local Open Scope res_scope.
Local Open Scope string_scope.

Lemma filter_some {A} (f : A -> bool) l a : In a l -> f a = true -> filter f l <> [].
Proof. intros H1 H2 Z. assert (In a (filter f l)) by (apply filter_In; auto). rewrite Z in H. contradiction. Qed.
Lemma reqb_hit a b : a = b -> reqb a b = true.
Proof. intros ->. unfold reqb. destruct (Req_EM_T b b); congruence. Qed.
Lemma map_some {A B} (f : A -> B) l : l <> [] -> map f l <> [].
Proof. destruct l; [congruence|discriminate]. Qed.
Lemma two_labels rows v : (exists i j, In i rows /\ In j rows /\ v i <> v j) -> (2 <= length (labels (length rows) (take rows v)))%nat.
Proof.
  intros (i & j & Hi & Hj & Hv). destruct (labels_spec (length rows) (take rows v)) as (_ & M).
  assert (A : forall i, In i rows -> In (v i) (labels (length rows) (take rows v))).
  { intros a Ha. apply M. apply In_nth_error in Ha as (k & Hk). exists k. split; [apply nth_error_Some; congruence|]. unfold take. apply nth_error_nth. apply map_nth_error, Hk. }
  pose proof (A i Hi) as Ai. pose proof (A j Hj) as Aj. destruct (labels _ _) as [|u [|u' l]]; cbn in *; [contradiction| |lia]. destruct Ai as [Q1|[]], Aj as [Q|[]]. congruence.
Qed.

Section Learner.
Context {E P : Type}.
Variable L : learner E row P.
Variables (f : E -> row -> R) (g : E -> row -> list R).
Hypothesis Rw : row_wise L f g.
Hypothesis Co : classifier_ok L g.
Hypothesis Cl : clone_ok L.
Hypothesis Tr : trains L.
Lemma inner_cv v rows inner order e (x : nat -> row) : inner_usable v rows inner order ->
  exists r, cv_predict L order e (length rows) (takex (X:=row) [] rows x) (YVec (take rows v)) inner NoParams true false false = Ok r.
Proof.
  intros ([I1 I2 I3 I4 I5] & Ne & Tl). assert (Hs : inner <> []). { intros ->. cbn in I2. apply Permutation_length in I2. rewrite seq_length in I2. cbn in I2. lia. }
  rewrite (cv_cases L order e (length rows) (takex (X:=row) [] rows x) (YVec (take rows v)) inner NoParams _ false false I2 Hs). cbn [is_fast is_list_params is_fold_target orb negb].
  apply (fast_def L f g Rw Cl e (length rows) (takex (X:=row) [] rows x) inner NoParams I2 order (take rows v)); [exact I5|reflexivity|destruct inner; [congruence|cbn; lia]| |].
  - intros k Hk. destruct (proj1 Tr (ln_clone L e) (train_rows (takex (X:=row) [] rows x) (encode (length rows) (take rows v)) (nth k inner ([], [])))) as (m & Hm).
    { unfold train_rows. apply map_some, Ne, nth_In, Hk. }
    exists m, None. eexists. split; [reflexivity|]. split; [reflexivity|exact Hm].
  - intros _ k m xi Hk Hm. destruct (classes_full L g e (length rows) (takex (X:=row) [] rows x) inner NoParams (take rows v) k m Co I4 I3 Hk Hm) as [Q1 Q2].
    unfold eorow. rewrite Q1, seq_length, Nat.eqb_refl, Q2. apply two_labels, Tl.
Qed.
Lemma ests_ok e prm k : params_fit prm k -> exists es, fold_ests L e prm k = Ok es.
Proof.
  intro H. unfold fold_ests. apply map_res_ok_all. intros i Hi. apply in_seq in Hi. destruct prm as [l|]; cbn.
  - cbn in H. destruct (nth_error l i) as [p|] eqn:N; [|apply nth_error_None in N; lia]. cbn. apply (proj2 Tr).
  - eexists. reflexivity.
Qed.
Lemma fit01_ok e x y rows at_rows : rows <> [] -> exists p, fit01 L e x y rows at_rows = Ok p.
Proof. intro H. unfold fit01. destruct (proj1 Tr e (map (fun i => (x i, y i)) rows)) as (m & ->); [apply map_some, H|]. cbn [bind]. apply predict01_total. Qed.

Lemma pq_succeeds o c start x y d smpls : qc_ext_g c = None -> qc_ext_m c = None -> (11 <= qc_fuel c)%nat -> fst (qc_bounds c) <= start <= snd (qc_bounds c) ->
  pq_usable o (level (qc_treated c)) d smpls -> exists p, pq_nuisance L L o [] c start x y d smpls = Ok p.
Proof.
  intros Eg Em Hf Hs U. unfold pq_nuisance. rewrite Eg, Em.
  match goal with |- context [map_res ?t ?l] => destruct (proj2 (map_res_ok_all t l)) as (rs & ->) end; [|eexists; reflexivity].
  intros (k & h) Hk. apply in_combine_r in Hk. destruct (U h Hk) as (N1 & I & j & J1 & J2). cbn [fst snd]. unfold pq_fold. cbv zeta.
  change (fst (qo_tts o (fst h) (map d (fst h)))) with (first_half o d h). change (snd (qo_tts o (fst h) (map d (fst h)))) with (second_half o d h).
  unfold prelim_m. cbv zeta. rewrite Em, Eg. destruct (inner_cv d _ _ _ (ln_clone L (qc_m c k)) x I) as (r & ->). cbn [bind].
  unfold prelim_ipw. cbv zeta. match goal with |- context [get_bracket_guess ?fu ?sc ?st ?lo ?hi] => destruct (bracket_guess fu sc st lo hi Hf Hs) as (s1 & b & seen & -> & _) end. cbn [bind].
  match goal with |- context [ln_fit L ?e (g_rows ?a ?b ?c ?d ?h ?i)] => destruct (proj1 Tr e (g_rows a b c d h i)) as (m1 & ->) end.
  { unfold g_rows. apply map_some. apply (filter_some _ _ j J1). apply reqb_hit, J2. }
  cbn [bind]. match goal with |- context [ln_fit L ?e ?dt] => destruct (proj1 Tr e dt) as (m2 & ->) end. { apply map_some, N1. } cbn [bind].
  match goal with |- context [predict01 L m2 ?a] => destruct (predict01_total L m2 a) as (p2 & ->) end. cbn [bind].
  destruct (qc_cvar c); [eexists; reflexivity|]. match goal with |- context [predict01 L ?e ?a] => destruct (predict01_total L e a) as (p1 & ->) end. eexists. reflexivity.
Qed.
Lemma lpq_succeeds o c start x y d z smpls : (forall l, In l lpq_names -> lc_ext c l = None) -> (11 <= lc_fuel c)%nat -> fst (lc_bounds c) <= start <= snd (lc_bounds c) ->
  lpq_usable o d z smpls -> exists p, lpq_nuisance L L o [] c start x y d z smpls = Ok p.
Proof.
  intros Ex Hf Hs U. unfold lpq_nuisance. match goal with |- context [forallb ?t ?l] => replace (forallb t l) with false by (cbn; rewrite Ex by (cbn; tauto); reflexivity) end.
  match goal with |- context [map_res ?t ?l] => destruct (proj2 (map_res_ok_all t l)) as (rs & ->) end; [|eexists; reflexivity].
  intros (k & h) Hk. apply in_combine_r in Hk. destruct (U h Hk) as (I & J). cbn [fst snd]. unfold lpq_fold. cbv zeta.
  change (fst (qo_tts o (fst h) (map (strata d z) (fst h)))) with (lfirst_half o d z h). change (snd (qo_tts o (fst h) (map (strata d z) (fst h)))) with (lsecond_half o d z h).
  assert (W : forall b, b = 0 \/ b = 1 -> with_z z b (fst h) <> [] /\ with_z z b (lfirst_half o d z h) <> [] /\ with_z z b (lsecond_half o d z h) <> []).
  { intros b Hb. destruct (J b Hb) as ((j1 & A1 & A2) & (j2 & B1 & B2) & j3 & C1 & C2). split; [|split]; (eapply filter_some; [eassumption|apply reqb_hit; assumption]). }
  destruct (W 0 (or_introl eq_refl)) as (W1 & W2 & W3). destruct (W 1 (or_intror eq_refl)) as (W4 & W5 & W6).
  unfold lpq_prelim. cbv zeta. change (strata d z) with (cells4 d z). destruct (inner_cv z _ _ _ (ln_clone L (lc_est c "ml_m_z" k)) x I) as (r & ->). cbn [bind].
  match goal with |- context [fit01 L ?e x ?v ?a ?b] => destruct (fit01_ok e x v a b W2) as (p0 & ->) end. cbn [bind].
  match goal with |- context [fit01 L ?e x ?v ?a ?b] => destruct (fit01_ok e x v a b W5) as (p1 & ->) end. cbn [bind].
  match goal with |- context [get_bracket_guess ?fu ?sc ?st ?lo ?hi] => destruct (bracket_guess fu sc st lo hi Hf Hs) as (s1 & b & seen & -> & _) end. cbn [bind].
  assert (N1 : fst h <> []) by (intro Z; rewrite Z in W1; apply W1; reflexivity).
  repeat match goal with |- context [fit01 L ?e x ?v ?a ?b] => destruct (fit01_ok e x v a b ltac:(assumption)) as (? & ->); cbn [bind] end. eexists. reflexivity.
Qed.
End Learner.

Lemma nl_dict_ok {P} (K : nl_class (P:=P)) reps : exists F, mk_framework (Some (nl_dict K reps)) = Ok F.
Proof. eexists. eapply mk_fw_ok with (nt := 1%nat) (nr := length reps) (n := nk_n K); try reflexivity. intros s Z; discriminate. Qed.
Lemma nl_succeeds {P} (K : nl_class (P:=P)) sv (b : nl_obj) sm nj st md ext (I : R -> Prop) : brentq_ok sv -> fmin_ok sv ->
  (forall s, I s <-> fst (nk_bounds K) <= s <= snd (nk_bounds K)) -> I (ob_start b) -> m_smpls (w_obj (ob_world b)) = Some sm -> m_n_rep (w_obj (ob_world b)) = length sm -> no_jobs_or_int nj ->
  check_external ext [nk_dcol K] (nk_learners K) (nk_n K) (length sm) = Ok tt ->
  (forall r fs start, nth_error sm r = Some fs -> I start -> exists ed out, set_external ext (nk_learners K) (nk_dcol K) r = Ok ed /\
     nk_est K md start r fs (fun l => nth r (m_params (w_obj (ob_world b)) l (nk_dcol K)) None) ed = Ok out /\ I (nx_start out)) ->
  exists b', nl_fit sv K nj (PBool st) ext (PBool md) b = (b', Ok tt).
Proof.
  intros Hb Hf HI I0 Es En Hj Hx H. unfold nl_fit, check_fit, lift.
  assert (Q : match nj with PNone => true | v => is_int v end = true) by (destruct Hj as [->|(k & ->)]; reflexivity). rewrite Q. cbn [require is_bool].
  assert (X : (if c_ext_ok (nl_ctx K) then check_external ext (c_dcols (nl_ctx K)) (c_learners (nl_ctx K)) (c_n (nl_ctx K)) (m_n_rep (w_obj (ob_world b))) else match ext with ExtNone => Ok tt | _ => Err NotImplementedError end) = Ok tt) by (rewrite En; exact Hx).
  rewrite X. rewrite En. set (m := w_obj (ob_world b)) in *.
  assert (R : forall rs start, I start -> (forall r, In r rs -> (r < length sm)%nat) -> exists s' reps, nl_reps sv K m md ext start rs = (s', Ok reps)).
  { induction rs as [|r rs IH]; intros start Hs Hr; [do 2 eexists; reflexivity|]. cbn [nl_reps].
    destruct (nth_error sm r) as [fs|] eqn:Er; [|apply nth_error_None in Er; specialize (Hr r (or_introl eq_refl)); lia].
    destruct (H r fs start Er Hs) as (ed & out & Ed & Eo & Io).
    assert (G : exists p, nl_rep_fit sv K m md ext start r = (nx_start out, Ok p)).
    { unfold nl_rep_fit. rewrite Ed. cbn [bind]. unfold smpls_rep. rewrite Es, Er. cbn [bind]. match goal with |- context [nk_est K md start r fs ?a ?b] => assert (Z : nk_est K md start r fs a b = Ok out) by exact Eo; rewrite Z end.
      destruct (nk_bounds K) as (lo & hi) eqn:Eb. destruct (nl_estimate sv 11 (nk_n K) None (nx_score out) (nx_deriv out) (nx_start out) lo hi (Nat.le_refl 11)) as (th & wn & -> & _); [apply HI in Io; exact Io|exact Hb|exact Hf|].
      cbn [var_est bind]. eexists. reflexivity. }
    destruct G as (p & ->). destruct (IH (nx_start out) Io ltac:(intros; apply Hr; now right)) as (s' & reps & ->). do 2 eexists. reflexivity. }
  destruct (R (seq 0 (length sm)) (ob_start b) I0) as (s' & reps & ->). { intros r Hr. apply in_seq in Hr. lia. }
  destruct (nl_dict_ok K reps) as (F & ->). eexists. reflexivity.
Qed.
Lemma set_external_given ext dcol learners r l (e : vec) : supplied ext dcol l r e -> In l learners -> exists ed, set_external ext learners dcol r = Ok ed /\
  (forall l' e', In l' learners -> supplied ext dcol l' r e' -> exists e2, ed l' = Some e2).
Proof.
  intros (el & il & a & -> & D & G & V) Hl. destruct learners as [|l1 ls]; [destruct Hl|]. cbn [set_external]. rewrite D. eexists. split; [reflexivity|].
  intros l' e' Hl' (el' & il' & a' & X & D' & G' & V'). injection X as <-. rewrite D in D'. injection D' as <-. rewrite (L_ModelProps.smem_in _ _ Hl'), G'. eexists. reflexivity.
Qed.

Lemma pq_fit_succeeds : forall (E P : Type) (L : learner E row P) fv gv rd fr s dflt o ml_g ml_m treatment quantile nf nr score nm kde rule thr draw K b0 b sv nj st md sm dcol a,
  S_Data.reachable fr s -> unclustered s -> sound_randomness rd -> (0 < M_Data.frows fr)%nat ->
  pq_init L rd fr s dflt o ml_g ml_m treatment quantile nf nr score nm kde rule thr draw = Ok (K, b0) -> arm_number treatment a -> binary_treatment fr s dcol ->
  row_wise L fv gv -> classifier_ok L gv -> clone_ok L -> trains L ->
  (forall r k, solver_ok (o r k)) -> brentq_ok sv -> fmin_ok sv -> nl_later sv K b0 b -> m_smpls (w_obj (ob_world b)) = Some sm -> no_jobs_or_int nj ->
  (forall r fs, nth_error sm r = Some fs -> pq_usable (o r (length fs)) a (col fr dcol) fs /\ params_fit (params_at (ob_world b) "ml_g" dcol r) (length fs) /\ params_fit (params_at (ob_world b) "ml_m" dcol r) (length fs)) ->
  exists b', nl_fit sv K nj (PBool st) ExtNone (PBool md) b = (b', Ok tt).
Proof.
  intros until a. intros Re Un Rd Hn H Ha Bt Rw Co Cl Tr So Hbo Hfm La Es Hj U.
  destruct (pq_made _ _ _ _ _ _ _ _ _ _ _ _ _ _ _ _ _ _ _ _ _ _ Re Rd Un H) as (dc & mc & tr & q & nm0 & th & st0 & h & Bt' & Kd & EK & Sr & Lg & Lm & Q0 & A0 & En & Et & Hth & Har & Es0).
  assert (dc = dcol) as ->. { destruct Bt as (B1 & _), Bt' as (B2 & _). congruence. }
  assert (level tr = a) as <-. { destruct A0 as [(A1 & A2)|(A1 & A2)], Ha as [(A3 & A4)|(A3 & A4)]; rewrite ?A2, ?A4; try reflexivity; exfalso; destruct A1, A3; congruence. }
  subst K. set (K := pq_class _ _ _ _ _ _ _ _ _ _ _ _ _ _) in *. set (n := M_Data.frows fr) in *. set (y := outcome fr s) in *.
  set (I := fun s : R => fst (pq_bounds n y) <= s <= snd (pq_bounds n y)).
  assert (Kp : forall m models ext start r, I start -> (forall sm, m_smpls m = Some sm -> forall fs, In fs sm -> fs <> []) -> I (fst (nl_rep_fit sv K m models ext start r))) by (intros; apply pq_keeps; assumption).
  assert (I0 : I (ob_start b0)) by (pose proof (proj2 Q0); rewrite Es0; apply pq_start_range; assumption).
  destruct (nl_reached sv K I Kp Hn b0 b Sr I0 La) as (Sb & Ib).
  apply (nl_succeeds K sv b sm nj st md ExtNone I Hbo Hfm); [reflexivity|exact Ib|exact Es|symmetry; exact (wf_smpls _ _ (reachable_wf _ _ (reached_reachable _ _ Sb)) sm Es)|exact Hj|reflexivity|].
  intros r fs start Hr Hs. exists (fun _ => None). destruct (U r fs Hr) as (U1 & U2 & U3). cbn [K nk_est pq_class nk_dcol].
  destruct (splits_nonempty K Hn (ob_world b) Sb sm Es fs (nth_error_In _ _ Hr)) as (_ & Ne).
  unfold pq_est. destruct (ests_ok L Tr (mc_learner mc "ml_g") _ _ U2) as (gs & Gs). destruct (ests_ok L Tr (mc_learner mc "ml_m") _ _ U3) as (ms & Ms). unfold params_at in Gs, Ms. rewrite Gs, Ms. cbn [bind].
  match goal with |- context [pq_nuisance L L ?oo [] ?c start ?x ?y ?d fs] => destruct (pq_succeeds L fv gv Rw Co Cl Tr oo c start x y d fs eq_refl eq_refl (Nat.le_refl 11) Hs U1) as (p & Ep); pose proof (pq_start_between L L oo [] c x y d start fs p (So _ _) Ne Hs Ep) as Sp; rewrite Ep end.
  cbn [bind]. rewrite orb_true_r. cbn [require]. eexists. split; [reflexivity|]. split; [reflexivity|exact Sp].
Qed.

Lemma lpq_fit_succeeds : forall (E P : Type) (L : learner E row P) fv gv rd fr s dflt o ml_g ml_m treatment quantile nf nr score nm kde rule thr draw K b0 b sv nj st md sm dcol zcol,
  S_Data.reachable fr s -> unclustered s -> sound_randomness rd -> (0 < M_Data.frows fr)%nat ->
  lpq_init L rd fr s dflt o ml_g ml_m treatment quantile nf nr score nm kde rule thr draw = Ok (K, b0) -> binary_treatment fr s dcol -> binary_instrument fr s zcol ->
  row_wise L fv gv -> classifier_ok L gv -> clone_ok L -> trains L ->
  (forall r k, solver_ok (o r k)) -> brentq_ok sv -> fmin_ok sv -> nl_later sv K b0 b -> m_smpls (w_obj (ob_world b)) = Some sm -> no_jobs_or_int nj ->
  (forall r fs, nth_error sm r = Some fs -> lpq_usable (o r (length fs)) (col fr dcol) (col fr zcol) fs /\ forall l, In l lpq_names -> params_fit (params_at (ob_world b) l dcol r) (length fs)) ->
  exists b', nl_fit sv K nj (PBool st) ExtNone (PBool md) b = (b', Ok tt).
Proof.
  intros until zcol. intros Re Un Rd Hn H Bt Bz Rw Co Cl Tr So Hbo Hfm La Es Hj U.
  destruct (lpq_made _ _ _ _ _ _ _ _ _ _ _ _ _ _ _ _ _ _ _ _ _ _ Re Rd Un H) as (dc & zc & mc & tr & q & nm0 & th & st0 & h & Bt' & Bz' & Kd & EK & Sr & Lm & Q0 & A0 & En & Et & Har & Es0).
  assert (dc = dcol) as ->. { destruct Bt as (B1 & _), Bt' as (B2 & _). congruence. }
  assert (zc = zcol) as ->. { destruct Bz as (B1 & _), Bz' as (B2 & _). congruence. }
  subst K. set (K := lpq_class _ _ _ _ _ _ _ _ _ _ _ _ _ _ _) in *. set (n := M_Data.frows fr) in *. set (y := outcome fr s) in *.
  set (I := fun s : R => fst (pq_bounds n y) <= s <= snd (pq_bounds n y)).
  assert (Kp : forall m models ext start r, I start -> (forall sm, m_smpls m = Some sm -> forall fs, In fs sm -> fs <> []) -> I (fst (nl_rep_fit sv K m models ext start r))) by (intros; apply lpq_keeps; assumption).
  assert (I0 : I (ob_start b0)) by (pose proof (proj2 Q0); rewrite Es0; apply pq_start_range; assumption).
  destruct (nl_reached sv K I Kp Hn b0 b Sr I0 La) as (Sb & Ib).
  apply (nl_succeeds K sv b sm nj st md ExtNone I Hbo Hfm); [reflexivity|exact Ib|exact Es|symmetry; exact (wf_smpls _ _ (reachable_wf _ _ (reached_reachable _ _ Sb)) sm Es)|exact Hj|reflexivity|].
  intros r fs start Hr Hs. exists (fun _ => None). destruct (U r fs Hr) as (U1 & U2). cbn [K nk_est lpq_class nk_dcol].
  destruct (splits_nonempty K Hn (ob_world b) Sb sm Es fs (nth_error_In _ _ Hr)) as (_ & Ne).
  unfold lpq_est. cbn [lpq_names forallb andb].
  assert (Ea : exists ests, all_ests L mc (fun l => params_at (ob_world b) l dcol r) (length fs) = Ok ests).
  { unfold all_ests. match goal with |- context [map_res ?t ?l] => destruct (proj2 (map_res_ok_all t l)) as (rs & ->) end; [|eexists; reflexivity].
    intros l Hl. destruct (ests_ok L Tr (mc_learner mc l) _ _ (U2 l Hl)) as (es & ->). eexists. reflexivity. }
  destruct Ea as (ests & Ea). unfold params_at in Ea. cbn [lpq_names] in Ea. rewrite Ea. cbn [bind].
  match goal with |- context [lpq_nuisance L L ?oo [] ?c start ?x ?y ?d ?z fs] => destruct (lpq_succeeds L fv gv Rw Co Cl Tr oo c start x y d z fs (fun _ _ => eq_refl) (Nat.le_refl 11) Hs U1) as (p & Ep); pose proof (lpq_start_between L L oo [] c start x y d z fs p (So _ _) Ne Hs Ep) as Sp; rewrite Ep end.
  cbn [bind]. rewrite orb_true_r. cbn [require]. eexists. split; [reflexivity|]. split; [reflexivity|exact Sp].
Qed.

Lemma cvar_fit_succeeds : forall (E P : Type) (L : learner E row P) fv gv rd fr s o ml_g ml_m treatment quantile nf nr score nm rule thr draw C w0 w nj st md sm dcol a,
  S_Data.reachable fr s -> unclustered s -> sound_randomness rd -> (0 < M_Data.frows fr)%nat ->
  cvar_init L rd fr s o ml_g ml_m treatment quantile nf nr score nm rule thr draw = Ok (C, w0) -> arm_number treatment a -> binary_treatment fr s dcol ->
  row_wise L fv gv -> classifier_ok L gv -> clone_ok L -> trains L -> later C w0 w -> m_smpls (w_obj w) = Some sm -> no_jobs_or_int nj ->
  (forall r fs, nth_error sm r = Some fs -> pq_usable (o r (length fs)) a (col fr dcol) fs /\ params_fit (params_at w "ml_g" dcol r) (length fs) /\ params_fit (params_at w "ml_m" dcol r) (length fs)) ->
  exists w', fit C nj (PBool st) ExtNone (PBool md) w = (w', Ok tt).
Proof.
  intros until a. intros Re Un Rd Hn H Ha Bt Rw Co Cl Tr La Es Hj U.
  destruct (cvar_made _ _ _ _ _ _ _ _ _ _ _ _ _ _ _ _ _ _ _ _ Re Rd H) as (dc & mc & tr & q & nm0 & th & st0 & Bt' & Ec & Sr & Lg & Lm & Q0 & A0 & En & Et & Har).
  assert (dc = dcol) as ->. { destruct Bt as (B1 & _), Bt' as (B2 & _). congruence. }
  assert (level tr = a) as <-. { destruct A0 as [(A1 & A2)|(A1 & A2)], Ha as [(A3 & A4)|(A3 & A4)]; rewrite ?A2, ?A4; try reflexivity; exfalso; destruct A1, A3; congruence. }
  subst C. rewrite (plain_ctx fr s Re _ Un) in *. pose proof (reached_later _ _ _ Sr La) as Sw. set (C := cvar_ctx _ _ _ _ _ _ _ _ _ _ _ _ _ _) in *.
  apply fit_if_nuis; [cbn; lia|apply reachable_wf, reached_reachable, Sw|reflexivity|exact Logic.I|exact Hj|eauto|].
  intros sm' r t fs Es' Er Ht. assert (sm' = sm) as -> by congruence. cbn [C cvar_ctx c_dcols c_nuis length] in *. assert (t = 0%nat) as -> by lia. cbn [nth].
  destruct (U r fs Er) as (U1 & U2 & U3). unfold cvar_nuis. destruct (ests_ok L Tr (mc_learner mc "ml_g") _ _ U2) as (gs & Gs). destruct (ests_ok L Tr (mc_learner mc "ml_m") _ _ U3) as (ms & Ms). unfold params_at in Gs, Ms. rewrite Gs, Ms. cbn [bind].
  match goal with |- context [pq_nuisance L L ?oo [] ?c ?start ?x ?y ?d fs] => destruct (pq_succeeds L fv gv Rw Co Cl Tr oo c start x y d fs eq_refl eq_refl (Nat.le_refl 11)) as (p & ->); [pose proof (proj2 Q0); apply cvar_start_range; assumption|exact U1|] end.
  cbn [bind]. eexists. reflexivity.
Qed.

(** With a complete set of external predictions no learner is needed. *)
Lemma pq_given_succeeds : forall (E P : Type) (L : learner E row P) rd fr s dflt o ml_g ml_m treatment quantile nf nr score nm kde rule thr draw K b0 b sv nj st ext sm dcol,
  S_Data.reachable fr s -> unclustered s -> sound_randomness rd -> (0 < M_Data.frows fr)%nat ->
  pq_init L rd fr s dflt o ml_g ml_m treatment quantile nf nr score nm kde rule thr draw = Ok (K, b0) -> binary_treatment fr s dcol ->
  (forall r k, solver_ok (o r k)) -> brentq_ok sv -> fmin_ok sv -> nl_later sv K b0 b -> m_smpls (w_obj (ob_world b)) = Some sm ->
  no_jobs_or_int nj ->
  well_formed_predictions ext [dcol] ["ml_g"; "ml_m"] (M_Data.frows fr) (length sm) -> complete_predictions ext [dcol] ["ml_g"; "ml_m"] ->
  exists b', nl_fit sv K nj (PBool st) ext (PBool false) b = (b', Ok tt).
Proof.
  intros until dcol. intros Re Un Rd Hn H Bt So Hbo Hfm La Es Hj Wf Cp.
  destruct (pq_made _ _ _ _ _ _ _ _ _ _ _ _ _ _ _ _ _ _ _ _ _ _ Re Rd Un H) as (dc & mc & tr & q & nm0 & th & st0 & h & Bt' & Kd & EK & Sr & Lg & Lm & Q0 & A0 & En & Et & Hth & Har & Es0).
  assert (dc = dcol) as ->. { destruct Bt as (B1 & _), Bt' as (B2 & _). congruence. }
  subst K. set (K := pq_class _ _ _ _ _ _ _ _ _ _ _ _ _ _) in *. set (n := M_Data.frows fr) in *. set (y := outcome fr s) in *.
  set (I := fun s : R => fst (pq_bounds n y) <= s <= snd (pq_bounds n y)).
  assert (Kp : forall m models ext start r, I start -> (forall sm, m_smpls m = Some sm -> forall fs, In fs sm -> fs <> []) -> I (fst (nl_rep_fit sv K m models ext start r))) by (intros; apply pq_keeps; assumption).
  assert (I0 : I (ob_start b0)) by (pose proof (proj2 Q0); rewrite Es0; apply pq_start_range; assumption).
  destruct (nl_reached sv K I Kp Hn b0 b Sr I0 La) as (Sb & Ib).
  apply (nl_succeeds K sv b sm nj st false ext I Hbo Hfm); [reflexivity|exact Ib|exact Es|symmetry; exact (wf_smpls _ _ (reachable_wf _ _ (reached_reachable _ _ Sb)) sm Es)|exact Hj|apply wf_pred_ok, Wf|].
  intros r fs start Hr Hs. destruct (Cp dcol "ml_g" r (or_introl eq_refl) (or_introl eq_refl)) as (eg & Sg). destruct (Cp dcol "ml_m" r (or_introl eq_refl) (or_intror (or_introl eq_refl))) as (em & Sm).
  destruct (set_external_given ext dcol ["ml_g"; "ml_m"] r "ml_g" eg Sg (or_introl eq_refl)) as (ed & Ed & Al). destruct (Al _ _ (or_introl eq_refl) Sg) as (g & Eg). destruct (Al _ _ (or_intror (or_introl eq_refl)) Sm) as (mm & Em).
  exists ed. cbn [K nk_est pq_class nk_dcol nk_learners]. unfold pq_est. rewrite Eg, Em. cbn [bind]. unfold pq_nuisance. cbn [pq_object_cfg qc_ext_g qc_ext_m]. rewrite Eg, Em. cbn [bind negb orb require].
  eexists. split; [exact Ed|]. split; [reflexivity|exact Hs].
Qed.
Lemma pq_store_fails : forall (E P : Type) (L : learner E row P) rd fr s dflt o ml_g ml_m treatment quantile nf nr score nm kde rule thr draw K b0 b sv nj st ext sm dcol l r e,
  S_Data.reachable fr s -> unclustered s -> sound_randomness rd -> (0 < M_Data.frows fr)%nat ->
  pq_init L rd fr s dflt o ml_g ml_m treatment quantile nf nr score nm kde rule thr draw = Ok (K, b0) -> binary_treatment fr s dcol ->
  (forall r k, solver_ok (o r k)) -> brentq_ok sv -> fmin_ok sv -> nl_later sv K b0 b -> m_smpls (w_obj (ob_world b)) = Some sm ->
  In l ["ml_g"; "ml_m"] -> (r < length sm)%nat -> supplied ext dcol l r e -> snd (nl_fit sv K nj st ext (PBool true) b) <> Ok tt.
Proof.
  intros until e. intros Re Un Rd Hn H Bt So Hbo Hfm La Es Hl Hr0 Sp.
  destruct (pq_made _ _ _ _ _ _ _ _ _ _ _ _ _ _ _ _ _ _ _ _ _ _ Re Rd Un H) as (dc & mc & tr & q & nm0 & th & st0 & h & Bt' & Kd & EK & Sr & Lg & Lm & Q0 & A0 & En & Et & Hth & Har & Es0).
  assert (dc = dcol) as ->. { destruct Bt as (B1 & _), Bt' as (B2 & _). congruence. }
  subst K. set (K := pq_class _ _ _ _ _ _ _ _ _ _ _ _ _ _) in *. set (n := M_Data.frows fr) in *. set (y := outcome fr s) in *.
  set (I := fun s : R => fst (pq_bounds n y) <= s <= snd (pq_bounds n y)).
  assert (Kp : forall m models ext start r, I start -> (forall sm, m_smpls m = Some sm -> forall fs, In fs sm -> fs <> []) -> I (fst (nl_rep_fit sv K m models ext start r))) by (intros; apply pq_keeps; assumption).
  assert (I0 : I (ob_start b0)) by (pose proof (proj2 Q0); rewrite Es0; apply pq_start_range; assumption).
  destruct (nl_reached sv K I Kp Hn b0 b Sr I0 La) as (Sb & Ib).
  intro Z. destruct (nl_fit sv K nj st ext (PBool true) b) as (b' & res) eqn:Hf. cbn [snd] in Z. subst res.
  destruct (nl_fit_inv sv K I Kp Hn nj st ext (PBool true) b b' Sb Ib Hf) as (_ & _ & sm' & reps & F & Em & _ & _ & _ & Each). assert (sm' = sm) as -> by congruence.
  destruct (nth_error sm r) as [fs|] eqn:Hr; [|apply nth_error_None in Hr; lia]. destruct (Each r fs Hr) as (_ & _ & s0 & s1 & p & _ & Rf & _).
  unfold nl_rep_fit in Rf. match type of Rf with (match ?t with Ok _ => _ | Err _ => _ end) = _ => destruct t as [out|ee] eqn:Eo end; [|discriminate].
  apply bind_ok in Eo as (ed & Ed & Eo). apply bind_ok in Eo as (fs' & Fs & Eo). cbn [K nk_est pq_class] in Eo. apply pq_est_inv in Eo as (gs & ms & po & _ & _ & _ & No & _).
  destruct (No eq_refl) as (N1 & N2). destruct (set_external_given ext dcol ["ml_g"; "ml_m"] r l e Sp Hl) as (ed' & Ed' & Al). cbn [K nk_learners pq_class nk_dcol] in Ed. rewrite Ed' in Ed. injection Ed as ->.
  destruct (Al l e Hl Sp) as (e2 & E2). destruct Hl as [<-|[<-|[]]]; congruence.
Qed.

Lemma lpq_given_succeeds : forall (E P : Type) (L : learner E row P) rd fr s dflt o ml_g ml_m treatment quantile nf nr score nm kde rule thr draw K b0 b sv nj st ext sm dcol,
  S_Data.reachable fr s -> unclustered s -> sound_randomness rd -> (0 < M_Data.frows fr)%nat ->
  lpq_init L rd fr s dflt o ml_g ml_m treatment quantile nf nr score nm kde rule thr draw = Ok (K, b0) -> binary_treatment fr s dcol ->
  (forall r k, solver_ok (o r k)) -> brentq_ok sv -> fmin_ok sv -> nl_later sv K b0 b -> m_smpls (w_obj (ob_world b)) = Some sm ->
  no_jobs_or_int nj ->
  well_formed_predictions ext [dcol] lpq_names (M_Data.frows fr) (length sm) -> complete_predictions ext [dcol] lpq_names ->
  exists b', nl_fit sv K nj (PBool st) ext (PBool false) b = (b', Ok tt).
Proof.
  intros until dcol. intros Re Un Rd Hn H Bt So Hbo Hfm La Es Hj Wf Cp.
  destruct (lpq_made _ _ _ _ _ _ _ _ _ _ _ _ _ _ _ _ _ _ _ _ _ _ Re Rd Un H) as (dc & zc & mc & tr & q & nm0 & th & st0 & h & Bt' & Bz' & Kd & EK & Sr & Lm & Q0 & A0 & En & Et & Har & Es0).
  assert (dc = dcol) as ->. { destruct Bt as (B1 & _), Bt' as (B2 & _). congruence. }
  subst K. set (K := lpq_class _ _ _ _ _ _ _ _ _ _ _ _ _ _ _) in *. set (n := M_Data.frows fr) in *. set (y := outcome fr s) in *.
  set (I := fun s : R => fst (pq_bounds n y) <= s <= snd (pq_bounds n y)).
  assert (Kp : forall m models ext start r, I start -> (forall sm, m_smpls m = Some sm -> forall fs, In fs sm -> fs <> []) -> I (fst (nl_rep_fit sv K m models ext start r))) by (intros; apply lpq_keeps; assumption).
  assert (I0 : I (ob_start b0)) by (pose proof (proj2 Q0); rewrite Es0; apply pq_start_range; assumption).
  destruct (nl_reached sv K I Kp Hn b0 b Sr I0 La) as (Sb & Ib).
  apply (nl_succeeds K sv b sm nj st false ext I Hbo Hfm); [reflexivity|exact Ib|exact Es|symmetry; exact (wf_smpls _ _ (reachable_wf _ _ (reached_reachable _ _ Sb)) sm Es)|exact Hj|apply wf_pred_ok, Wf|].
  intros r fs start Hr Hs. destruct (Cp dcol "ml_m_z" r (or_introl eq_refl) ltac:(cbn; tauto)) as (eg & Sg).
  destruct (set_external_given ext dcol lpq_names r "ml_m_z" eg Sg ltac:(cbn; tauto)) as (ed & Ed & Al).
  assert (A : forallb (fun l => match ed l with Some _ => true | None => false end) lpq_names = true).
  { apply forallb_forall. intros l Hl. destruct (Cp dcol l r (or_introl eq_refl) Hl) as (e & Se). destruct (Al l e Hl Se) as (e2 & ->). reflexivity. }
  exists ed. cbn [K nk_est lpq_class nk_dcol nk_learners]. unfold lpq_est, lpq_nuisance. cbn [lpq_object_cfg lc_ext]. repeat match goal with |- context [forallb ?t lpq_names] => let A' := fresh in assert (A' : forallb t lpq_names = true) by exact A; rewrite A'; clear A' end. cbn [bind negb orb require].
  eexists. split; [exact Ed|]. split; [reflexivity|exact Hs].
Qed.
Lemma lpq_store_fails : forall (E P : Type) (L : learner E row P) rd fr s dflt o ml_g ml_m treatment quantile nf nr score nm kde rule thr draw K b0 b sv nj st ext sm dcol r,
  S_Data.reachable fr s -> unclustered s -> sound_randomness rd -> (0 < M_Data.frows fr)%nat ->
  lpq_init L rd fr s dflt o ml_g ml_m treatment quantile nf nr score nm kde rule thr draw = Ok (K, b0) -> binary_treatment fr s dcol ->
  (forall r k, solver_ok (o r k)) -> brentq_ok sv -> fmin_ok sv -> nl_later sv K b0 b -> m_smpls (w_obj (ob_world b)) = Some sm ->
  (r < length sm)%nat -> (forall l, In l lpq_names -> exists e, supplied ext dcol l r e) -> snd (nl_fit sv K nj st ext (PBool true) b) <> Ok tt.
Proof.
  intros until r. intros Re Un Rd Hn H Bt So Hbo Hfm La Es Hr0 Sp.
  destruct (lpq_made _ _ _ _ _ _ _ _ _ _ _ _ _ _ _ _ _ _ _ _ _ _ Re Rd Un H) as (dc & zc & mc & tr & q & nm0 & th & st0 & h & Bt' & Bz' & Kd & EK & Sr & Lm & Q0 & A0 & En & Et & Har & Es0).
  assert (dc = dcol) as ->. { destruct Bt as (B1 & _), Bt' as (B2 & _). congruence. }
  subst K. set (K := lpq_class _ _ _ _ _ _ _ _ _ _ _ _ _ _ _) in *. set (n := M_Data.frows fr) in *. set (y := outcome fr s) in *.
  set (I := fun s : R => fst (pq_bounds n y) <= s <= snd (pq_bounds n y)).
  assert (Kp : forall m models ext start r, I start -> (forall sm, m_smpls m = Some sm -> forall fs, In fs sm -> fs <> []) -> I (fst (nl_rep_fit sv K m models ext start r))) by (intros; apply lpq_keeps; assumption).
  assert (I0 : I (ob_start b0)) by (pose proof (proj2 Q0); rewrite Es0; apply pq_start_range; assumption).
  destruct (nl_reached sv K I Kp Hn b0 b Sr I0 La) as (Sb & Ib).
  intro Z. destruct (nl_fit sv K nj st ext (PBool true) b) as (b' & res) eqn:Hf. cbn [snd] in Z. subst res.
  destruct (nl_fit_inv sv K I Kp Hn nj st ext (PBool true) b b' Sb Ib Hf) as (_ & _ & sm' & reps & F & Em & _ & _ & _ & Each). assert (sm' = sm) as -> by congruence.
  destruct (nth_error sm r) as [fs|] eqn:Hr; [|apply nth_error_None in Hr; lia]. destruct (Each r fs Hr) as (_ & _ & s0 & s1 & p & _ & Rf & _).
  unfold nl_rep_fit in Rf. match type of Rf with (match ?t with Ok _ => _ | Err _ => _ end) = _ => destruct t as [out|ee] eqn:Eo end; [|discriminate].
  apply bind_ok in Eo as (ed & Ed & Eo). apply bind_ok in Eo as (fs' & Fs & Eo). cbn [K nk_est lpq_class] in Eo.
  destruct (Sp "ml_m_z" ltac:(cbn; tauto)) as (eg & Sg). destruct (set_external_given ext dcol lpq_names r "ml_m_z" eg Sg ltac:(cbn; tauto)) as (ed' & Ed' & Al).
  cbn [K nk_learners lpq_class nk_dcol] in Ed. rewrite Ed' in Ed. injection Ed as ->.
  assert (A : forallb (fun l => match ed l with Some _ => true | None => false end) lpq_names = true).
  { apply forallb_forall. intros l Hl. destruct (Sp l Hl) as (e & Se). destruct (Al l e Hl Se) as (e2 & ->). reflexivity. }
  unfold lpq_est in Eo. match type of Eo with context [forallb ?t lpq_names] => assert (A' : forallb t lpq_names = true) by exact A; rewrite A' in Eo end. bi Eo u1 Eu1. cbv zeta in Eo. bi Eo u2 Eu2. cbn in Eo. discriminate.
Qed.

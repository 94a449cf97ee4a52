(** Models whose score is a function of the user: constructor calls, the object
    they return and its fits. *)
From Verif Require Import L_Data L_DataOps L_DataProps.
From Verif Require Export L_Callable L_InitErrorsAll.
From Coq Require Import Lia Lra.
Local Open Scope R_scope.
Local Open Scope res_scope.
Local Open Scope string_scope.

(** ** Accepted calls *)
Section Accept.
Context {E P : Type}.
Variable L : learner E row P.
Variable rd : randomness.
Variable f : M_Data.frame.
Variable s : M_Data.ddata.
Hypothesis Con : S_Data.constructed f s.
Let n := M_Data.frows f.
Let roles := M_Data.dd_roles s.
Let Cn := L_InitAcceptAll.Ar f s Con.
Ltac sb H := eapply succ_bind; [exact H|].
Ltac sr H := apply succ_require; [exact H|].

Lemma plr_call_accepts user ml_l ml_m ml_g nf nr draw :
  succeeds (plr_call_init L rd f s user ml_l ml_m ml_g nf nr draw) <->
  no_instruments s /\ data_split f s nf nr draw None /\ predicts_values ml_l /\ predicts_either ml_m /\ (forall l, ml_g = Some l -> predicts_values l) /\
  (ly_classifier ml_m = true -> forall c, In c (M_Data.r_d roles) -> S_Data.zero_one_column f c).
Proof.
  destruct (binary_constructed f s Con) as (_ & B2 & B3). fold roles in B2.
  assert (Bt : forallb snd (M_Data.dd_bt s) = true <-> forall c, In c (M_Data.r_d roles) -> S_Data.zero_one_column f c).
  { rewrite forallb_forall, <- B2. split.
    - intros H c Hc. apply in_map_iff in Hc as ((c' & b) & <- & Hc). apply (B3 c' b Hc). exact (H _ Hc).
    - intros H (c & b) Hc. apply (B3 c b Hc), H. apply in_map_iff. exists (c, b). auto. }
  split.
  - intros (o & H). unfold plr_call_init in H. bi H w B. ri H Zn. apply no_z_iff in Zn. bi H cla Ll. bi H mc Lm. bi H g G. bi H u Bn.
    apply learner_value in Ll as (Ll & _). apply learner_either in Lm as (Lm & ->).
    split; [exact Zn|]. split; [apply (@base_all P rd f s Cn); exists w; exact B|]. split; [exact Ll|]. split; [exact Lm|].
    split. { intros l ->. bi G cld Lg. apply learner_value in Lg as (Lg & _). exact Lg. }
    intro Q. rewrite Q in Bn. cbn [negb orb] in Bn. ri Bn Q'. apply Bt, Q'.
  - intros (Zn & Sp & Ll & Lm & Lg & Bn). apply (@base_all P rd f s Cn) in Sp as (w & B).
    unfold plr_call_init. sb B. sr (proj2 (no_z_iff s) Zn). sb (proj2 (learner_value ml_l false) (conj Ll eq_refl)). sb (proj2 (learner_either ml_m _) (conj Lm eq_refl)).
    assert (G : succeeds (match ml_g with Some l => let! _ := check_learner l true false in Ok [("ml_g", entry_of l false)] | None => Ok [] end)).
    { destruct ml_g as [l|]; [|eexists; reflexivity]. sb (proj2 (learner_value l false) (conj (Lg l eq_refl) eq_refl)). eexists; reflexivity. }
    destruct G as (g & G). sb G. assert (Q : negb (ly_classifier ml_m) || forallb snd (M_Data.dd_bt s) = true). { destruct (ly_classifier ml_m); [cbn; apply Bt, Bn; reflexivity|reflexivity]. }
    rewrite Q. eexists; reflexivity.
Qed.
Lemma pliv_call_accepts user proj ml_l ml_m ml_r ml_g nf nr draw :
  succeeds (pliv_call_init L rd f s user proj ml_l ml_m ml_r ml_g nf nr draw) <->
  data_split f s nf nr draw None /\ predicts_values ml_l /\ predicts_values ml_m /\ predicts_values ml_r /\ (forall l, ml_g = Some l -> predicts_values l) /\
  exists z more, M_Data.r_z roles = Some (z :: more).
Proof.
  destruct (arrays f s Con) as (_ & Az & _). split.
  - intros (o & H). unfold pliv_call_init in H. bi H w B. rewrite Az in H. fold roles in H. destruct (M_Data.r_z roles) as [[|z more]|] eqn:Ez; try discriminate.
    bi H cla Ll. bi H clb Lm. bi H clc Lr. bi H g G. apply learner_value in Ll as (Ll & _). apply learner_value in Lm as (Lm & _). apply learner_value in Lr as (Lr & _).
    split; [apply (@base_all P rd f s Cn); exists w; exact B|]. split; [exact Ll|]. split; [exact Lm|]. split; [exact Lr|]. split; [|eauto].
    intros l ->. bi G cld Lg. apply learner_value in Lg as (Lg & _). exact Lg.
  - intros (Sp & Ll & Lm & Lr & Lg & z & more & Ez). apply (@base_all P rd f s Cn) in Sp as (w & B).
    unfold pliv_call_init. sb B. rewrite Az. fold roles. rewrite Ez. sb (proj2 (learner_value ml_l false) (conj Ll eq_refl)). sb (proj2 (learner_value ml_m false) (conj Lm eq_refl)). sb (proj2 (learner_value ml_r false) (conj Lr eq_refl)).
    assert (G : succeeds (match ml_g with Some l => let! _ := check_learner l true false in Ok [("ml_g", entry_of l false)] | None => Ok [] end)).
    { destruct ml_g as [l|]; [|eexists; reflexivity]. sb (proj2 (learner_value l false) (conj (Lg l eq_refl) eq_refl)). eexists; reflexivity. }
    destruct G as (g & G). sb G. eexists; reflexivity.
Qed.
Lemma pliv_call_z_accepts user proj dummy ml_r nf nr draw : predicts_values dummy ->
  (succeeds (pliv_call_partial_z L rd f s user proj dummy ml_r nf nr draw) <->
   data_split f s nf nr draw None /\ predicts_values ml_r /\ exists z more, M_Data.r_z roles = Some (z :: more)).
Proof.
  intro Dm. split.
  - intros (o & H). unfold pliv_call_partial_z in H. bi H p Pi. destruct (proj1 (pliv_call_accepts user proj dummy dummy ml_r None nf nr draw) (ex_intro _ _ Pi)) as (Sp & _ & _ & Lr & _ & Ez). auto.
  - intros (Sp & Lr & z & more & Ez). destruct (proj2 (pliv_call_accepts user proj dummy dummy ml_r None nf nr draw)) as (p & Pi).
    { split; [exact Sp|]. split; [exact Dm|]. split; [exact Dm|]. split; [exact Lr|]. split; [discriminate|eauto]. }
    unfold pliv_call_partial_z. sb Pi. sb (proj2 (learner_value ml_r false) (conj Lr eq_refl)). eexists; reflexivity.
Qed.
Lemma pliv_call_xz_accepts user proj ml_l ml_m ml_r nf nr draw :
  succeeds (pliv_call_partial_xz L rd f s user proj ml_l ml_m ml_r nf nr draw) <->
  data_split f s nf nr draw None /\ predicts_values ml_l /\ predicts_values ml_m /\ predicts_values ml_r /\ exists z more, M_Data.r_z roles = Some (z :: more).
Proof.
  split.
  - intros (o & H). unfold pliv_call_partial_xz in H. bi H p Pi. destruct (proj1 (pliv_call_accepts user proj ml_l ml_m ml_r None nf nr draw) (ex_intro _ _ Pi)) as (Sp & Ll & Lm & Lr & _ & Ez). auto.
  - intros (Sp & Ll & Lm & Lr & z & more & Ez). destruct (proj2 (pliv_call_accepts user proj ml_l ml_m ml_r None nf nr draw)) as (p & Pi).
    { do 4 (split; [assumption|]). split; [discriminate|eauto]. }
    unfold pliv_call_partial_xz. sb Pi. eexists; reflexivity.
Qed.
Lemma irm_call_accepts user ml_g ml_m nf nr wa norm rule thr draw :
  succeeds (irm_call_init L rd f s user ml_g ml_m nf nr wa norm rule thr draw) <->
  no_instruments s /\ (exists c, binary_treatment f s c /\ data_split f s nf nr draw (Some (col f c))) /\ weights_ok wa ScCallable n (Z.to_nat (int_val nr)) /\
  outcome_learner f s ml_g /\ predicts_probabilities ml_m /\ boolean norm /\ trimming_ok rule thr.
Proof.
  split.
  - intros (o & H). unfold irm_call_init in H. bi H w B. ri H Zn. ri H D. bi H w' Rw. bi H g G. bi H m M. bi H u Og. bi H nm Nm. bi H th T. bi H u' W. destruct u, u'.
    apply no_z_iff in Zn. apply (one_binary f s Con) in D. destruct (started_all rd f s Cn _ _ _ _ _ _ B Rw) as (Sp & Nr).
    rewrite Nr in W. apply accepted_iff in W. apply (outcome_iff f s Con ml_g g G) in Og. apply learner_proba in M as (M & _). apply bool_iff in Nm. apply trimming_iff in T as (T1 & T2 & T3).
    split; [exact Zn|]. split; [exists (M_Data.c_d s); split; [exact D|exact Sp]|].
    split; [exact W|]. split; [exact Og|]. split; [exact M|]. split; [eexists; exact Nm|]. split; [exact T1|eauto].
  - intros (Zn & (c & Bt & Sp) & S2 & Og & Pm & (nm & Nm) & T1 & t & T2 & T3). pose proof (binary_active f s Con c Bt) as ->.
    destruct (@drawn_all P rd f s Cn _ _ _ _ Sp) as (w & w' & B & Rw & Nr).
    assert (Gc : check_learner ml_g true true = Ok (ly_classifier ml_g)) by (apply learner_either; split; [apply Og|reflexivity]).
    unfold irm_call_init. sb B. sr (proj2 (no_z_iff s) Zn). sr (proj2 (one_binary f s Con) Bt).
    sb Rw. sb Gc. sb (proj2 (learner_proba ml_m true) (conj Pm eq_refl)). sb (proj2 (outcome_iff f s Con ml_g _ Gc) Og). sb (proj2 (bool_iff _ _) Nm).
    sb (proj2 (trimming_iff rule thr t) (conj T1 (conj T2 T3))). rewrite Nr. sb (proj2 (accepted_iff _ _ _ _) S2). eexists; reflexivity.
Qed.
Lemma iivm_call_accepts user ml_g ml_m ml_r nf nr sg norm rule thr draw :
  succeeds (iivm_call_init L rd f s user ml_g ml_m ml_r nf nr sg norm rule thr draw) <->
  (exists c z, binary_treatment f s c /\ M_Data.r_z roles = Some [z] /\ S_Data.zero_one_column f z /\ data_split f s nf nr draw (Some (fun i => col f c i + 2 * col f z i))) /\
  outcome_learner f s ml_g /\ predicts_probabilities ml_m /\ predicts_probabilities ml_r /\ boolean norm /\ trimming_ok rule thr /\ subgroups_ok sg.
Proof.
  destruct (arrays f s Con) as (_ & Az & _). split.
  - intros (o & H). unfold iivm_call_init in H. bi H w B. ri H D. apply (one_binary f s Con) in D. rewrite Az in H. fold roles in H. destruct (M_Data.r_z roles) as [[|z [|z' l]]|] eqn:Ez; try discriminate.
    ri H Zn. apply zero_one_iff in Zn. cbv zeta in H. bi H w' Rw. bi H g G. bi H m M. bi H r Mr. bi H u Og. bi H nm Nm. bi H th T. bi H p W. destruct u.
    destruct (started_all rd f s Cn _ _ _ _ _ _ B Rw) as (Sp & Nr).
    apply (outcome_iff f s Con ml_g g G) in Og. apply learner_proba in M as (M & _). apply learner_proba in Mr as (Mr & _). apply bool_iff in Nm. apply trimming_iff in T as (T1 & T2 & T3). apply subgroups_iff in W.
    split; [exists (M_Data.c_d s), z; auto|]. split; [exact Og|]. split; [exact M|]. split; [exact Mr|]. split; [eexists; exact Nm|]. split; [split; [exact T1|eauto]|exact W].
  - intros ((c & z & Bt & Ez & Zn & Sp) & Og & Pm & Pr & (nm & Nm) & (T1 & t & T2 & T3) & W). pose proof (binary_active f s Con c Bt) as ->.
    destruct (@drawn_all P rd f s Cn _ _ _ _ Sp) as (w & w' & B & Rw & Nr).
    assert (Gc : check_learner ml_g true true = Ok (ly_classifier ml_g)) by (apply learner_either; split; [apply Og|reflexivity]). destruct (subgroups_ok_check _ W) as (p & Wp).
    unfold iivm_call_init. sb B. sr (proj2 (one_binary f s Con) Bt). rewrite Az. fold roles. rewrite Ez. sr (proj2 (zero_one_iff f z) Zn).
    cbv zeta. sb Rw. sb Gc. sb (proj2 (learner_proba ml_m true) (conj Pm eq_refl)). sb (proj2 (learner_proba ml_r true) (conj Pr eq_refl)).
    sb (proj2 (outcome_iff f s Con ml_g _ Gc) Og). sb (proj2 (bool_iff _ _) Nm). sb (proj2 (trimming_iff rule thr t) (conj T1 (conj T2 T3))). sb Wp. eexists; reflexivity.
Qed.
End Accept.

(** ** The object *)
Section Made.
Context {E P : Type}.
Variable L : learner E row P.
Variable rd : randomness.
Variable fr : M_Data.frame.
Variable s : M_Data.ddata.
Hypothesis Re : S_Data.reachable fr s.
Hypothesis Rd : sound_randomness rd.
Let n := M_Data.frows fr.
Let roles := M_Data.dd_roles s.
Let dcols := M_Data.r_d roles.
(** The optional learner for ml_g: it is trained exactly when it is given. *)
Definition given_g (mc : machinery E P) (ml_g : option (pylearner E)) (hg : bool) : Prop :=
  match ml_g with Some l => hg = true /\ runs_on mc "ml_g" l false | None => hg = false end.

Lemma plr_call_made user ml_l ml_m ml_g nf nr draw C w0 : plr_call_init L rd fr s user ml_l ml_m ml_g nf nr draw = Ok (C, w0) ->
  exists mc bin hg, C = with_clusters fr s (plr_call_ctx L mc user n dcols hg bin (x_of fr s) (outcome fr s) (d_of fr s)) /\ soundly_reached C w0 /\ mc_order mc = rd_order rd /\
    runs_on mc "ml_l" ml_l false /\ runs_on mc "ml_m" ml_m (ly_classifier ml_m) /\ given_g mc ml_g hg.
Proof.
  intro H. unfold plr_call_init in H. bi H w B. ri H Zn. bi H cla Ll. bi H mcl Lm. bi H gq G. bi H u Bn. cbv zeta in H. apply ok_inj in H. injection H as <- <-.
  apply learner_either in Lm as (_ & ->). rewrite (outcome_col fr s Re).
  eexists _, _, _. split; [reflexivity|]. split; [eapply made_plain; [exact Rd|exact B|reflexivity..]|]. split; [reflexivity|]. split; [split; reflexivity|]. split; [split; reflexivity|].
  unfold given_g. destruct ml_g as [l|]; [bi G lx Lx|]; apply ok_inj in G; subst gq; [|reflexivity]. split; [reflexivity|split; reflexivity].
Qed.
Lemma pliv_call_made user proj ml_l ml_m ml_r ml_g nf nr draw C w0 : pliv_call_init L rd fr s user proj ml_l ml_m ml_r ml_g nf nr draw = Ok (C, w0) ->
  exists z more mc hg, M_Data.r_z roles = Some (z :: more) /\
    C = with_clusters fr s (match more with
          | [] => pliv_call_ctx L mc user n dcols hg (x_of fr s) (outcome fr s) (d_of fr s) (col fr z)
          | _ => refusing (pliv_several_ctx L mc n proj dcols (x_of fr s) (outcome fr s) (d_of fr s) (map (fun c => (c, col fr c)) (z :: more))) end) /\ soundly_reached C w0 /\
    mc_order mc = rd_order rd /\ runs_on mc "ml_l" ml_l false /\ runs_on mc "ml_m" ml_m false /\ runs_on mc "ml_r" ml_r false /\ given_g mc ml_g hg.
Proof.
  intro H. unfold pliv_call_init in H. bi H w B. destruct (arrays_r fr s Re) as (_ & Az & _). rewrite Az in H. fold roles in H. destruct (M_Data.r_z roles) as [[|z more]|] eqn:Ez; try discriminate.
  bi H cla Ll. bi H clb Lm. bi H clc Lr. bi H gq G. cbv zeta in H. apply ok_inj in H. injection H as <- <-. rewrite (outcome_col fr s Re).
  eexists z, more, _, _. split; [reflexivity|].
  split; [reflexivity|]. split; [destruct more; (eapply made_plain; [exact Rd|exact B|reflexivity..])|]. split; [reflexivity|]. split; [split; reflexivity|]. split; [split; reflexivity|]. split; [split; reflexivity|].
  unfold given_g. destruct ml_g as [l|]; [bi G lx Lx|]; apply ok_inj in G; subst gq; [|reflexivity]. split; [reflexivity|split; reflexivity].
Qed.
Lemma pliv_call_z_made user proj dummy ml_r nf nr draw C w0 : pliv_call_partial_z L rd fr s user proj dummy ml_r nf nr draw = Ok (C, w0) ->
  exists mc, C = with_clusters fr s (refusing (pliv_z_ctx L mc n dcols (x_of fr s) (feats fr (M_Data.optl (M_Data.r_z roles))) (outcome fr s) (d_of fr s))) /\ soundly_reached C w0.
Proof.
  intro H. unfold pliv_call_partial_z in H. bi H p Pi. bi H lr Lr. cbv zeta in H. apply ok_inj in H. injection H as <- <-. destruct (arrays_r fr s Re) as (_ & Az & _). rewrite Az, (outcome_col fr s Re). fold roles.
  unfold pliv_call_init in Pi. bi Pi w B. rewrite Az in Pi. fold roles in Pi. destruct (M_Data.r_z roles) as [[|z more]|] eqn:Ez; try discriminate. bi Pi cla Ll. bi Pi clb Lm. bi Pi clc Lr2. bi Pi gq G. cbv zeta in Pi. apply ok_inj in Pi. subst p. cbn [snd].
  eexists. split; [reflexivity|]. eapply made_plain; [exact Rd|exact B|reflexivity..].
Qed.
Lemma pliv_call_xz_made user proj ml_l ml_m ml_r nf nr draw C w0 : pliv_call_partial_xz L rd fr s user proj ml_l ml_m ml_r nf nr draw = Ok (C, w0) ->
  exists mc, C = with_clusters fr s (refusing (pliv_xz_ctx L mc n dcols (x_of fr s) (feats fr (M_Data.optl (M_Data.r_z roles))) (outcome fr s) (d_of fr s))) /\ soundly_reached C w0.
Proof.
  intro H. unfold pliv_call_partial_xz in H. bi H p Pi. cbv zeta in H. apply ok_inj in H. injection H as <- <-. destruct (arrays_r fr s Re) as (_ & Az & _). rewrite Az, (outcome_col fr s Re). fold roles.
  unfold pliv_call_init in Pi. bi Pi w B. rewrite Az in Pi. fold roles in Pi. destruct (M_Data.r_z roles) as [[|z more]|] eqn:Ez; try discriminate. bi Pi cla Ll. bi Pi clb Lm. bi Pi clc Lr2. bi Pi gq G. cbv zeta in Pi. apply ok_inj in Pi. subst p. cbn [snd].
  eexists. split; [reflexivity|]. eapply made_plain; [exact Rd|exact B|reflexivity..].
Qed.
Lemma irm_call_made user ml_g ml_m nf nr wa norm rule thr draw C w0 : irm_call_init L rd fr s user ml_g ml_m nf nr wa norm rule thr draw = Ok (C, w0) ->
  exists c mc nm th bo st, binary_treatment fr s c /\
    C = with_clusters fr s (irm_call_ctx L mc user n c nm bo true th (covariates fr s c) (outcome fr s) (col fr c) st) /\ soundly_reached C w0 /\
    mc_order mc = rd_order rd /\ runs_on mc "ml_g" ml_g (ly_classifier ml_g) /\ runs_on mc "ml_m" ml_m true /\ norm = PBool nm /\ thr = PFloat th.
Proof.
  intro H. unfold irm_call_init in H. bi H w B. ri H Zn. ri H D. bi H w' Rw. bi H gc G. bi H mm M. bi H u Og. bi H nm Nm. bi H th T. bi H u' W. cbv zeta in H. apply ok_inj in H. injection H as <- <-.
  destruct (one_binary_r fr s Re D) as (c & Ec & Bt). apply learner_either in G as (_ & ->). apply bool_iff in Nm. apply trimming_iff in T as (_ & T2 & _).
  rewrite (outcome_col fr s Re), (active_covariates fr s Re), Ec. rewrite Ec in Rw. pose proof Bt as (Q & _). rewrite Q. cbn [hd].
  eexists c, _, nm, th, _, _. split; [exact Bt|]. split; [reflexivity|].
  split; [eapply made_strat; [exact Rd|exact B|exact Rw|reflexivity|symmetry; exact Q|reflexivity..]|]. split; [reflexivity|]. split; [split; reflexivity|]. split; [split; reflexivity|].
  split; [exact Nm|exact T2].
Qed.
Lemma iivm_call_made user ml_g ml_m ml_r nf nr sg norm rule thr draw C w0 : iivm_call_init L rd fr s user ml_g ml_m ml_r nf nr sg norm rule thr draw = Ok (C, w0) ->
  exists c z mc nm th bo at1 nt1 st, binary_treatment fr s c /\ M_Data.r_z roles = Some [z] /\ S_Data.zero_one_column fr z /\
    C = with_clusters fr s (iivm_call_ctx L mc user n c nm bo at1 nt1 true th (covariates fr s c) (outcome fr s) (col fr z) (col fr c) st) /\ soundly_reached C w0 /\
    mc_order mc = rd_order rd /\ runs_on mc "ml_g" ml_g (ly_classifier ml_g) /\ runs_on mc "ml_m" ml_m true /\ runs_on mc "ml_r" ml_r true /\ norm = PBool nm /\ thr = PFloat th /\ check_subgroups sg = Ok (at1, nt1).
Proof.
  intro H. unfold iivm_call_init in H. bi H w B. ri H D. destruct (arrays_r fr s Re) as (_ & Az & _). rewrite Az in H. fold roles in H. destruct (M_Data.r_z roles) as [[|z [|z' l]]|] eqn:Ez; try discriminate. ri H Zn. cbv zeta in H. bi H w' Rw. bi H gc G. bi H mm M. bi H rr Mr. bi H u Og. bi H nm Nm. bi H th T. bi H p W. apply ok_inj in H. injection H as <- <-.
  destruct (one_binary_r fr s Re D) as (c & Ec & Bt). apply learner_either in G as (_ & ->). apply bool_iff in Nm. apply trimming_iff in T as (_ & T2 & _). apply zero_one_iff in Zn.
  rewrite (outcome_col fr s Re), (active_covariates fr s Re), Ec. rewrite Ec in Rw. pose proof Bt as (Q & _). fold roles in Q; rewrite Q. cbn [hd]. destruct p as [a1 a2].
  eexists c, z, _, nm, th, _, a1, a2, _. split; [exact Bt|]. split; [reflexivity|]. split; [exact Zn|]. split; [reflexivity|].
  split; [eapply made_strat; [exact Rd|exact B|exact Rw|reflexivity|symmetry; exact Q|reflexivity..]|]. split; [reflexivity|]. split; [split; reflexivity|]. split; [split; reflexivity|]. split; [split; reflexivity|].
  split; [exact Nm|]. split; [exact T2|exact W].
Qed.
End Made.

(** ** Complete fits *)
Lemma plr_call_end : forall (E P : Type) (L : learner E row P) f g rd fr s user ml_l ml_m ml_g nf nr draw C w0 w nj store ext smod w',
  S_Data.reachable fr s -> unclustered s -> sound_randomness rd -> (0 < M_Data.frows fr)%nat ->
  plr_call_init L rd fr s user ml_l ml_m ml_g nf nr draw = Ok (C, w0) -> later C w0 w ->
  exists mc, mc_order mc = rd_order rd /\ runs_on mc "ml_l" ml_l false /\ runs_on mc "ml_m" ml_m (ly_classifier ml_m) /\ (forall l, ml_g = Some l -> runs_on mc "ml_g" l false) /\
  let n := M_Data.frows fr in let dcols := M_Data.r_d (M_Data.dd_roles s) in let y := outcome fr s in
  (sound_learning L f g mc w ->
  labels_everywhere L g mc w n "ml_l" y everyone -> (forall c, In c dcols -> labels_everywhere L g mc w n "ml_m" (col fr c) everyone) ->
  fit C nj store ext smod w = (w', Ok tt) ->
  exists F sm, fit_done w w' F sm (length dcols) /\
    forall r t fs c, nth_error sm r = Some fs -> nth_error dcols t = Some c -> let x := covariates fr s c in let d := col fr c in exists l m gg e,
      used_prediction L f g mc w n ext r t c "ml_l" "ml_l" x y whole_train fs l /\ used_prediction L f g mc w n ext r t c "ml_m" "ml_m" x d whole_train fs m /\
      match ml_g, gg with
      | Some _, Some v => exists th, used_prediction L f g mc w n ext r t c "ml_g" "ml_g" x (fun i => y i - th * d i) whole_train fs v /\
          (sumf n (fun i => (d i - m i) ^ 2) <> 0 -> th = sumf n (fun i => (d i - m i) * (y i - l i)) / sumf n (fun i => (d i - m i) ^ 2))
      | None, None => True
      | _, _ => False
      end /\ user y d l m gg fs = Ok e /\ solves F n t r e).
Proof.
  intros until w'. intros Re Un Rd Hn H La. destruct (plr_call_made L rd fr s Re Rd _ _ _ _ _ _ _ _ _ H) as (mc & bin & hg & Ec & Sr & O & R1 & R2 & Gg). subst C. rewrite (plain_ctx fr s Re _ Un) in *. pose proof (reached_later _ _ _ Sr La) as Sw. exists mc. split; [exact O|]. split; [exact R1|]. split; [exact R2|].
  split. { intros l ->. apply Gg. }
  intros n dcols y Sl Hl Hm Hf.
  assert (Pg : hg = true -> mc_proba mc "ml_g" = false). { intro Q. unfold given_g in Gg. destruct ml_g as [l|]; [apply Gg|congruence]. }
  destruct (plr_call_fit L f g mc user n dcols hg bin (x_of fr s) y (d_of fr s) w nj store ext smod w' Hn (some_treatment fr s Re) Sw Sl Hl (labels_all L g mc w n fr s Re _ Hm) Pg Hf) as (F & sm & Fd & Q). exists F, sm. split; [exact Fd|].
  intros r t fs c Hr Ht. cbv zeta. destruct (x_of_at fr s Re t c Ht) as (<- & <-). destruct (Q r t fs c Hr Ht) as (l & m & gg & e & U1 & U2 & U3 & Us & So).
  exists l, m, gg, e. split; [exact U1|]. split; [exact U2|]. split; [|split; [exact Us|exact So]].
  unfold given_g in Gg. destruct ml_g as [lg|], gg as [v|]; try exact Logic.I.
  - apply U3.
  - destruct Gg; congruence.
  - destruct U3; congruence.
Qed.
Lemma pliv_call_end : forall (E P : Type) (L : learner E row P) f g rd fr s zc user proj ml_l ml_m ml_r ml_g nf nr draw C w0 w nj store ext smod w',
  S_Data.reachable fr s -> unclustered s -> sound_randomness rd -> (0 < M_Data.frows fr)%nat -> M_Data.r_z (M_Data.dd_roles s) = Some [zc] ->
  pliv_call_init L rd fr s user proj ml_l ml_m ml_r ml_g nf nr draw = Ok (C, w0) -> later C w0 w ->
  exists mc, mc_order mc = rd_order rd /\ runs_on mc "ml_l" ml_l false /\ runs_on mc "ml_m" ml_m false /\ runs_on mc "ml_r" ml_r false /\ (forall l, ml_g = Some l -> runs_on mc "ml_g" l false) /\
  let n := M_Data.frows fr in let dcols := M_Data.r_d (M_Data.dd_roles s) in let y := outcome fr s in let z := col fr zc in
  (sound_learning L f g mc w ->
  labels_everywhere L g mc w n "ml_l" y everyone -> labels_everywhere L g mc w n "ml_m" z everyone -> (forall c, In c dcols -> labels_everywhere L g mc w n "ml_r" (col fr c) everyone) ->
  fit C nj store ext smod w = (w', Ok tt) ->
  exists F sm, fit_done w w' F sm (length dcols) /\
    forall r t fs c, nth_error sm r = Some fs -> nth_error dcols t = Some c -> let x := covariates fr s c in let d := col fr c in exists l m q gg e,
      used_prediction L f g mc w n ext r t c "ml_l" "ml_l" x y whole_train fs l /\ used_prediction L f g mc w n ext r t c "ml_m" "ml_m" x z whole_train fs m /\
      used_prediction L f g mc w n ext r t c "ml_r" "ml_r" x d whole_train fs q /\
      match ml_g, gg with
      | Some _, Some v => exists th, used_prediction L f g mc w n ext r t c "ml_g" "ml_g" x (fun i => y i - th * d i) whole_train fs v /\
          (sumf n (fun i => (z i - m i) * (d i - q i)) <> 0 -> th = sumf n (fun i => (z i - m i) * (y i - l i)) / sumf n (fun i => (z i - m i) * (d i - q i)))
      | None, None => True
      | _, _ => False
      end /\ user y z d l m q gg fs = Ok e /\ solves F n t r e).
Proof.
  intros until w'. intros Re Un Rd Hn Hz H La. destruct (pliv_call_made L rd fr s Re Rd _ _ _ _ _ _ _ _ _ _ _ H) as (z0 & more & mc & hg & Ez & Ec & Sr & O & R1 & R2 & R3 & Gg). rewrite Hz in Ez. injection Ez as <- <-. subst C. rewrite (plain_ctx fr s Re _ Un) in *. pose proof (reached_later _ _ _ Sr La) as Sw. exists mc. split; [exact O|]. split; [exact R1|]. split; [exact R2|]. split; [exact R3|].
  split. { intros l ->. apply Gg. }
  intros n dcols y z Sl Hl Hm Hq Hf.
  assert (Pg : hg = true -> mc_proba mc "ml_g" = false). { intro Q. unfold given_g in Gg. destruct ml_g as [l|]; [apply Gg|congruence]. }
  destruct (pliv_call_fit L f g mc user n dcols hg (x_of fr s) y (d_of fr s) z w nj store ext smod w' Hn (some_treatment fr s Re) Sw Sl Hl Hm (labels_all L g mc w n fr s Re _ Hq) Pg Hf) as (F & sm & Fd & Q). exists F, sm. split; [exact Fd|].
  intros r t fs c Hr Ht. cbv zeta. destruct (x_of_at fr s Re t c Ht) as (<- & <-). destruct (Q r t fs c Hr Ht) as (l & m & q & gg & e & U1 & U2 & U4 & U3 & Us & So).
  exists l, m, q, gg, e. split; [exact U1|]. split; [exact U2|]. split; [exact U4|]. split; [|split; [exact Us|exact So]].
  unfold given_g in Gg. destruct ml_g as [lg|], gg as [v|]; try exact Logic.I.
  - apply U3.
  - destruct Gg; congruence.
  - destruct U3; congruence.
Qed.
Lemma irm_call_end : forall (E P : Type) (L : learner E row P) f g rd fr s user ml_g ml_m nf nr wa nm rule thr draw C w0 w nj store ext smod w',
  S_Data.reachable fr s -> unclustered s -> sound_randomness rd -> (0 < M_Data.frows fr)%nat ->
  irm_call_init L rd fr s user ml_g ml_m nf nr wa (PBool nm) rule (PFloat thr) draw = Ok (C, w0) -> later C w0 w ->
  exists dcol mc, binary_treatment fr s dcol /\ mc_order mc = rd_order rd /\ runs_on mc "ml_g" ml_g (ly_classifier ml_g) /\ runs_on mc "ml_m" ml_m true /\
  let n := M_Data.frows fr in let x := covariates fr s dcol in let y := outcome fr s in let d := col fr dcol in
  (sound_learning L f g mc w ->
  labels_everywhere L g mc w n "ml_g" y (fun j => d j = 0) -> labels_everywhere L g mc w n "ml_g" y (fun j => d j = 1) -> labels_everywhere L g mc w n "ml_m" d everyone ->
  fit C nj store ext smod w = (w', Ok tt) ->
  exists F sm, fit_done w w' F sm 1 /\ forall r fs, nth_error sm r = Some fs -> exists g0 g1 m0 m e,
      used_prediction L f g mc w n ext r 0 dcol "ml_g0" "ml_g" x y (group_rows n (fun j => d j = 0)) fs g0 /\
      used_prediction L f g mc w n ext r 0 dcol "ml_g1" "ml_g" x y (group_rows n (fun j => d j = 1)) fs g1 /\
      used_prediction L f g mc w n ext r 0 dcol "ml_m" "ml_m" x d whole_train fs m0 /\ clipped n true thr m0 m /\ user y d g0 g1 (ps_adjust n m d nm) fs = Ok e /\ solves F n 0 r e).
Proof.
  intros until w'. intros Re Un Rd Hn H La. destruct (irm_call_made L rd fr s Re Rd _ _ _ _ _ _ _ _ _ _ _ _ H) as (c & mc & nm0 & th0 & bo & st & Bt & Ec & Sr & O & R1 & R2 & Q1 & Q2). injection Q1 as <-. injection Q2 as <-. subst C. rewrite (plain_ctx fr s Re _ Un) in *. pose proof (reached_later _ _ _ Sr La) as Sw. exists c, mc. split; [exact Bt|]. split; [exact O|]. split; [exact R1|]. split; [exact R2|].
  intros n x y d Sl H0 H1 Hm Hf. exact (irm_call_fit L f g mc user n c nm bo true thr x y d st w nj store ext smod w' Hn Sw Sl H0 H1 Hm Hf).
Qed.
Lemma iivm_call_end : forall (E P : Type) (L : learner E row P) f g rd fr s user ml_g ml_m ml_r nf nr sg nm rule thr draw C w0 w nj store ext smod w',
  S_Data.reachable fr s -> unclustered s -> sound_randomness rd -> (0 < M_Data.frows fr)%nat ->
  iivm_call_init L rd fr s user ml_g ml_m ml_r nf nr sg (PBool nm) rule (PFloat thr) draw = Ok (C, w0) -> later C w0 w ->
  exists dcol zc mc at1 nt1, binary_treatment fr s dcol /\ M_Data.r_z (M_Data.dd_roles s) = Some [zc] /\ S_Data.zero_one_column fr zc /\ mc_order mc = rd_order rd /\ runs_on mc "ml_g" ml_g (ly_classifier ml_g) /\ runs_on mc "ml_m" ml_m true /\ runs_on mc "ml_r" ml_r true /\ subgroups_are sg at1 nt1 /\
  let n := M_Data.frows fr in let x := covariates fr s dcol in let y := outcome fr s in let d := col fr dcol in let z := col fr zc in
  (sound_learning L f g mc w ->
  (forall v, v = 0 \/ v = 1 -> labels_everywhere L g mc w n "ml_g" y (fun j => z j = v)) -> labels_everywhere L g mc w n "ml_m" z everyone -> (forall v, v = 0 /\ at1 = true \/ v = 1 /\ nt1 = true -> labels_everywhere L g mc w n "ml_r" d (fun j => z j = v)) ->
  fit C nj store ext smod w = (w', Ok tt) ->
  exists F sm, fit_done w w' F sm 1 /\ forall r fs, nth_error sm r = Some fs -> exists g0 g1 m0 m r0 r1 e,
      used_prediction L f g mc w n ext r 0 dcol "ml_g0" "ml_g" x y (group_rows n (fun j => z j = 0)) fs g0 /\
      used_prediction L f g mc w n ext r 0 dcol "ml_g1" "ml_g" x y (group_rows n (fun j => z j = 1)) fs g1 /\
      used_prediction L f g mc w n ext r 0 dcol "ml_m" "ml_m" x z whole_train fs m0 /\ clipped n true thr m0 m /\
      (if at1 then used_prediction L f g mc w n ext r 0 dcol "ml_r0" "ml_r" x d (group_rows n (fun j => z j = 0)) fs r0 else forall i, (i < n)%nat -> r0 i = 0) /\
      (if nt1 then used_prediction L f g mc w n ext r 0 dcol "ml_r1" "ml_r" x d (group_rows n (fun j => z j = 1)) fs r1 else forall i, (i < n)%nat -> r1 i = 1) /\
      user y z d g0 g1 (iivm_adjust n nm d m) r0 r1 fs = Ok e /\ solves F n 0 r e).
Proof.
  intros until w'. intros Re Un Rd Hn H La. destruct (iivm_call_made L rd fr s Re Rd _ _ _ _ _ _ _ _ _ _ _ _ _ H) as (c & z0 & mc & nm0 & th0 & bo & a1 & a2 & st & Bt & Ez & Zb & Ec & Sr & O & R1 & R2 & R3 & Q1 & Q2 & W). injection Q1 as <-. injection Q2 as <-. subst C. rewrite (plain_ctx fr s Re _ Un) in *. pose proof (reached_later _ _ _ Sr La) as Sw. exists c, z0, mc, a1, a2. split; [exact Bt|]. split; [exact Ez|]. split; [exact Zb|]. split; [exact O|]. split; [exact R1|]. split; [exact R2|]. split; [exact R3|]. split; [exact (subgroups_value _ _ _ W)|].
  intros n x y d z Sl H0 Hm H1 Hf. exact (iivm_call_fit L f g mc user n c nm bo a1 a2 true thr x y z d st w nj store ext smod w' Hn Sw Sl H0 Hm H1 Hf).
Qed.

(** ** Consequences *)
Lemma plr_call_partialling : forall (E P : Type) (L : learner E row P) f g rd fr s ml_l ml_m ml_g nf nr draw C w0 w nj store ext smod w',
  S_Data.reachable fr s -> unclustered s -> sound_randomness rd -> (0 < M_Data.frows fr)%nat ->
  plr_call_init L rd fr s my_partialling_out ml_l ml_m ml_g nf nr draw = Ok (C, w0) -> later C w0 w ->
  exists mc, mc_order mc = rd_order rd /\ runs_on mc "ml_l" ml_l false /\ runs_on mc "ml_m" ml_m (ly_classifier ml_m) /\
  let n := M_Data.frows fr in let dcols := M_Data.r_d (M_Data.dd_roles s) in let y := outcome fr s in
  (sound_learning L f g mc w ->
  labels_everywhere L g mc w n "ml_l" y everyone -> (forall c, In c dcols -> labels_everywhere L g mc w n "ml_m" (col fr c) everyone) ->
  fit C nj store ext smod w = (w', Ok tt) ->
  exists F sm, fit_done w w' F sm (length dcols) /\
    forall r t fs c, nth_error sm r = Some fs -> nth_error dcols t = Some c -> let x := covariates fr s c in let d := col fr c in exists l m,
      used_prediction L f g mc w n ext r t c "ml_l" "ml_l" x y whole_train fs l /\ used_prediction L f g mc w n ext r t c "ml_m" "ml_m" x d whole_train fs m /\
      (sumf n (fun i => (d i - m i) ^ 2) <> 0 ->
       at_ (fw_all_thetas F) [t; r] = sumf n (fun i => (d i - m i) * (y i - l i)) / sumf n (fun i => (d i - m i) ^ 2))).
Proof.
  intros until w'. intros Re Un Rd Hn H La. destruct (plr_call_end E P L f g rd fr s _ _ _ _ _ _ _ _ _ w nj store ext smod w' Re Un Rd Hn H La) as (mc & O & R1 & R2 & _ & Q). exists mc. split; [exact O|]. split; [exact R1|]. split; [exact R2|].
  intros n dcols y Sl Hl Hm Hf. destruct (Q Sl Hl Hm Hf) as (F & sm & Fd & K). exists F, sm. split; [exact Fd|]. intros r t fs c Hr Ht. destruct (K r t fs c Hr Ht) as (l & m & gg & e & U1 & U2 & _ & Us & So). exists l, m. split; [exact U1|]. split; [exact U2|].
  intro Hs. unfold my_partialling_out in Us. apply ok_inj in Us. subst e. unfold solves in So. cbn [el_a el_b] in So. rewrite sumf_opp in So. cbv zeta in So. destruct So as (T & _); [intro Q0; apply Hs; unfold n; lra|]. unfold n. rewrite T. unfold Rdiv. rewrite Rinv_opp. unfold y. ring.
Qed.
(** Variants of PLIV that accept a user function and never fit. *)
Lemma refusing_never {P} (C D : ctx P) fr s w0 w nj store ext sm w' : S_Data.reachable fr s -> C = with_clusters fr s (refusing D) -> c_dcols D = M_Data.r_d (M_Data.dd_roles s) -> soundly_reached C w0 -> later C w0 w ->
  fit C nj store ext sm w <> (w', Ok tt).
Proof.
  intros Re Ec Ed Sr La. destruct (clusters_same fr s (refusing D)) as (_ & B2 & _ & _ & B5). rewrite <- Ec in B2, B5. apply failing_fit; [rewrite B2; cbn [refusing c_dcols]; rewrite Ed; exact (some_treatment fr s Re)|exact (reached_later _ _ _ Sr La)|].
  intros. rewrite B5. cbn [refusing c_nuis]. destruct (c_nuis D _ _ _ _ _); discriminate.
Qed.
Lemma pliv_call_several_never (E P : Type) (L : learner E row P) rd fr s zcs user proj ml_l ml_m ml_r ml_g nf nr draw C w0 w nj store ext smod w' :
  S_Data.reachable fr s -> sound_randomness rd -> M_Data.r_z (M_Data.dd_roles s) = Some zcs -> (2 <= length zcs)%nat ->
  pliv_call_init L rd fr s user proj ml_l ml_m ml_r ml_g nf nr draw = Ok (C, w0) -> later C w0 w -> fit C nj store ext smod w <> (w', Ok tt).
Proof.
  intros Re Rd Hz Hl H La. destruct (pliv_call_made L rd fr s Re Rd _ _ _ _ _ _ _ _ _ _ _ H) as (z0 & more & mc & hg & Ez & Ec & Sr & _). rewrite Hz in Ez. injection Ez as ->. destruct more as [|z1 more]; [cbn in Hl; lia|].
  eapply refusing_never; [exact Re|exact Ec|reflexivity|exact Sr|exact La].
Qed.
Lemma pliv_call_z_never (E P : Type) (L : learner E row P) rd fr s user proj dummy ml_r nf nr draw C w0 w nj store ext smod w' :
  S_Data.reachable fr s -> sound_randomness rd -> pliv_call_partial_z L rd fr s user proj dummy ml_r nf nr draw = Ok (C, w0) -> later C w0 w -> fit C nj store ext smod w <> (w', Ok tt).
Proof. intros Re Rd H La. destruct (pliv_call_z_made L rd fr s Re Rd _ _ _ _ _ _ _ _ _ H) as (mc & Ec & Sr). eapply refusing_never; [exact Re|exact Ec|reflexivity|exact Sr|exact La]. Qed.
Lemma pliv_call_xz_never (E P : Type) (L : learner E row P) rd fr s user proj ml_l ml_m ml_r nf nr draw C w0 w nj store ext smod w' :
  S_Data.reachable fr s -> sound_randomness rd -> pliv_call_partial_xz L rd fr s user proj ml_l ml_m ml_r nf nr draw = Ok (C, w0) -> later C w0 w -> fit C nj store ext smod w <> (w', Ok tt).
Proof. intros Re Rd H La. destruct (pliv_call_xz_made L rd fr s Re Rd _ _ _ _ _ _ _ _ _ _ H) as (mc & Ec & Sr). eapply refusing_never; [exact Re|exact Ec|reflexivity|exact Sr|exact La]. Qed.
(** Weights are accepted and have no effect. *)
Lemma irm_call_weights (E P : Type) (L : learner E row P) rd fr s user ml_g ml_m nf nr wa wb norm rule thr draw o o' :
  irm_call_init L rd fr s user ml_g ml_m nf nr wa norm rule thr draw = Ok o -> irm_call_init L rd fr s user ml_g ml_m nf nr wb norm rule thr draw = Ok o' -> o = o'.
Proof.
  unfold irm_call_init. destruct (base_new rd fr s nf nr draw) as [w|]; cbn [bind]; [|discriminate]. unfold require. destruct (no_z s); [|discriminate]. destruct (one_treat s && zero_one_col fr (M_Data.c_d s)); [|discriminate].
  destruct (redraw rd fr s _ draw w) as [w'|]; cbn [bind]; [|discriminate]. destruct (check_learner ml_g true true); cbn [bind]; [|discriminate]. destruct (check_learner ml_m false true); cbn [bind]; [|discriminate].
  destruct (check_outcome _ _); cbn [bind]; [|discriminate]. destruct (check_bool norm); cbn [bind]; [|discriminate]. destruct (trimming_arg rule thr); cbn [bind]; [|discriminate].
  destruct (check_weights wa _ _ _); cbn [bind]; [|discriminate]. destruct (check_weights wb _ _ _); cbn [bind]; [|discriminate]. intros H1 H2. congruence.
Qed.
(** Functions that raise make the fit raise. *)
Lemma plr_call_raises (E P : Type) (L : learner E row P) rd fr s (user : plr_user) ml_l ml_m ml_g nf nr draw C w0 w nj store ext smod w' :
  S_Data.reachable fr s -> sound_randomness rd -> (forall y d l m gg fs e, user y d l m gg fs <> Ok e) ->
  plr_call_init L rd fr s user ml_l ml_m ml_g nf nr draw = Ok (C, w0) -> later C w0 w -> fit C nj store ext smod w <> (w', Ok tt).
Proof.
  intros Re Rd Us H La. destruct (plr_call_made L rd fr s Re Rd _ _ _ _ _ _ _ _ _ H) as (mc & bin & hg & Ec & Sr & _).
  match type of Ec with _ = with_clusters _ _ ?D => destruct (clusters_same fr s D) as (_ & B2 & _ & _ & B5) end. rewrite <- Ec in B2, B5. apply failing_fit; [rewrite B2; exact (some_treatment fr s Re)|exact (reached_later _ _ _ Sr La)|].
  intros r t fs prm e o Q. rewrite B5 in Q. cbn [plr_call_ctx c_nuis] in Q. unfold plr_call_nuis in Q. bi Q h1 N1. bi Q h2 N2. ri Q Bp. bi Q h3 N3. bi Q el N4. exact (Us _ _ _ _ _ _ _ N4).
Qed.

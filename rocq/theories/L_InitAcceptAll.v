(** Which constructor calls succeed, for data with or without cluster variables. *)
From Verif Require Import L_DataProps.
From Verif Require Export L_InitAll.
From Coq Require Import Lia Lra.
Local Open Scope R_scope.
Local Open Scope res_scope.
Local Open Scope string_scope.

Section Accept.
Context {E P : Type}.
Variable L : learner E row P.
Variable rd : randomness.
Variable f : M_Data.frame.
Variable s : M_Data.ddata.
Hypothesis Con : S_Data.constructed f s.
Let n := M_Data.frows f.
Let roles := M_Data.dd_roles s.
Local Notation arrays := (L_InitAccept.arrays f s Con).
Local Notation one_treat_iff := (L_InitAccept.one_treat_iff f s Con).
Local Notation one_binary := (L_InitAccept.one_binary f s Con).
Local Notation binary_active := (L_InitAccept.binary_active f s Con).
Local Notation no_z_iff := (L_InitAccept.no_z_iff s).
Local Notation outcome_iff := (L_InitAccept.outcome_iff f s Con).
Local Notation level_count := (L_InitAccept.level_count f s).
Local Notation did_learners_iff := (L_InitAccept.did_learners_iff f s Con).
Ltac bi H x X := apply bind_ok in H as (x & X & H).
Ltac ri H X := apply require_ok in H as (X & H).
Ltac sb H := eapply succ_bind; [exact H|].
Ltac sr H := apply succ_require; [exact H|].
Lemma Ar : M_Data.c_cl s = M_Data.r_cl roles.
Proof. destruct arrays as (_ & _ & _ & _ & C & _). exact C. Qed.
Local Notation drawn := (@drawn_all P rd f s Ar).
Local Notation started := (@started_all P rd f s Ar).

Lemma irm_accepts_all ml_g ml_m nf nr score wa norm rule thr draw :
  succeeds (irm_init L rd f s ml_g ml_m nf nr score wa norm rule thr draw) <->
  no_instruments s /\ (exists c, binary_treatment f s c /\ data_split f s nf nr draw (Some (col f c))) /\
  (score = PStr "ATE" /\ weights_ok wa ScATE n (Z.to_nat (int_val nr)) \/ score = PStr "ATTE" /\ weights_ok wa ScATTE n (Z.to_nat (int_val nr))) /\
  outcome_learner f s ml_g /\ predicts_probabilities ml_m /\ boolean norm /\ trimming_ok rule thr.
Proof.
  split.
  - intros (o & H). unfold irm_init in H. bi H w B. ri H Zn. ri H D. bi H sc Sc. bi H w' Rw. bi H g G. bi H m M. bi H u Og. bi H nm Nm. bi H th T. bi H u' W. destruct u, u'.
    apply no_z_iff in Zn. apply one_binary in D. apply score_iff in Sc as (-> & Sc). destruct (started _ _ _ _ _ _ B Rw) as (Sp & Nr).
    rewrite Nr in W. apply accepted_iff in W. apply (outcome_iff ml_g g G) in Og. apply learner_proba in M as (M & _). apply bool_iff in Nm. apply trimming_iff in T as (T1 & T2 & T3).
    split; [exact Zn|]. split; [exists (M_Data.c_d s); split; [exact D|exact Sp]|].
    split. { destruct Sc as [<-|[<-|[]]]; [left|right]; split; try reflexivity; exact W. }
    split; [exact Og|]. split; [exact M|]. split; [eexists; exact Nm|]. split; [exact T1|eauto].
  - intros (Zn & (c & Bt & Sp) & Sc & Og & Pm & (nm & Nm) & T1 & t & T2 & T3). pose proof (binary_active c Bt) as ->.
    destruct (drawn _ _ _ _ Sp) as (w & w' & B & Rw & Nr).
    assert (Gc : check_learner ml_g true true = Ok (ly_classifier ml_g)) by (apply learner_either; split; [apply Og|reflexivity]).
    unfold irm_init. sb B. sr (proj2 no_z_iff Zn). sr (proj2 one_binary Bt).
    assert (Sc' : exists sc, check_score score ["ATE"; "ATTE"] = Ok sc /\ weights_ok wa (if String.eqb sc "ATTE" then ScATTE else ScATE) n (Z.to_nat (int_val nr))).
    { destruct Sc as [(-> & W)|(-> & W)]; eexists; (split; [reflexivity|exact W]). }
    destruct Sc' as (sc & S1 & S2). sb S1. sb Rw. sb Gc. sb (proj2 (learner_proba ml_m true) (conj Pm eq_refl)). sb (proj2 (outcome_iff ml_g _ Gc) Og). sb (proj2 (bool_iff _ _) Nm).
    sb (proj2 (trimming_iff rule thr t) (conj T1 (conj T2 T3))). rewrite Nr. sb (proj2 (accepted_iff _ _ _ _) S2). eexists; reflexivity.
Qed.

(** APO: the number of treated rows is compared with five. *)
Lemma apo_accepts_all ml_g ml_m level nf nr score wa norm rule thr draw :
  succeeds (apo_init L rd f s ml_g ml_m level nf nr score wa norm rule thr draw) <->
  no_instruments s /\ (exists c r, M_Data.r_d roles = [c] /\ level_number level = Some r /\ (5 <= rows_with n (col f c) r)%nat /\ data_split f s nf nr draw (Some (col f c))) /\
  score = PStr "APO" /\ weights_ok wa ScATE n (Z.to_nat (int_val nr)) /\
  outcome_learner f s ml_g /\ predicts_probabilities ml_m /\ boolean norm /\ trimming_ok rule thr.
Proof.
  assert (One : Nat.leb (length (M_Data.r_d roles)) 1 = true <-> M_Data.r_d roles = [M_Data.c_d s]).
  { unfold roles; rewrite <- one_treat_iff. unfold one_treat. fold roles. destruct arrays as (_ & _ & _ & _ & _ & D). fold roles in D. destruct (M_Data.r_d roles) as [|c [|c' l]]; cbn; try tauto; try (split; discriminate); destruct D. }
  split.
  - intros (o & H). unfold apo_init in H. bi H w B. cbv zeta in H. ri H D. ri H Zn. ri H Lv. bi H sc Sc. bi H w' Rw. bi H g G. bi H m M. bi H u Og. bi H nm Nm. bi H th T. bi H u' W. destruct u, u'.
    apply no_z_iff in Zn. apply One in D. apply score_iff in Sc as (-> & Sc). destruct (started _ _ _ _ _ _ B Rw) as (Sp & Nr). apply level_count in Lv as (r & Lv & Five).
    rewrite Nr in W. apply accepted_iff in W. apply (outcome_iff ml_g g G) in Og. apply learner_proba in M as (M & _). apply bool_iff in Nm. apply trimming_iff in T as (T1 & T2 & T3).
    split; [exact Zn|]. split; [exists (M_Data.c_d s), r; auto|]. split; [destruct Sc as [<-|[]]; reflexivity|]. split; [exact W|].
    split; [exact Og|]. split; [exact M|]. split; [eexists; exact Nm|]. split; [exact T1|eauto].
  - intros (Zn & (c & r & D & Lv & Five & Sp) & -> & W & Og & Pm & (nm & Nm) & T1 & t & T2 & T3).
    assert (Ec : c = M_Data.c_d s) by (destruct arrays as (_ & _ & _ & _ & _ & A); fold roles in A; rewrite D in A; destruct A as [->|[]]; reflexivity). subst c.
    destruct (drawn _ _ _ _ Sp) as (w & w' & B & Rw & Nr).
    assert (Gc : check_learner ml_g true true = Ok (ly_classifier ml_g)) by (apply learner_either; split; [apply Og|reflexivity]).
    unfold apo_init. sb B. cbv zeta. sr (proj2 One D). sr (proj2 no_z_iff Zn). sr (proj2 (level_count level) (ex_intro _ r (conj Lv Five))).
    sb (eq_refl : check_score (PStr "APO") ["APO"] = Ok "APO"). sb Rw. sb Gc. sb (proj2 (learner_proba ml_m true) (conj Pm eq_refl)). sb (proj2 (outcome_iff ml_g _ Gc) Og). sb (proj2 (bool_iff _ _) Nm).
    sb (proj2 (trimming_iff rule thr t) (conj T1 (conj T2 T3))). rewrite Nr. sb (proj2 (accepted_iff _ _ _ _) W). eexists; reflexivity.
Qed.

(** IIVM. *)
Lemma iivm_accepts_all ml_g ml_m ml_r nf nr score sg norm rule thr draw :
  succeeds (iivm_init L rd f s ml_g ml_m ml_r nf nr score sg norm rule thr draw) <->
  (exists c z, binary_treatment f s c /\ M_Data.r_z roles = Some [z] /\ S_Data.zero_one_column f z /\ data_split f s nf nr draw (Some (fun i => col f c i + 2 * col f z i))) /\
  score = PStr "LATE" /\ outcome_learner f s ml_g /\ predicts_probabilities ml_m /\ predicts_probabilities ml_r /\ boolean norm /\ trimming_ok rule thr /\ subgroups_ok sg.
Proof.
  destruct arrays as (_ & Az & _). fold roles in Az. split.
  - intros (o & H). unfold iivm_init in H. bi H w B. ri H D. apply one_binary in D. rewrite Az in H. destruct (M_Data.r_z roles) as [[|z [|z' l]]|] eqn:Ez; try discriminate.
    ri H Zn. apply zero_one_iff in Zn. bi H sc Sc. cbv zeta in H. bi H w' Rw. bi H g G. bi H m M. bi H r Mr. bi H u Og. bi H nm Nm. bi H th T. bi H p W. destruct u.
    apply score_iff in Sc as (-> & Sc). destruct (started _ _ _ _ _ _ B Rw) as (Sp & Nr).
    apply (outcome_iff ml_g g G) in Og. apply learner_proba in M as (M & _). apply learner_proba in Mr as (Mr & _). apply bool_iff in Nm. apply trimming_iff in T as (T1 & T2 & T3). apply subgroups_iff in W.
    split; [exists (M_Data.c_d s), z; auto|]. split; [destruct Sc as [<-|[]]; reflexivity|]. split; [exact Og|]. split; [exact M|]. split; [exact Mr|]. split; [eexists; exact Nm|]. split; [split; [exact T1|eauto]|exact W].
  - intros ((c & z & Bt & Ez & Zn & Sp) & -> & Og & Pm & Pr & (nm & Nm) & (T1 & t & T2 & T3) & W). pose proof (binary_active c Bt) as ->.
    destruct (drawn _ _ _ _ Sp) as (w & w' & B & Rw & Nr).
    assert (Gc : check_learner ml_g true true = Ok (ly_classifier ml_g)) by (apply learner_either; split; [apply Og|reflexivity]). destruct (subgroups_ok_check _ W) as (p & Wp).
    unfold iivm_init. sb B. sr (proj2 one_binary Bt). rewrite Az, Ez. sr (proj2 (zero_one_iff f z) Zn).
    sb (eq_refl : check_score (PStr "LATE") ["LATE"] = Ok "LATE"). cbv zeta. sb Rw. sb Gc. sb (proj2 (learner_proba ml_m true) (conj Pm eq_refl)). sb (proj2 (learner_proba ml_r true) (conj Pr eq_refl)).
    sb (proj2 (outcome_iff ml_g _ Gc) Og). sb (proj2 (bool_iff _ _) Nm). sb (proj2 (trimming_iff rule thr t) (conj T1 (conj T2 T3))). sb Wp. eexists; reflexivity.
Qed.

(** DID. *)
Lemma did_accepts_all ml_g ml_m nf nr score norm rule thr draw :
  succeeds (did_init L rd f s ml_g ml_m nf nr score norm rule thr draw) <->
  no_instruments s /\ (exists c, binary_treatment f s c /\ data_split f s nf nr draw (Some (col f c))) /\
  did_score_ok score ml_m /\ outcome_learner f s ml_g /\ boolean norm /\ trimming_ok rule thr.
Proof.
  split.
  - intros (o & H). unfold did_init in H. bi H w B. ri H Zn. ri H D. bi H sc Sc. bi H nm Nm. bi H w' Rw. bi H ls Ls. bi H th T.
    apply no_z_iff in Zn. apply one_binary in D. destruct (started _ _ _ _ _ _ B Rw) as (Sp & _). destruct (proj1 (did_learners_iff _ _ _) (ex_intro _ _ Ls)) as (Og & Ob). apply bool_iff in Nm. apply trimming_iff in T as (T1 & T2 & T3).
    split; [exact Zn|]. split; [exists (M_Data.c_d s); auto|]. split; [eapply did_score_back; eassumption|]. split; [exact Og|]. split; [eexists; exact Nm|]. split; [exact T1|eauto].
  - intros (Zn & (c & Bt & Sp) & Sc & Og & (nm & Nm) & T1 & t & T2 & T3). pose proof (binary_active c Bt) as ->.
    destruct (drawn _ _ _ _ Sp) as (w & w' & B & Rw & Nr). destruct (did_score_cases _ _ Sc) as (sc & S1 & S2). destruct (proj2 (did_learners_iff _ ml_g ml_m) (conj Og S2)) as (ls & Ls).
    unfold did_init. sb B. sr (proj2 no_z_iff Zn). sr (proj2 one_binary Bt). sb S1. sb (proj2 (bool_iff _ _) Nm). sb Rw. sb Ls. sb (proj2 (trimming_iff rule thr t) (conj T1 (conj T2 T3))). eexists; reflexivity.
Qed.
Lemma cs_accepts_all ml_g ml_m nf nr score norm rule thr draw :
  succeeds (cs_init L rd f s ml_g ml_m nf nr score norm rule thr draw) <->
  no_instruments s /\ (exists c t, binary_treatment f s c /\ M_Data.r_t roles = Some t /\ S_Data.zero_one_column f t /\ data_split f s nf nr draw (Some (fun i => col f c i + 2 * col f t i))) /\
  did_score_ok score ml_m /\ outcome_learner f s ml_g /\ boolean norm /\ trimming_ok rule thr.
Proof.
  destruct arrays as (_ & _ & At & _). fold roles in At. split.
  - intros (o & H). unfold cs_init in H. bi H w B. ri H Zn. ri H D. rewrite At in H. destruct (M_Data.r_t roles) as [tc|] eqn:Et; [|discriminate]. ri H Zt. bi H sc Sc. bi H nm Nm. cbv zeta in H. bi H w' Rw. bi H ls Ls. bi H th T.
    apply no_z_iff in Zn. apply one_binary in D. apply zero_one_iff in Zt. destruct (started _ _ _ _ _ _ B Rw) as (Sp & _). destruct (proj1 (did_learners_iff _ _ _) (ex_intro _ _ Ls)) as (Og & Ob). apply bool_iff in Nm. apply trimming_iff in T as (T1 & T2 & T3).
    split; [exact Zn|]. split; [exists (M_Data.c_d s), tc; auto|]. split; [eapply did_score_back; eassumption|]. split; [exact Og|]. split; [eexists; exact Nm|]. split; [exact T1|eauto].
  - intros (Zn & (c & tc & Bt & Et & Zt & Sp) & Sc & Og & (nm & Nm) & T1 & t & T2 & T3). pose proof (binary_active c Bt) as ->.
    destruct (drawn _ _ _ _ Sp) as (w & w' & B & Rw & Nr). destruct (did_score_cases _ _ Sc) as (sc & S1 & S2). destruct (proj2 (did_learners_iff _ ml_g ml_m) (conj Og S2)) as (ls & Ls).
    unfold cs_init. sb B. sr (proj2 no_z_iff Zn). sr (proj2 one_binary Bt). rewrite At, Et. sr (proj2 (zero_one_iff f tc) Zt). sb S1. sb (proj2 (bool_iff _ _) Nm). cbv zeta. sb Rw. sb Ls. sb (proj2 (trimming_iff rule thr t) (conj T1 (conj T2 T3))). eexists; reflexivity.
Qed.

(** SSM: neither the treatment nor the selection is required to be binary. *)
Lemma ssm_accepts_all tts ml_g ml_pi ml_m nf nr score norm rule thr draw :
  succeeds (ssm_init L rd f s tts ml_g ml_pi ml_m nf nr score norm rule thr draw) <->
  (exists sel, M_Data.r_s roles = Some sel /\ data_split f s nf nr draw (Some (fun i => col f (M_Data.c_d s) i + 2 * col f sel i))) /\
  (score = PStr "missing-at-random" \/ score = PStr "nonignorable" /\ ~ no_instruments s) /\
  outcome_learner f s ml_g /\ predicts_probabilities ml_pi /\ predicts_probabilities ml_m /\ boolean norm /\ trimming_ok rule thr.
Proof.
  assert (Oc : forall l c, check_learner l true true = Ok c -> (check_outcome c (M_Data.binary_col f (M_Data.r_y (M_Data.dd_roles s))) = Ok tt <-> @outcome_learner E f s l)).
  { intros l c Hc. apply learner_either in Hc as (A & ->). change (M_Data.binary_col f (M_Data.r_y (M_Data.dd_roles s))) with (zero_one_col f (M_Data.r_y (M_Data.dd_roles s))).
    assert (Zi := zero_one_iff f (M_Data.r_y (M_Data.dd_roles s))). unfold check_outcome, outcome_learner, require. rewrite <- Zi. destruct (ly_classifier l), (zero_one_col f (M_Data.r_y (M_Data.dd_roles s))); cbn; split; intro H; try discriminate; auto;
    destruct H as (_ & H); specialize (H eq_refl); discriminate. }
  destruct arrays as (_ & _ & _ & As & _). fold roles in As. split.
  - intros (o & H). unfold ssm_init in H. bi H w B. bi H th T. ri H Zn. bi H sc Sc. rewrite As in H. destruct (M_Data.r_s roles) as [sel|] eqn:Es; [|discriminate]. cbv zeta in H. bi H w' Rw. bi H g G. bi H p Mp. bi H m M. bi H u Og. bi H nm Nm. destruct u.
    destruct (started _ _ _ _ _ _ B Rw) as (Sp & _). apply (Oc ml_g g G) in Og. apply learner_proba in M as (M & _). apply learner_proba in Mp as (Mp & _). apply bool_iff in Nm. apply trimming_iff in T as (T1 & T2 & T3). apply score_iff in Sc as (-> & Sc).
    split; [exists sel; split; [reflexivity|]; exact Sp|].
    split. { destruct Sc as [<-|[<-|[]]]; [left; reflexivity|right; split; [reflexivity|]]. cbn in Zn. rewrite <- no_z_iff. destruct (no_z s); [discriminate Zn|discriminate]. }
    split; [exact Og|]. split; [exact Mp|]. split; [exact M|]. split; [eexists; exact Nm|]. split; [exact T1|eauto].
  - intros ((sel & Es & Sp) & Sc & Og & Pp & Pm & (nm & Nm) & T1 & t & T2 & T3). destruct (drawn _ _ _ _ Sp) as (w & w' & B & Rw & Nr).
    assert (Gc : check_learner ml_g true true = Ok (ly_classifier ml_g)) by (apply learner_either; split; [apply Og|reflexivity]).
    assert (Sc' : negb (match score with PStr sc => String.eqb sc "nonignorable" | _ => false end && no_z s) = true /\ succeeds (check_score score ["missing-at-random"; "nonignorable"])).
    { destruct Sc as [-> |(-> & Nz)]; split; [reflexivity|eexists; reflexivity| |eexists; reflexivity]. cbn. rewrite <- no_z_iff in Nz. destruct (no_z s); [contradiction Nz|]; reflexivity. }
    destruct Sc' as (S1 & sc & S2).
    unfold ssm_init. sb B. sb (proj2 (trimming_iff rule thr t) (conj T1 (conj T2 T3))). sr S1. sb S2. rewrite As, Es. cbv zeta. sb Rw. sb Gc. sb (proj2 (learner_proba ml_pi true) (conj Pp eq_refl)). sb (proj2 (learner_proba ml_m true) (conj Pm eq_refl)).
    sb (proj2 (Oc ml_g _ Gc) Og). sb (proj2 (bool_iff _ _) Nm). eexists; reflexivity.
Qed.

(** PLR. *)
Lemma plr_accepts_all ml_l ml_m ml_g nf nr score draw :
  succeeds (plr_init L rd f s ml_l ml_m ml_g nf nr score draw) <->
  no_instruments s /\ data_split f s nf nr draw None /\
  (score = PStr "partialling out" \/ score = PStr "IV-type" /\ forall l, ml_g = Some l -> predicts_values l) /\
  predicts_values ml_l /\ predicts_either ml_m /\ (ly_classifier ml_m = true -> forall c, In c (M_Data.r_d roles) -> S_Data.zero_one_column f c).
Proof.
  destruct (binary_constructed f s Con) as (_ & B2 & B3). fold roles in B2.
  assert (Bt : forallb snd (M_Data.dd_bt s) = true <-> forall c, In c (M_Data.r_d roles) -> S_Data.zero_one_column f c).
  { rewrite forallb_forall, <- B2. split.
    - intros H c Hc. apply in_map_iff in Hc as ((c' & b) & <- & Hc). apply (B3 c' b Hc). exact (H _ Hc).
    - intros H (c & b) Hc. apply (B3 c b Hc), H. apply in_map_iff. exists (c, b). auto. }
  split.
  - intros (o & H). unfold plr_init in H. bi H w B. ri H Zn. apply no_z_iff in Zn. bi H sc Sc. bi H cla Ll. bi H mc Lm. cbv zeta in H. bi H g G. bi H u Bn.
    apply learner_value in Ll as (Ll & _). apply learner_either in Lm as (Lm & ->). apply score_iff in Sc as (-> & Sc).
    split; [exact Zn|]. split; [apply (@base_all P rd f s Ar); exists w; exact B|].
    split. { destruct Sc as [<-|[<-|[]]]; [right; split; [reflexivity|]|left; reflexivity]. intros l ->. cbn in G. bi G cld Lg. apply learner_value in Lg as (Lg & _). exact Lg. }
    split; [exact Ll|]. split; [exact Lm|]. intro Q. rewrite Q in Bn. cbn [negb orb] in Bn. ri Bn Q'. apply Bt, Q'.
  - intros (Zn & Sp & Sc & Ll & Lm & Bn). apply (@base_all P rd f s Ar) in Sp as (w & B).
    assert (S' : exists sc, check_score score ["IV-type"; "partialling out"] = Ok sc /\ (String.eqb sc "IV-type" = true -> forall l, ml_g = Some l -> predicts_values l)).
    { destruct Sc as [-> |(-> & Q)]; eexists; (split; [reflexivity|]); [discriminate|intros _; exact Q]. }
    destruct S' as (sc & S1 & S2). unfold plr_init. sb B. sr (proj2 no_z_iff Zn). sb S1. sb (proj2 (learner_value ml_l false) (conj Ll eq_refl)). sb (proj2 (learner_either ml_m _) (conj Lm eq_refl)). cbv zeta.
    assert (G : succeeds (match ml_g with
            | Some l => if String.eqb sc "IV-type" then let! _ := check_learner l true false in Ok (Some (entry_of l false)) else Ok None
            | None => Ok (if String.eqb sc "IV-type" then Some {| le_obj := ln_clone L (ly_obj ml_l); le_proba := false; le_classifier := ly_classifier ml_l |} else None)
            end)).
    { destruct ml_g as [l|]; [|eexists; reflexivity]. destruct (String.eqb sc "IV-type"); [|eexists; reflexivity]. sb (proj2 (learner_value l false) (conj (S2 eq_refl l eq_refl) eq_refl)). eexists; reflexivity. }
    destruct G as (g & G). sb G. assert (Q : negb (ly_classifier ml_m) || forallb snd (M_Data.dd_bt s) = true). { destruct (ly_classifier ml_m); [cbn; apply Bt, Bn; reflexivity|reflexivity]. }
    rewrite Q. eexists; reflexivity.
Qed.

(** PLIV: the IV-type score needs ml_g and is only available with one instrument. *)
Lemma pliv_accepts_all proj ml_l ml_m ml_r ml_g nf nr score draw :
  succeeds (pliv_init L rd f s proj ml_l ml_m ml_r ml_g nf nr score draw) <->
  data_split f s nf nr draw None /\ predicts_values ml_l /\ predicts_values ml_m /\ predicts_values ml_r /\
  exists z more, M_Data.r_z roles = Some (z :: more) /\
    (score = PStr "partialling out" \/ score = PStr "IV-type" /\ more = [] /\ exists l, ml_g = Some l /\ predicts_values l).
Proof.
  destruct arrays as (_ & Az & _). fold roles in Az. split.
  - intros (o & H). unfold pliv_init in H. bi H w B. rewrite Az in H. destruct (M_Data.r_z roles) as [[|z more]|] eqn:Ez; try discriminate.
    bi H sc Sc. bi H cla Ll. bi H clb Lm. bi H clc Lr. cbv zeta in H. bi H g G. apply learner_value in Ll as (Ll & _). apply learner_value in Lm as (Lm & _). apply learner_value in Lr as (Lr & _). apply score_iff in Sc as (-> & Sc).
    split; [apply (@base_all P rd f s Ar); exists w; exact B|]. split; [exact Ll|]. split; [exact Lm|]. split; [exact Lr|]. exists z, more. split; [reflexivity|].
    destruct more as [|z' more]; cbn in Sc; [|left; destruct Sc as [<-|[]]; reflexivity]. destruct Sc as [<-|[<-|[]]]; [left; reflexivity|right]. split; [reflexivity|]. split; [reflexivity|].
    destruct ml_g as [l|]; [|discriminate]. cbn in G. bi G cld Lg. apply learner_value in Lg as (Lg & _). eauto.
  - intros (Sp & Ll & Lm & Lr & z & more & Ez & Sc). apply (@base_all P rd f s Ar) in Sp as (w & B).
    assert (S' : exists sc, check_score score (match more with [] => ["partialling out"; "IV-type"] | _ => ["partialling out"] end) = Ok sc /\ (String.eqb sc "IV-type" = true -> exists l, ml_g = Some l /\ predicts_values l)).
    { destruct Sc as [-> |(-> & -> & Q)]; [exists "partialling out"|exists "IV-type"]; (split; [|]); [destruct more; reflexivity|discriminate|reflexivity|intros _; exact Q]. }
    destruct S' as (sc & S1 & S2). unfold pliv_init. sb B. rewrite Az, Ez. sb S1. sb (proj2 (learner_value ml_l false) (conj Ll eq_refl)). sb (proj2 (learner_value ml_m false) (conj Lm eq_refl)). sb (proj2 (learner_value ml_r false) (conj Lr eq_refl)). cbv zeta.
    assert (G : succeeds (match ml_g with
                | Some l => if String.eqb sc "IV-type" then let! _ := check_learner l true false in Ok [("ml_g", entry_of l false)] else Ok []
                | None => if String.eqb sc "IV-type" then Err ValueError else Ok []
                end)).
    { destruct (String.eqb sc "IV-type"); [|destruct ml_g; eexists; reflexivity]. destruct (S2 eq_refl) as (l & -> & Pl). sb (proj2 (learner_value l false) (conj Pl eq_refl)). eexists; reflexivity. }
    destruct G as (g & G). sb G. eexists; reflexivity.
Qed.
(** The partialZ and partialXZ variants. *)
Lemma pliv_z_accepts_all proj dummy ml_r nf nr score draw : predicts_values dummy ->
  (succeeds (pliv_partial_z L rd f s proj dummy ml_r nf nr score draw) <->
   data_split f s nf nr draw None /\ predicts_values ml_r /\ score = PStr "partialling out" /\ exists z more, M_Data.r_z roles = Some (z :: more)).
Proof.
  intro Dm. split.
  - intros (o & H). unfold pliv_partial_z in H. bi H p Pi. bi H sc Sc. apply score_iff in Sc as (-> & [<-|[]]). destruct (proj1 (pliv_accepts_all proj dummy dummy ml_r None nf nr _ draw) (ex_intro _ _ Pi)) as (Sp & _ & _ & Lr & z & more & Ez & _).
    split; [exact Sp|]. split; [exact Lr|]. split; [reflexivity|]. eauto.
  - intros (Sp & Lr & -> & z & more & Ez). destruct (proj2 (pliv_accepts_all proj dummy dummy ml_r None nf nr (PStr "partialling out") draw)) as (p & Pi).
    { split; [exact Sp|]. split; [exact Dm|]. split; [exact Dm|]. split; [exact Lr|]. exists z, more. auto. }
    unfold pliv_partial_z. sb Pi. eapply succ_bind; [reflexivity|]. sb (proj2 (learner_value ml_r false) (conj Lr eq_refl)). eexists; reflexivity.
Qed.
Lemma pliv_xz_accepts_all proj ml_l ml_m ml_r nf nr score draw :
  succeeds (pliv_partial_xz L rd f s proj ml_l ml_m ml_r nf nr score draw) <->
  data_split f s nf nr draw None /\ predicts_values ml_l /\ predicts_values ml_m /\ predicts_values ml_r /\ score = PStr "partialling out" /\ exists z more, M_Data.r_z roles = Some (z :: more).
Proof.
  split.
  - intros (o & H). unfold pliv_partial_xz in H. bi H p Pi. bi H sc Sc. apply score_iff in Sc as (-> & [<-|[]]). destruct (proj1 (pliv_accepts_all proj ml_l ml_m ml_r None nf nr _ draw) (ex_intro _ _ Pi)) as (Sp & Ll & Lm & Lr & z & more & Ez & _).
    do 4 (split; [assumption|]). split; [reflexivity|]. eauto.
  - intros (Sp & Ll & Lm & Lr & -> & z & more & Ez). destruct (proj2 (pliv_accepts_all proj ml_l ml_m ml_r None nf nr (PStr "partialling out") draw)) as (p & Pi).
    { do 4 (split; [assumption|]). exists z, more. auto. }
    unfold pliv_partial_xz. sb Pi. eapply succ_bind; [reflexivity|]. eexists; reflexivity.
Qed.
End Accept.

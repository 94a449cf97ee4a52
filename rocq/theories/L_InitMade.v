(** The object a constructor call returns: its class, its data and its
    learners, and that it is a reachable state of the life cycle. *)
From Verif Require Import L_DataOps L_DataProps.
From Verif Require Export L_InitAccept.
From Coq Require Import Lia Lra.
Local Open Scope R_scope.
Local Open Scope res_scope.
Local Open Scope string_scope.

Lemma reached_later {P} (C : ctx P) w0 w : soundly_reached C w0 -> later C w0 w -> soundly_reached C w.
Proof.
  intros (nf & nr & dr & gen & perm & wi & ops & G & Pm & N & O & ->) (ops' & O' & ->). exists nf, nr, dr, gen, perm, wi, (ops ++ ops')%list.
  split; [exact G|]. split; [exact Pm|]. split; [exact N|]. split.
  - intros o Ho. apply in_app_or in Ho as [Ho|Ho]; auto.
  - clear. revert wi. induction ops as [|o ops IH]; intro wi; cbn; [reflexivity|apply IH].
Qed.

Ltac bi H x X := apply bind_ok in H as (x & X & H).
Ltac ri H X := apply require_ok in H as (X & H).

Section Made.
Context {E P : Type}.
Variable L : learner E row P.
Variable rd : randomness.
Variable fr : M_Data.frame.
Variable s : M_Data.ddata.
Hypothesis Re : S_Data.reachable fr s.
Hypothesis Rd : sound_randomness rd.
Let n := M_Data.frows fr.
Let roles := M_Data.dd_roles s.
Let dcols := M_Data.r_d roles.

Lemma arrays_r : M_Data.c_y s = M_Data.r_y roles /\ M_Data.c_z s = M_Data.r_z roles /\ M_Data.c_t s = M_Data.r_t roles /\ M_Data.c_s s = M_Data.r_s roles /\ M_Data.c_cl s = M_Data.r_cl roles /\ In (M_Data.c_d s) (M_Data.r_d roles).
Proof. exact (arrays_reachable fr s Re). Qed.
Lemma some_treatment : dcols <> [].
Proof. destruct arrays_r as (_ & _ & _ & _ & _ & D). unfold dcols. intro H. rewrite H in D. destruct D. Qed.
Lemma one_treat_r : one_treat s = true -> dcols = [M_Data.c_d s].
Proof.
  destruct arrays_r as (_ & _ & _ & _ & _ & D). unfold one_treat, dcols. fold roles. destruct (M_Data.r_d roles) as [|c [|c' l]]; intro H; try discriminate. destruct D as [->|[]]. reflexivity.
Qed.
Lemma one_binary_r : one_treat s && zero_one_col fr (M_Data.c_d s) = true -> exists c, M_Data.c_d s = c /\ binary_treatment fr s c.
Proof.
  intro H. apply andb_true_iff in H as (H1 & H2). exists (M_Data.c_d s). split; [reflexivity|]. split; [apply one_treat_r, H1|apply zero_one_iff, H2].
Qed.
Lemma active_covariates : feats fr (M_Data.c_x s) = covariates fr s (M_Data.c_d s).
Proof. unfold covariates. now rewrite (proj1 (features_reachable fr s Re)). Qed.
Lemma x_of_in t : exists c, In c dcols /\ x_of fr s t = covariates fr s c /\ d_of fr s t = col fr c /\ (forall c', nth_error dcols t = Some c' -> c = c').
Proof.
  destruct arrays_r as (_ & _ & _ & _ & _ & D). destruct (one_treat s) eqn:O.
  - pose proof (one_treat_r O) as Q. exists (M_Data.c_d s). split; [exact D|]. unfold x_of, d_of. rewrite O, active_covariates. split; [reflexivity|]. split; [reflexivity|].
    intros c' H. rewrite Q in H. destruct t as [|[|t]]; cbn in H; congruence.
  - exists (nth t dcols (M_Data.c_d s)).
    assert (I : In (nth t dcols (M_Data.c_d s)) dcols). { destruct (Nat.lt_ge_cases t (length dcols)) as [Q|Q]; [apply nth_In, Q|]. rewrite nth_overflow by exact Q. exact D. }
    split; [exact I|]. unfold x_of, d_of. rewrite O. split; [|split; [reflexivity|]].
    + unfold covariates. f_equal. apply (xd_list_features fr); [apply (roles_reachable _ _ Re)|exact I].
    + intros c' H. now apply nth_error_nth.
Qed.
Lemma x_of_at t c : nth_error dcols t = Some c -> x_of fr s t = covariates fr s c /\ d_of fr s t = col fr c.
Proof. intro H. destruct (x_of_in t) as (c0 & _ & A & B & Q). rewrite <- (Q c H). auto. Qed.
(** What holds for all treatment columns holds for [d_of]. *)
Lemma d_of_all (Q : vec -> Prop) : (forall c, In c dcols -> Q (col fr c)) -> forall t, Q (d_of fr s t).
Proof. intros H t. destruct (x_of_in t) as (c & I & _ & -> & _). apply H, I. Qed.
Lemma outcome_col : col fr (M_Data.c_y s) = outcome fr s.
Proof. destruct arrays_r as (-> & _). reflexivity. Qed.

Lemma shape_of (C : ctx P) : c_n C = n -> c_dcols C = dcols -> c_cluster C = None -> same_shape (@base_ctx P fr s) (with_clusters fr s C).
Proof. intros A B D. unfold same_shape, base_ctx, with_clusters. destruct (M_Data.c_cl s) as [cl|]; cbn; rewrite A, B; auto. Qed.
Lemma strata_of (C : ctx P) : c_strata (with_clusters fr s C) = c_strata C.
Proof. unfold with_clusters. destruct (option_map _ _); reflexivity. Qed.
Lemma made_plain (C : ctx P) nf nr dr w : base_new rd fr s nf nr dr = Ok w -> c_n C = n -> c_dcols C = dcols -> c_cluster C = None -> c_strata C = None -> soundly_reached (with_clusters fr s C) w.
Proof. intros B A1 A2 A3 A4. eapply base_reached; [exact Rd|exact B|apply shape_of; assumption|rewrite strata_of; exact A4]. Qed.
Lemma made_strat (C : ctx P) nf nr dr w w1 v : base_new rd fr s nf nr dr = Ok w -> redraw rd fr s v dr w = Ok w1 -> c_n C = n -> c_dcols C = dcols -> c_cluster C = None -> c_strata C = Some (value_codes v) ->
  soundly_reached (with_clusters fr s C) w1.
Proof.
  intros B R A1 A2 A3 A4. eapply redraw_reached; [exact Rd|exact B|exact R|apply shape_of; assumption|intros _; rewrite strata_of; exact A4|].
  rewrite strata_of, A4. unfold strata_ctx. rewrite strata_of. reflexivity.
Qed.
Lemma plain_ctx (C : ctx P) : unclustered s -> with_clusters fr s C = C.
Proof. intro U. unfold with_clusters. destruct arrays_r as (_ & _ & _ & _ & Cl & _). rewrite Cl. unfold roles. rewrite U. reflexivity. Qed.

(** *** The classes *)
Lemma plr_made ml_l ml_m ml_g nf nr sc draw C w0 : plr_init L rd fr s ml_l ml_m ml_g nf nr (PStr sc) draw = Ok (C, w0) ->
  exists mc bin, C = with_clusters fr s (plr_ctx L mc n dcols (String.eqb sc "IV-type") bin (x_of fr s) (outcome fr s) (d_of fr s)) /\ soundly_reached C w0 /\ mc_order mc = rd_order rd /\
    runs_on mc "ml_l" ml_l false /\ runs_on mc "ml_m" ml_m (ly_classifier ml_m) /\
    (String.eqb sc "IV-type" = true -> mc_proba mc "ml_g" = false /\ mc_learner mc "ml_g" = match ml_g with Some l => ly_obj l | None => ln_clone L (ly_obj ml_l) end).
Proof.
  intro H. unfold plr_init in H. bi H w B. ri H Zn. bi H sc' Sc. apply score_iff in Sc as (Q & _). injection Q as <-. bi H cla Ll. bi H mcl Lm. cbv zeta in H. bi H gq G. bi H u Bn. apply ok_inj in H. injection H as <- <-.
  apply learner_either in Lm as (_ & ->). rewrite outcome_col.
  eexists. eexists. split; [reflexivity|]. split; [eapply made_plain; [exact B|reflexivity..]|]. split; [reflexivity|]. split; [split; reflexivity|]. split; [split; reflexivity|].
  intro I. rewrite I in G. destruct ml_g as [l|]; [bi G lx Lx|]; apply ok_inj in G; subst gq; split; reflexivity.
Qed.
Lemma irm_made ml_g ml_m nf nr sc wa norm rule thr draw C w0 : irm_init L rd fr s ml_g ml_m nf nr (PStr sc) wa norm rule thr draw = Ok (C, w0) ->
  exists c mc nm th bo st, binary_treatment fr s c /\
    C = with_clusters fr s (irm_ctx L mc n c (String.eqb sc "ATTE") nm bo true th (weights_of wa) (covariates fr s c) (outcome fr s) (col fr c) st) /\ soundly_reached C w0 /\
    mc_order mc = rd_order rd /\ runs_on mc "ml_g" ml_g (ly_classifier ml_g) /\ runs_on mc "ml_m" ml_m true /\ norm = PBool nm /\ thr = PFloat th /\ check_trimming true (PFloat th) = Ok tt /\
    check_weights wa (if String.eqb sc "ATTE" then ScATTE else ScATE) n (m_n_rep (w_obj w0)) = Ok tt.
Proof.
  intro H. unfold irm_init in H. bi H w B. ri H Zn. ri H D. bi H sc' Sc. apply score_iff in Sc as (Q & _). injection Q as <-. bi H w' Rw. bi H gc G. bi H mm M. bi H u Og. bi H nm Nm. bi H th T. cbv zeta in H. bi H u' W. apply ok_inj in H. injection H as <- <-.
  destruct (one_binary_r D) as (c & Ec & Bt). apply learner_either in G as (_ & ->). apply bool_iff in Nm. apply trimming_iff in T as (T1 & T2 & T3). destruct u'.
  rewrite outcome_col, active_covariates, Ec. rewrite Ec in Rw. pose proof Bt as (Q & _). rewrite Q. cbn [hd].
  eexists c, _, nm, th, _, _. split; [exact Bt|]. split; [reflexivity|].
  split; [eapply made_strat; [exact B|exact Rw|reflexivity|unfold dcols, roles; rewrite Q; reflexivity|reflexivity..]|]. split; [reflexivity|]. split; [split; reflexivity|]. split; [split; reflexivity|].
  split; [exact Nm|]. split; [exact T2|]. split; [|exact W]. apply check_trimming_iff. split; [reflexivity|]. eexists; split; [reflexivity|exact T3].
Qed.
Lemma trimming_th rule thr th : trimming_arg rule thr = Ok th -> thr = PFloat th /\ check_trimming true (PFloat th) = Ok tt.
Proof. intro T. apply trimming_iff in T as (_ & T2 & T3). split; [exact T2|]. apply check_trimming_iff. split; [reflexivity|]. eexists; split; [reflexivity|exact T3]. Qed.
Lemma apo_made ml_g ml_m level nf nr score wa norm rule thr draw C w0 : apo_init L rd fr s ml_g ml_m level nf nr score wa norm rule thr draw = Ok (C, w0) ->
  exists c mc nm th bo st, dcols = [c] /\
    C = with_clusters fr s (apo_ctx L mc n c nm bo true th (weights_of wa) (covariates fr s c) (outcome fr s) (col fr c) (treated_at fr s level) st) /\ soundly_reached C w0 /\ M_Data.c_d s = c /\
    mc_order mc = rd_order rd /\ runs_on mc "ml_g" ml_g (ly_classifier ml_g) /\ runs_on mc "ml_m" ml_m true /\ norm = PBool nm /\ thr = PFloat th /\ check_trimming true (PFloat th) = Ok tt /\
    check_weights wa ScATE n (m_n_rep (w_obj w0)) = Ok tt.
Proof.
  intro H. unfold apo_init in H. bi H w B. cbv zeta in H. ri H D. ri H Zn. ri H Tr. bi H sc' Sc. bi H w' Rw. bi H gc G. bi H mm M. bi H u Og. bi H nm Nm. bi H th T. bi H u' W. apply ok_inj in H. injection H as <- <-.
  assert (Q : dcols = [M_Data.c_d s]). { apply one_treat_r. pose proof some_treatment as Z. unfold dcols, roles in Z. unfold one_treat. destruct (M_Data.r_d (M_Data.dd_roles s)) as [|c [|c' l]]; [contradiction Z; reflexivity|reflexivity|discriminate D]. }
  apply learner_either in G as (_ & ->). apply bool_iff in Nm. apply trimming_th in T as (T2 & T3). destruct u'. change dcols with (M_Data.r_d (M_Data.dd_roles s)) in Q |- *. rewrite outcome_col, active_covariates, !Q. cbn [hd].
  eexists (M_Data.c_d s), _, nm, th, _, _. split; [reflexivity|]. split; [reflexivity|].
  split; [eapply made_strat; [exact B|exact Rw|reflexivity|unfold dcols, roles; rewrite Q; reflexivity|reflexivity..]|]. split; [reflexivity|]. split; [reflexivity|]. split; [split; reflexivity|]. split; [split; reflexivity|].
  split; [exact Nm|]. split; [exact T2|]. split; [exact T3|exact W].
Qed.
Lemma iivm_made ml_g ml_m ml_r nf nr score sg norm rule thr draw C w0 : iivm_init L rd fr s ml_g ml_m ml_r nf nr score sg norm rule thr draw = Ok (C, w0) ->
  exists c z mc nm th bo at1 nt1 st, binary_treatment fr s c /\ M_Data.r_z roles = Some [z] /\ S_Data.zero_one_column fr z /\
    C = with_clusters fr s (iivm_ctx L mc n c nm bo at1 nt1 true th (covariates fr s c) (outcome fr s) (col fr z) (col fr c) st) /\ soundly_reached C w0 /\
    mc_order mc = rd_order rd /\ runs_on mc "ml_g" ml_g (ly_classifier ml_g) /\ runs_on mc "ml_m" ml_m true /\ runs_on mc "ml_r" ml_r true /\ norm = PBool nm /\ thr = PFloat th /\ check_trimming true (PFloat th) = Ok tt /\
    check_subgroups sg = Ok (at1, nt1).
Proof.
  intro H. unfold iivm_init in H. bi H w B. ri H D. destruct arrays_r as (_ & Az & _). rewrite Az in H. destruct (M_Data.r_z roles) as [[|z [|z' l]]|] eqn:Ez; try discriminate. ri H Zn. bi H sc' Sc. cbv zeta in H. bi H w' Rw. bi H gc G. bi H mm M. bi H rr Mr. bi H u Og. bi H nm Nm. bi H th T. bi H p W. apply ok_inj in H. injection H as <- <-.
  destruct (one_binary_r D) as (c & Ec & Bt). apply learner_either in G as (_ & ->). apply bool_iff in Nm. apply trimming_th in T as (T2 & T3). apply zero_one_iff in Zn.
  rewrite outcome_col, active_covariates, Ec. rewrite Ec in Rw. pose proof Bt as (Q & _). rewrite Q. cbn [hd]. destruct p as [a1 a2].
  eexists c, z, _, nm, th, _, a1, a2, _. split; [exact Bt|]. split; [reflexivity|]. split; [exact Zn|]. split; [reflexivity|].
  split; [eapply made_strat; [exact B|exact Rw|reflexivity|unfold dcols, roles; rewrite Q; reflexivity|reflexivity..]|]. split; [reflexivity|]. split; [split; reflexivity|]. split; [split; reflexivity|]. split; [split; reflexivity|].
  split; [exact Nm|]. split; [exact T2|]. split; [exact T3|exact W].
Qed.
Lemma did_ls obs ml_g ml_m by_ ls : did_learners obs ml_g ml_m by_ = Ok ls ->
  let mc := @machine E P rd ls (entry_of ml_g false) in mc_order mc = rd_order rd /\ runs_on mc "ml_g" ml_g (ly_classifier ml_g) /\ (obs = true -> exists l, ml_m = Some l /\ runs_on mc "ml_m" l true).
Proof.
  intro H. unfold did_learners in H. bi H gc G. bi H mm M. bi H u Og. apply ok_inj in H. subst ls. apply learner_either in G as (_ & ->). split; [reflexivity|]. split; [split; reflexivity|]. intros ->.
  destruct ml_m as [l|]; [|discriminate]. bi M lx Lx. apply ok_inj in M. subst mm. exists l. split; [reflexivity|split; reflexivity].
Qed.
Lemma did_made ml_g ml_m nf nr sc norm rule thr draw C w0 : did_init L rd fr s ml_g ml_m nf nr (PStr sc) norm rule thr draw = Ok (C, w0) ->
  exists c mc nm th st, binary_treatment fr s c /\
    C = with_clusters fr s (did_ctx L mc n c (String.eqb sc "observational") nm true th (covariates fr s c) (outcome fr s) (col fr c) st) /\ soundly_reached C w0 /\
    mc_order mc = rd_order rd /\ runs_on mc "ml_g" ml_g (ly_classifier ml_g) /\ (String.eqb sc "observational" = true -> exists l, ml_m = Some l /\ runs_on mc "ml_m" l true) /\ norm = PBool nm /\ thr = PFloat th /\ check_trimming true (PFloat th) = Ok tt.
Proof.
  intro H. unfold did_init in H. bi H w B. ri H Zn. ri H D. bi H sc' Sc. apply score_iff in Sc as (Q & _). injection Q as <-. bi H nm Nm. bi H w' Rw. cbv zeta in H. bi H ls Ls. bi H th T. apply ok_inj in H. injection H as <- <-.
  destruct (one_binary_r D) as (c & Ec & Bt). apply did_ls in Ls as (L1 & L2 & L3). apply bool_iff in Nm. apply trimming_th in T as (T2 & T3).
  rewrite outcome_col, active_covariates, Ec. rewrite Ec in Rw. pose proof Bt as (Q & _). rewrite Q. cbn [hd].
  eexists c, _, nm, th, _. split; [exact Bt|]. split; [reflexivity|].
  split; [eapply made_strat; [exact B|exact Rw|reflexivity|unfold dcols, roles; rewrite Q; reflexivity|reflexivity..]|]. split; [exact L1|]. split; [exact L2|]. split; [exact L3|]. split; [exact Nm|]. split; [exact T2|exact T3].
Qed.
Lemma cs_made ml_g ml_m nf nr sc norm rule thr draw C w0 : cs_init L rd fr s ml_g ml_m nf nr (PStr sc) norm rule thr draw = Ok (C, w0) ->
  exists c tc mc nm th st, binary_treatment fr s c /\ M_Data.r_t roles = Some tc /\ S_Data.zero_one_column fr tc /\
    C = with_clusters fr s (cs_ctx L mc n c (String.eqb sc "observational") nm true th (covariates fr s c) (outcome fr s) (col fr c) (col fr tc) st) /\ soundly_reached C w0 /\
    mc_order mc = rd_order rd /\ runs_on mc "ml_g" ml_g (ly_classifier ml_g) /\ (String.eqb sc "observational" = true -> exists l, ml_m = Some l /\ runs_on mc "ml_m" l true) /\ norm = PBool nm /\ thr = PFloat th /\ check_trimming true (PFloat th) = Ok tt.
Proof.
  intro H. unfold cs_init in H. bi H w B. ri H Zn. ri H D. destruct arrays_r as (_ & _ & At & _). rewrite At in H. destruct (M_Data.r_t roles) as [tc|] eqn:Et; [|discriminate]. ri H Zt. apply zero_one_iff in Zt.
  bi H sc' Sc. apply score_iff in Sc as (Q & _). injection Q as <-. bi H nm Nm. cbv zeta in H. bi H w' Rw. bi H ls Ls. bi H th T. apply ok_inj in H. injection H as <- <-.
  destruct (one_binary_r D) as (c & Ec & Bt). apply did_ls in Ls as (L1 & L2 & L3). apply bool_iff in Nm. apply trimming_th in T as (T2 & T3).
  rewrite outcome_col, active_covariates, Ec. rewrite Ec in Rw. pose proof Bt as (Q & _). rewrite Q. cbn [hd].
  eexists c, tc, _, nm, th, _. split; [exact Bt|]. split; [reflexivity|]. split; [exact Zt|]. split; [reflexivity|].
  split; [eapply made_strat; [exact B|exact Rw|reflexivity|unfold dcols, roles; rewrite Q; reflexivity|reflexivity..]|]. split; [exact L1|]. split; [exact L2|]. split; [exact L3|]. split; [exact Nm|]. split; [exact T2|exact T3].
Qed.
Lemma ssm_made tts ml_g ml_pi ml_m nf nr sc norm rule thr draw C w0 : ssm_init L rd fr s tts ml_g ml_pi ml_m nf nr (PStr sc) norm rule thr draw = Ok (C, w0) ->
  exists sel mc nm th st, M_Data.r_s roles = Some sel /\
    C = with_clusters fr s (if String.eqb sc "nonignorable" then ssm_non_ctx L mc n tts dcols nm true th (x_of fr s) (feats fr (M_Data.optl (M_Data.r_z roles))) (outcome fr s) (d_of fr s) (col fr sel) st
                            else ssm_ctx L mc n dcols nm true th (x_of fr s) (outcome fr s) (d_of fr s) (col fr sel) st) /\ soundly_reached C w0 /\
    mc_order mc = rd_order rd /\ clone_of L mc "ml_g" ml_g (ly_classifier ml_g) /\ clone_of L mc "ml_pi" ml_pi true /\ clone_of L mc "ml_m" ml_m true /\ norm = PBool nm /\ thr = PFloat th /\ check_trimming true (PFloat th) = Ok tt.
Proof.
  intro H. unfold ssm_init in H. bi H w B. bi H th T. ri H Zn. bi H sc' Sc. apply score_iff in Sc as (Q & _). injection Q as <-. destruct arrays_r as (_ & Az & _ & As & _). rewrite As in H. destruct (M_Data.r_s roles) as [sel|] eqn:Es; [|discriminate].
  cbv zeta in H. bi H w' Rw. bi H gc G. bi H pp Mp. bi H mm M. bi H u Og. bi H nm Nm. apply ok_inj in H. injection H as <- <-.
  apply learner_either in G as (_ & ->). apply bool_iff in Nm. apply trimming_th in T as (T2 & T3). rewrite outcome_col, Az.
  eexists sel, _, nm, th, _. split; [reflexivity|]. split; [reflexivity|].
  split; [eapply made_strat; [exact B|exact Rw|destruct (String.eqb sc "nonignorable"); reflexivity..]|]. split; [reflexivity|]. split; [split; reflexivity|]. split; [split; reflexivity|]. split; [split; reflexivity|]. split; [exact Nm|]. split; [exact T2|exact T3].
Qed.
Lemma pliv_made proj ml_l ml_m ml_r ml_g nf nr sc draw C w0 : pliv_init L rd fr s proj ml_l ml_m ml_r ml_g nf nr (PStr sc) draw = Ok (C, w0) ->
  exists z more mc, M_Data.r_z roles = Some (z :: more) /\ (more <> [] -> sc = "partialling out") /\
    C = with_clusters fr s (match more with
          | [] => pliv_ctx L mc n dcols (String.eqb sc "IV-type") (x_of fr s) (outcome fr s) (d_of fr s) (col fr z)
          | _ => asserting (one_key ["ml_l"; "ml_m"; "ml_r"] (map (fun c => "ml_m_" ++ c)%string (z :: more)))
                   (pliv_several_ctx L mc n proj dcols (x_of fr s) (outcome fr s) (d_of fr s) (map (fun c => (c, col fr c)) (z :: more))) end) /\ soundly_reached C w0 /\
    mc_order mc = rd_order rd /\ runs_on mc "ml_l" ml_l false /\ runs_on mc "ml_m" ml_m false /\ runs_on mc "ml_r" ml_r false /\
    (String.eqb sc "IV-type" = true -> exists l, ml_g = Some l /\ runs_on mc "ml_g" l false).
Proof.
  intro H. unfold pliv_init in H. bi H w B. destruct arrays_r as (_ & Az & _). rewrite Az in H. destruct (M_Data.r_z roles) as [[|z more]|] eqn:Ez; try discriminate.
  bi H sc' Sc. apply score_iff in Sc as (Q & Qs). injection Q as <-. bi H cla Ll. bi H clb Lm. bi H clc Lr. cbv zeta in H. bi H gq G. apply ok_inj in H. injection H as <- <-. rewrite outcome_col.
  eexists z, more, _. split; [reflexivity|]. split. { intro Nm. destruct more; [contradiction|]. destruct Qs as [<-|[]]. reflexivity. }
  split; [reflexivity|]. split; [destruct more; (eapply made_plain; [exact B|reflexivity..])|]. split; [reflexivity|]. split; [split; reflexivity|]. split; [split; reflexivity|]. split; [split; reflexivity|].
  intro I. rewrite I in G. destruct ml_g as [l|]; [|discriminate]. bi G lx Lx. apply ok_inj in G. subst gq. exists l. split; [reflexivity|split; reflexivity].
Qed.
Lemma pliv_z_made proj dummy ml_r nf nr score draw C w0 : pliv_partial_z L rd fr s proj dummy ml_r nf nr score draw = Ok (C, w0) ->
  exists mc, C = with_clusters fr s (pliv_z_ctx L mc n dcols (x_of fr s) (feats fr (M_Data.optl (M_Data.r_z roles))) (outcome fr s) (d_of fr s)) /\ soundly_reached C w0 /\
    mc_order mc = rd_order rd /\ runs_on mc "ml_r" ml_r false.
Proof.
  intro H. unfold pliv_partial_z in H. bi H p Pi. bi H sc' Sc. bi H lr Lr. cbv zeta in H. apply ok_inj in H. injection H as <- <-. destruct arrays_r as (_ & Az & _). rewrite Az, outcome_col.
  apply score_iff in Sc as (-> & _). unfold pliv_init in Pi. bi Pi w B. rewrite Az in Pi. destruct (M_Data.r_z roles) as [[|z more]|] eqn:Ez; try discriminate. bi Pi sc2 S2. bi Pi cla Ll. bi Pi clb Lm. bi Pi clc Lr2. cbv zeta in Pi. bi Pi gq G. apply ok_inj in Pi. subst p. cbn [snd].
  eexists. split; [reflexivity|]. split; [eapply made_plain; [exact B|reflexivity..]|]. split; [reflexivity|split; reflexivity].
Qed.
Lemma pliv_xz_made proj ml_l ml_m ml_r nf nr score draw C w0 : pliv_partial_xz L rd fr s proj ml_l ml_m ml_r nf nr score draw = Ok (C, w0) ->
  exists mc, C = with_clusters fr s (pliv_xz_ctx L mc n dcols (x_of fr s) (feats fr (M_Data.optl (M_Data.r_z roles))) (outcome fr s) (d_of fr s)) /\ soundly_reached C w0 /\
    mc_order mc = rd_order rd /\ runs_on mc "ml_l" ml_l false /\ runs_on mc "ml_m" ml_m false /\ runs_on mc "ml_r" ml_r false.
Proof.
  intro H. unfold pliv_partial_xz in H. bi H p Pi. bi H sc' Sc. cbv zeta in H. apply ok_inj in H. injection H as <- <-. destruct arrays_r as (_ & Az & _). rewrite Az, outcome_col.
  apply score_iff in Sc as (-> & _). unfold pliv_init in Pi. bi Pi w B. rewrite Az in Pi. destruct (M_Data.r_z roles) as [[|z more]|] eqn:Ez; try discriminate. bi Pi sc2 S2. bi Pi cla Ll. bi Pi clb Lm. bi Pi clc Lr2. cbv zeta in Pi. bi Pi gq G. apply ok_inj in Pi. subst p. cbn [snd].
  eexists. split; [reflexivity|]. split; [eapply made_plain; [exact B|reflexivity..]|]. split; [reflexivity|]. split; [split; reflexivity|]. split; split; reflexivity.
Qed.
End Made.

(** Which constructor calls succeed. *)
From Verif Require Import L_DataProps.
From Verif Require Export L_InitArgs.
From Coq Require Import Lia Lra.
Local Open Scope R_scope.
Local Open Scope res_scope.
Local Open Scope string_scope.

Section Accept.
Context {E P : Type}.
Variable L : learner E row P.
Variable rd : randomness.
Variable f : M_Data.frame.
Variable s : M_Data.ddata.
Hypothesis Con : S_Data.constructed f s.
Let n := M_Data.frows f.
Let roles := M_Data.dd_roles s.

Lemma arrays : M_Data.c_y s = M_Data.r_y roles /\ M_Data.c_z s = M_Data.r_z roles /\ M_Data.c_t s = M_Data.r_t roles /\ M_Data.c_s s = M_Data.r_s roles /\ M_Data.c_cl s = M_Data.r_cl roles /\ In (M_Data.c_d s) (M_Data.r_d roles).
Proof. exact (arrays_reachable f s (S_Data.R_new f s Con)). Qed.
Lemma one_treat_iff : one_treat s = true <-> M_Data.r_d roles = [M_Data.c_d s].
Proof.
  destruct arrays as (_ & _ & _ & _ & _ & D). unfold one_treat. fold roles. destruct (M_Data.r_d roles) as [|c [|c' l]]; split; intro H; try discriminate; try reflexivity.
  destruct D as [->|[]]. reflexivity.
Qed.
Lemma one_binary : one_treat s && zero_one_col f (M_Data.c_d s) = true <-> binary_treatment f s (M_Data.c_d s).
Proof. rewrite andb_true_iff, one_treat_iff, zero_one_iff. unfold binary_treatment. fold roles. tauto. Qed.
Lemma binary_active c : binary_treatment f s c -> c = M_Data.c_d s.
Proof. intros (D & _). destruct arrays as (_ & _ & _ & _ & _ & A). fold roles in D. rewrite D in A. destruct A as [->|[]]. reflexivity. Qed.
Lemma no_z_iff : no_z s = true <-> no_instruments s.
Proof. unfold no_z, no_instruments. destruct (M_Data.r_z _); split; congruence. Qed.
Lemma outcome_iff (l : pylearner E) c : check_learner l true true = Ok c -> (check_outcome c (M_Data.dd_by s) = Ok tt <-> outcome_learner f s l).
Proof.
  intro H. apply learner_either in H as (A & ->). unfold check_outcome, outcome_learner, require. destruct (binary_constructed f s Con) as (B & _). rewrite <- B.
  destruct (ly_classifier l), (M_Data.dd_by s); cbn; split; intro H; try discriminate; auto; destruct H as (_ & H); specialize (H eq_refl); discriminate.
Qed.
Ltac bi H x X := apply bind_ok in H as (x & X & H).
Ltac ri H X := apply require_ok in H as (X & H).
Lemma succ_bind {A B} (m : result A) x (k : A -> result B) : m = Ok x -> succeeds (k x) -> succeeds (bind m k).
Proof. intros -> H. exact H. Qed.
Lemma succ_require {A} b e (k : result A) : b = true -> succeeds k -> succeeds (require b e k).
Proof. intros -> H. exact H. Qed.
Ltac sb H := eapply succ_bind; [exact H|].
Ltac sr H := apply succ_require; [exact H|].
Hypothesis Un : unclustered s.
Lemma Cl : M_Data.c_cl s = None.
Proof. destruct arrays as (_ & _ & _ & _ & C & _). rewrite C. exact Un. Qed.

Lemma drawn nf nr draw v : split_args n nf nr draw (Some v) -> (draw = PBool true -> whole_numbers n v) ->
  exists w w', @base_new P rd f s nf nr draw = Ok w /\ redraw rd f s v draw w = Ok w' /\ m_n_rep (w_obj w') = Z.to_nat (int_val nr).
Proof.
  intros Sp W. destruct (proj2 (@base_new_args P rd f s Cl nf nr draw) (split_args_base _ _ _ _ _ Sp)) as (w & B). destruct (redraw_args rd f s Cl nf nr draw w v B) as (R1 & R2).
  destruct (proj2 R1 (conj W Sp)) as (w' & Rw). exists w, w'. split; [exact B|]. split; [exact Rw|]. apply R2, Rw.
Qed.
Lemma started nf nr draw v w w' : @base_new P rd f s nf nr draw = Ok w -> redraw rd f s v draw w = Ok w' ->
  split_args n nf nr draw (Some v) /\ (draw = PBool true -> whole_numbers n v) /\ m_n_rep (w_obj w') = Z.to_nat (int_val nr).
Proof.
  intros B Rw. destruct (redraw_args rd f s Cl nf nr draw w v B) as (R1 & R2). destruct (proj1 R1 (ex_intro _ _ Rw)) as (W & Sp). split; [exact Sp|]. split; [exact W|apply R2, Rw].
Qed.

Lemma irm_accepts ml_g ml_m nf nr score wa norm rule thr draw :
  succeeds (irm_init L rd f s ml_g ml_m nf nr score wa norm rule thr draw) <->
  no_instruments s /\ (exists c, binary_treatment f s c /\ split_args n nf nr draw (Some (col f c))) /\
  (score = PStr "ATE" /\ weights_ok wa ScATE n (Z.to_nat (int_val nr)) \/ score = PStr "ATTE" /\ weights_ok wa ScATTE n (Z.to_nat (int_val nr))) /\
  outcome_learner f s ml_g /\ predicts_probabilities ml_m /\ boolean norm /\ trimming_ok rule thr.
Proof.
  split.
  - intros (o & H). unfold irm_init in H. bi H w B. ri H Zn. ri H D. bi H sc Sc. bi H w' Rw. bi H g G. bi H m M. bi H u Og. bi H nm Nm. bi H th T. bi H u' W. destruct u, u'.
    apply no_z_iff in Zn. apply one_binary in D. apply score_iff in Sc as (-> & Sc). destruct (started _ _ _ _ _ _ B Rw) as (Sp & _ & Nr).
    rewrite Nr in W. apply accepted_iff in W. apply (outcome_iff ml_g g G) in Og. apply learner_proba in M as (M & _). apply bool_iff in Nm. apply trimming_iff in T as (T1 & T2 & T3).
    split; [exact Zn|]. split; [exists (M_Data.c_d s); split; [exact D|exact Sp]|].
    split. { destruct Sc as [<-|[<-|[]]]; [left|right]; split; try reflexivity; exact W. }
    split; [exact Og|]. split; [exact M|]. split; [eexists; exact Nm|]. split; [exact T1|eauto].
  - intros (Zn & (c & Bt & Sp) & Sc & Og & Pm & (nm & Nm) & T1 & t & T2 & T3). pose proof (binary_active c Bt) as ->.
    destruct (drawn _ _ _ _ Sp) as (w & w' & B & Rw & Nr). { intros _; apply zero_one_whole, Bt. }
    assert (Gc : check_learner ml_g true true = Ok (ly_classifier ml_g)) by (apply learner_either; split; [apply Og|reflexivity]).
    unfold irm_init. sb B. sr (proj2 no_z_iff Zn). sr (proj2 one_binary Bt).
    assert (Sc' : exists sc, check_score score ["ATE"; "ATTE"] = Ok sc /\ weights_ok wa (if String.eqb sc "ATTE" then ScATTE else ScATE) n (Z.to_nat (int_val nr))).
    { destruct Sc as [(-> & W)|(-> & W)]; eexists; (split; [reflexivity|exact W]). }
    destruct Sc' as (sc & S1 & S2). sb S1. sb Rw. sb Gc. sb (proj2 (learner_proba ml_m true) (conj Pm eq_refl)). sb (proj2 (outcome_iff ml_g _ Gc) Og). sb (proj2 (bool_iff _ _) Nm).
    sb (proj2 (trimming_iff rule thr t) (conj T1 (conj T2 T3))). rewrite Nr. sb (proj2 (accepted_iff _ _ _ _) S2). eexists; reflexivity.
Qed.

(** APO: the number of treated rows is compared with five. *)
Lemma count_sum k v (r : R) : sumf k (fun i => if Req_EM_T (v i) r then 1 else 0) = INR (rows_with k v r).
Proof.
  unfold rows_with. induction k as [|k IH]; [reflexivity|]. rewrite sumf_S, IH, seq_S, filter_app, app_length. cbn [Nat.add filter]. rewrite plus_INR. destruct (Req_EM_T (v k) r); cbn; ring.
Qed.
Lemma level_count level : rleb 5 (sumf n (treated_at f s level)) = true <-> exists r, level_number level = Some r /\ (5 <= rows_with n (col f (M_Data.c_d s)) r)%nat.
Proof.
  unfold treated_at. change (level_of level) with (level_number level). destruct (level_number level) as [r|].
  - rewrite count_sum. unfold rleb. destruct (Rle_dec 5 _) as [a|a]; split; intro H; try discriminate; try reflexivity.
    + exists r. split; [reflexivity|]. apply INR_le. cbn. lra.
    + destruct H as (r' & Q & H). injection Q as <-. exfalso. apply a. apply le_INR in H. cbn in H. lra.
  - unfold rleb. destruct (Rle_dec 5 _) as [a|a]; split; intro H; try discriminate.
    + exfalso. assert (sumf n (fun _ : nat => 0) = 0) by (clear; induction n as [|k IH]; [reflexivity|rewrite sumf_S, IH; ring]). lra.
    + reflexivity.
    + destruct H as (r & Q & _). discriminate.
Qed.
Lemma apo_accepts ml_g ml_m level nf nr score wa norm rule thr draw :
  succeeds (apo_init L rd f s ml_g ml_m level nf nr score wa norm rule thr draw) <->
  no_instruments s /\ (exists c r, M_Data.r_d roles = [c] /\ level_number level = Some r /\ (5 <= rows_with n (col f c) r)%nat /\ (draw = PBool true -> whole_numbers n (col f c)) /\ split_args n nf nr draw (Some (col f c))) /\
  score = PStr "APO" /\ weights_ok wa ScATE n (Z.to_nat (int_val nr)) /\
  outcome_learner f s ml_g /\ predicts_probabilities ml_m /\ boolean norm /\ trimming_ok rule thr.
Proof.
  assert (One : Nat.leb (length (M_Data.r_d roles)) 1 = true <-> M_Data.r_d roles = [M_Data.c_d s]).
  { rewrite <- one_treat_iff. unfold one_treat. fold roles. destruct arrays as (_ & _ & _ & _ & _ & D). destruct (M_Data.r_d roles) as [|c [|c' l]]; cbn; try tauto; try (split; discriminate); destruct D. }
  split.
  - intros (o & H). unfold apo_init in H. bi H w B. cbv zeta in H. ri H D. ri H Zn. ri H Lv. bi H sc Sc. bi H w' Rw. bi H g G. bi H m M. bi H u Og. bi H nm Nm. bi H th T. bi H u' W. destruct u, u'.
    apply no_z_iff in Zn. apply One in D. apply score_iff in Sc as (-> & Sc). destruct (started _ _ _ _ _ _ B Rw) as (Sp & Wh & Nr). apply level_count in Lv as (r & Lv & Five).
    rewrite Nr in W. apply accepted_iff in W. apply (outcome_iff ml_g g G) in Og. apply learner_proba in M as (M & _). apply bool_iff in Nm. apply trimming_iff in T as (T1 & T2 & T3).
    split; [exact Zn|]. split; [exists (M_Data.c_d s), r; auto|]. split; [destruct Sc as [<-|[]]; reflexivity|]. split; [exact W|].
    split; [exact Og|]. split; [exact M|]. split; [eexists; exact Nm|]. split; [exact T1|eauto].
  - intros (Zn & (c & r & D & Lv & Five & Wh & Sp) & -> & W & Og & Pm & (nm & Nm) & T1 & t & T2 & T3).
    assert (Ec : c = M_Data.c_d s) by (destruct arrays as (_ & _ & _ & _ & _ & A); rewrite D in A; destruct A as [->|[]]; reflexivity). subst c.
    destruct (drawn _ _ _ _ Sp Wh) as (w & w' & B & Rw & Nr).
    assert (Gc : check_learner ml_g true true = Ok (ly_classifier ml_g)) by (apply learner_either; split; [apply Og|reflexivity]).
    unfold apo_init. sb B. cbv zeta. sr (proj2 One D). sr (proj2 no_z_iff Zn). sr (proj2 (level_count level) (ex_intro _ r (conj Lv Five))).
    sb (eq_refl : check_score (PStr "APO") ["APO"] = Ok "APO"). sb Rw. sb Gc. sb (proj2 (learner_proba ml_m true) (conj Pm eq_refl)). sb (proj2 (outcome_iff ml_g _ Gc) Og). sb (proj2 (bool_iff _ _) Nm).
    sb (proj2 (trimming_iff rule thr t) (conj T1 (conj T2 T3))). rewrite Nr. sb (proj2 (accepted_iff _ _ _ _) W). eexists; reflexivity.
Qed.

(** IIVM. *)
Lemma subgroups_iff a p : check_subgroups a = Ok p -> subgroups_ok a.
Proof.
  destruct a as [|l|]; cbn [check_subgroups subgroups_ok]; [auto| |discriminate]. intro H. ri H K. apply andb_true_iff in K as (K1 & K2). rewrite forallb_forall in K1, K2.
  bi H va QA. bi H vb QB. split.
  - intro k. split; intro Hk.
    + specialize (K2 _ Hk). apply existsb_exists in K2 as (z & Q & Ez). apply String.eqb_eq in Ez. subst z. cbn in Q. intuition.
    + assert (Q : smem k (map fst l) = true) by (apply K1; cbn; intuition). apply existsb_exists in Q as (z & Q & Ez). apply String.eqb_eq in Ez. now subst z.
  - intros k v [-> | ->] G; [rewrite G in QA; apply bool_iff in QA|rewrite G in QB; apply bool_iff in QB]; eexists; eassumption.
Qed.
Lemma in_get {A} k (l : list (string * A)) : In k (map fst l) -> exists v, dict_get k l = Some v.
Proof. induction l as [|[k' v] l IH]; [intros []|]. cbn. destruct (String.eqb_spec k k') as [->|N]; [eauto|]. intros [->|H]; [contradiction|auto]. Qed.
Lemma subgroups_ok_check a : subgroups_ok a -> succeeds (check_subgroups a).
Proof.
  destruct a as [|l|]; cbn [check_subgroups subgroups_ok]; [eexists; reflexivity| |contradiction]. intros (K & V).
  assert (M : forall k, smem k (map fst l) = true <-> k = "always_takers" \/ k = "never_takers").
  { intro k. rewrite <- K. unfold smem. rewrite existsb_exists. split; [intros (z & Q & Ez); apply String.eqb_eq in Ez; now subst z|]. intro Q. exists k. split; [exact Q|apply String.eqb_refl]. }
  apply succ_require.
  { apply andb_true_iff. rewrite !forallb_forall. split; intros k Hk; [apply M; cbn in Hk; intuition|]. apply K in Hk. destruct Hk as [-> | ->]; reflexivity. }
  destruct (in_get "always_takers" l) as (a & A); [apply K; auto|]. destruct (in_get "never_takers" l) as (b & B); [apply K; auto|]. rewrite A, B.
  destruct (V "always_takers" a (or_introl eq_refl) A) as (x & ->). destruct (V "never_takers" b (or_intror eq_refl) B) as (y & ->). eexists; reflexivity.
Qed.
Lemma iivm_accepts ml_g ml_m ml_r nf nr score sg norm rule thr draw :
  succeeds (iivm_init L rd f s ml_g ml_m ml_r nf nr score sg norm rule thr draw) <->
  (exists c z, binary_treatment f s c /\ M_Data.r_z roles = Some [z] /\ S_Data.zero_one_column f z /\ split_args n nf nr draw (Some (fun i => col f c i + 2 * col f z i))) /\
  score = PStr "LATE" /\ outcome_learner f s ml_g /\ predicts_probabilities ml_m /\ predicts_probabilities ml_r /\ boolean norm /\ trimming_ok rule thr /\ subgroups_ok sg.
Proof.
  destruct arrays as (_ & Az & _). split.
  - intros (o & H). unfold iivm_init in H. bi H w B. ri H D. apply one_binary in D. rewrite Az in H. destruct (M_Data.r_z roles) as [[|z [|z' l]]|] eqn:Ez; try discriminate.
    ri H Zn. apply zero_one_iff in Zn. bi H sc Sc. cbv zeta in H. bi H w' Rw. bi H g G. bi H m M. bi H r Mr. bi H u Og. bi H nm Nm. bi H th T. bi H p W. destruct u.
    apply score_iff in Sc as (-> & Sc). destruct (started _ _ _ _ _ _ B Rw) as (Sp & Wh & Nr).
    apply (outcome_iff ml_g g G) in Og. apply learner_proba in M as (M & _). apply learner_proba in Mr as (Mr & _). apply bool_iff in Nm. apply trimming_iff in T as (T1 & T2 & T3). apply subgroups_iff in W.
    split; [exists (M_Data.c_d s), z; auto|]. split; [destruct Sc as [<-|[]]; reflexivity|]. split; [exact Og|]. split; [exact M|]. split; [exact Mr|]. split; [eexists; exact Nm|]. split; [split; [exact T1|eauto]|exact W].
  - intros ((c & z & Bt & Ez & Zn & Sp) & -> & Og & Pm & Pr & (nm & Nm) & (T1 & t & T2 & T3) & W). pose proof (binary_active c Bt) as ->.
    destruct (drawn _ _ _ _ Sp) as (w & w' & B & Rw & Nr). { intros _. apply sum_whole; apply zero_one_whole; [apply Bt|exact Zn]. }
    assert (Gc : check_learner ml_g true true = Ok (ly_classifier ml_g)) by (apply learner_either; split; [apply Og|reflexivity]). destruct (subgroups_ok_check _ W) as (p & Wp).
    unfold iivm_init. sb B. sr (proj2 one_binary Bt). rewrite Az, Ez. sr (proj2 (zero_one_iff f z) Zn).
    sb (eq_refl : check_score (PStr "LATE") ["LATE"] = Ok "LATE"). cbv zeta. sb Rw. sb Gc. sb (proj2 (learner_proba ml_m true) (conj Pm eq_refl)). sb (proj2 (learner_proba ml_r true) (conj Pr eq_refl)).
    sb (proj2 (outcome_iff ml_g _ Gc) Og). sb (proj2 (bool_iff _ _) Nm). sb (proj2 (trimming_iff rule thr t) (conj T1 (conj T2 T3))). sb Wp. eexists; reflexivity.
Qed.

(** DID. *)
Lemma did_learners_iff obs (ml_g : pylearner E) (ml_m : option (pylearner E)) : succeeds (did_learners obs ml_g ml_m (M_Data.dd_by s)) <-> outcome_learner f s ml_g /\ (obs = true -> exists l, ml_m = Some l /\ predicts_probabilities l).
Proof.
  unfold did_learners. split.
  - intros (o & H). bi H g G. bi H m M. bi H u Og. destruct u. apply (outcome_iff ml_g g G) in Og. split; [exact Og|]. intros ->. destruct ml_m as [l|]; [|discriminate]. bi M c Lc. apply learner_proba in Lc as (Lc & _). eauto.
  - intros (Og & Ob). assert (Gc : check_learner ml_g true true = Ok (ly_classifier ml_g)) by (apply learner_either; split; [apply Og|reflexivity]). sb Gc.
    destruct obs.
    + destruct (Ob eq_refl) as (l & -> & Pl). eapply succ_bind; [rewrite (proj2 (learner_proba l true) (conj Pl eq_refl)); reflexivity|]. sb (proj2 (outcome_iff ml_g _ Gc) Og). eexists; reflexivity.
    + eapply succ_bind; [reflexivity|]. sb (proj2 (outcome_iff ml_g _ Gc) Og). eexists; reflexivity.
Qed.
Lemma did_score_cases score (ml_m : option (pylearner E)) : did_score_ok score ml_m -> exists sc, check_score score ["observational"; "experimental"] = Ok sc /\ (String.eqb sc "observational" = true -> exists l, ml_m = Some l /\ predicts_probabilities l).
Proof. intros [(-> & Q)| ->]; eexists; (split; [reflexivity|]); [intros _; exact Q|discriminate]. Qed.
Lemma did_score_back score (ml_m : option (pylearner E)) sc : check_score score ["observational"; "experimental"] = Ok sc -> (String.eqb sc "observational" = true -> exists l, ml_m = Some l /\ predicts_probabilities l) -> did_score_ok score ml_m.
Proof. intros Sc Q. apply score_iff in Sc as (-> & [<-|[<-|[]]]); [left|right]; auto. Qed.
Lemma did_accepts ml_g ml_m nf nr score norm rule thr draw :
  succeeds (did_init L rd f s ml_g ml_m nf nr score norm rule thr draw) <->
  no_instruments s /\ (exists c, binary_treatment f s c /\ split_args n nf nr draw (Some (col f c))) /\
  did_score_ok score ml_m /\ outcome_learner f s ml_g /\ boolean norm /\ trimming_ok rule thr.
Proof.
  split.
  - intros (o & H). unfold did_init in H. bi H w B. ri H Zn. ri H D. bi H sc Sc. bi H nm Nm. bi H w' Rw. bi H ls Ls. bi H th T.
    apply no_z_iff in Zn. apply one_binary in D. destruct (started _ _ _ _ _ _ B Rw) as (Sp & _ & _). destruct (proj1 (did_learners_iff _ _ _) (ex_intro _ _ Ls)) as (Og & Ob). apply bool_iff in Nm. apply trimming_iff in T as (T1 & T2 & T3).
    split; [exact Zn|]. split; [exists (M_Data.c_d s); auto|]. split; [eapply did_score_back; eassumption|]. split; [exact Og|]. split; [eexists; exact Nm|]. split; [exact T1|eauto].
  - intros (Zn & (c & Bt & Sp) & Sc & Og & (nm & Nm) & T1 & t & T2 & T3). pose proof (binary_active c Bt) as ->.
    destruct (drawn _ _ _ _ Sp) as (w & w' & B & Rw & Nr). { intros _; apply zero_one_whole, Bt. } destruct (did_score_cases _ _ Sc) as (sc & S1 & S2). destruct (proj2 (did_learners_iff _ ml_g ml_m) (conj Og S2)) as (ls & Ls).
    unfold did_init. sb B. sr (proj2 no_z_iff Zn). sr (proj2 one_binary Bt). sb S1. sb (proj2 (bool_iff _ _) Nm). sb Rw. sb Ls. sb (proj2 (trimming_iff rule thr t) (conj T1 (conj T2 T3))). eexists; reflexivity.
Qed.
Lemma cs_accepts ml_g ml_m nf nr score norm rule thr draw :
  succeeds (cs_init L rd f s ml_g ml_m nf nr score norm rule thr draw) <->
  no_instruments s /\ (exists c t, binary_treatment f s c /\ M_Data.r_t roles = Some t /\ S_Data.zero_one_column f t /\ split_args n nf nr draw (Some (fun i => col f c i + 2 * col f t i))) /\
  did_score_ok score ml_m /\ outcome_learner f s ml_g /\ boolean norm /\ trimming_ok rule thr.
Proof.
  destruct arrays as (_ & _ & At & _). split.
  - intros (o & H). unfold cs_init in H. bi H w B. ri H Zn. ri H D. rewrite At in H. destruct (M_Data.r_t roles) as [tc|] eqn:Et; [|discriminate]. ri H Zt. bi H sc Sc. bi H nm Nm. cbv zeta in H. bi H w' Rw. bi H ls Ls. bi H th T.
    apply no_z_iff in Zn. apply one_binary in D. apply zero_one_iff in Zt. destruct (started _ _ _ _ _ _ B Rw) as (Sp & _ & _). destruct (proj1 (did_learners_iff _ _ _) (ex_intro _ _ Ls)) as (Og & Ob). apply bool_iff in Nm. apply trimming_iff in T as (T1 & T2 & T3).
    split; [exact Zn|]. split; [exists (M_Data.c_d s), tc; auto|]. split; [eapply did_score_back; eassumption|]. split; [exact Og|]. split; [eexists; exact Nm|]. split; [exact T1|eauto].
  - intros (Zn & (c & tc & Bt & Et & Zt & Sp) & Sc & Og & (nm & Nm) & T1 & t & T2 & T3). pose proof (binary_active c Bt) as ->.
    destruct (drawn _ _ _ _ Sp) as (w & w' & B & Rw & Nr). { intros _. apply sum_whole; apply zero_one_whole; [apply Bt|exact Zt]. } destruct (did_score_cases _ _ Sc) as (sc & S1 & S2). destruct (proj2 (did_learners_iff _ ml_g ml_m) (conj Og S2)) as (ls & Ls).
    unfold cs_init. sb B. sr (proj2 no_z_iff Zn). sr (proj2 one_binary Bt). rewrite At, Et. sr (proj2 (zero_one_iff f tc) Zt). sb S1. sb (proj2 (bool_iff _ _) Nm). cbv zeta. sb Rw. sb Ls. sb (proj2 (trimming_iff rule thr t) (conj T1 (conj T2 T3))). eexists; reflexivity.
Qed.

(** SSM: neither the treatment nor the selection is required to be binary. *)
Lemma ssm_accepts tts ml_g ml_pi ml_m nf nr score norm rule thr draw :
  succeeds (ssm_init L rd f s tts ml_g ml_pi ml_m nf nr score norm rule thr draw) <->
  (exists sel, M_Data.r_s roles = Some sel /\ let strata := fun i => col f (M_Data.c_d s) i + 2 * col f sel i in (draw = PBool true -> whole_numbers n strata) /\ split_args n nf nr draw (Some strata)) /\
  (score = PStr "missing-at-random" \/ score = PStr "nonignorable" /\ ~ no_instruments s) /\
  outcome_learner f s ml_g /\ predicts_probabilities ml_pi /\ predicts_probabilities ml_m /\ boolean norm /\ trimming_ok rule thr.
Proof.
  assert (Oc : forall l c, check_learner l true true = Ok c -> (check_outcome c (M_Data.binary_col f (M_Data.r_y (M_Data.dd_roles s))) = Ok tt <-> @outcome_learner E f s l)).
  { intros l c Hc. apply learner_either in Hc as (A & ->). change (M_Data.binary_col f (M_Data.r_y (M_Data.dd_roles s))) with (zero_one_col f (M_Data.r_y (M_Data.dd_roles s))).
    assert (Zi := zero_one_iff f (M_Data.r_y (M_Data.dd_roles s))). unfold check_outcome, outcome_learner, require. rewrite <- Zi. destruct (ly_classifier l), (zero_one_col f (M_Data.r_y (M_Data.dd_roles s))); cbn; split; intro H; try discriminate; auto;
    destruct H as (_ & H); specialize (H eq_refl); discriminate. }
  destruct arrays as (_ & _ & _ & As & _). split.
  - intros (o & H). unfold ssm_init in H. bi H w B. bi H th T. ri H Zn. bi H sc Sc. rewrite As in H. destruct (M_Data.r_s roles) as [sel|] eqn:Es; [|discriminate]. cbv zeta in H. bi H w' Rw. bi H g G. bi H p Mp. bi H m M. bi H u Og. bi H nm Nm. destruct u.
    destruct (started _ _ _ _ _ _ B Rw) as (Sp & Wh & _). apply (Oc ml_g g G) in Og. apply learner_proba in M as (M & _). apply learner_proba in Mp as (Mp & _). apply bool_iff in Nm. apply trimming_iff in T as (T1 & T2 & T3). apply score_iff in Sc as (-> & Sc).
    split; [exists sel; split; [reflexivity|]; cbv zeta; split; [exact Wh|exact Sp]|].
    split. { destruct Sc as [<-|[<-|[]]]; [left; reflexivity|right; split; [reflexivity|]]. cbn in Zn. rewrite <- no_z_iff. destruct (no_z s); [discriminate Zn|discriminate]. }
    split; [exact Og|]. split; [exact Mp|]. split; [exact M|]. split; [eexists; exact Nm|]. split; [exact T1|eauto].
  - intros ((sel & Es & Wh & Sp) & Sc & Og & Pp & Pm & (nm & Nm) & T1 & t & T2 & T3). destruct (drawn _ _ _ _ Sp Wh) as (w & w' & B & Rw & Nr).
    assert (Gc : check_learner ml_g true true = Ok (ly_classifier ml_g)) by (apply learner_either; split; [apply Og|reflexivity]).
    assert (Sc' : negb (match score with PStr sc => String.eqb sc "nonignorable" | _ => false end && no_z s) = true /\ succeeds (check_score score ["missing-at-random"; "nonignorable"])).
    { destruct Sc as [-> |(-> & Nz)]; split; [reflexivity|eexists; reflexivity| |eexists; reflexivity]. cbn. rewrite <- no_z_iff in Nz. destruct (no_z s); [contradiction Nz|]; reflexivity. }
    destruct Sc' as (S1 & sc & S2).
    unfold ssm_init. sb B. sb (proj2 (trimming_iff rule thr t) (conj T1 (conj T2 T3))). sr S1. sb S2. rewrite As, Es. cbv zeta. sb Rw. sb Gc. sb (proj2 (learner_proba ml_pi true) (conj Pp eq_refl)). sb (proj2 (learner_proba ml_m true) (conj Pm eq_refl)).
    sb (proj2 (Oc ml_g _ Gc) Og). sb (proj2 (bool_iff _ _) Nm). eexists; reflexivity.
Qed.

(** PLR. *)
Lemma plr_accepts ml_l ml_m ml_g nf nr score draw :
  succeeds (plr_init L rd f s ml_l ml_m ml_g nf nr score draw) <->
  no_instruments s /\ split_args n nf nr draw None /\
  (score = PStr "partialling out" \/ score = PStr "IV-type" /\ forall l, ml_g = Some l -> predicts_values l) /\
  predicts_values ml_l /\ predicts_either ml_m /\ (ly_classifier ml_m = true -> forall c, In c (M_Data.r_d roles) -> S_Data.zero_one_column f c).
Proof.
  destruct (binary_constructed f s Con) as (_ & B2 & B3). fold roles in B2.
  assert (Bt : forallb snd (M_Data.dd_bt s) = true <-> forall c, In c (M_Data.r_d roles) -> S_Data.zero_one_column f c).
  { rewrite forallb_forall, <- B2. split.
    - intros H c Hc. apply in_map_iff in Hc as ((c' & b) & <- & Hc). apply (B3 c' b Hc). exact (H _ Hc).
    - intros H (c & b) Hc. apply (B3 c b Hc), H. apply in_map_iff. exists (c, b). auto. }
  split.
  - intros (o & H). unfold plr_init in H. bi H w B. ri H Zn. apply no_z_iff in Zn. bi H sc Sc. bi H cla Ll. bi H mc Lm. cbv zeta in H. bi H g G. bi H u Bn.
    apply learner_value in Ll as (Ll & _). apply learner_either in Lm as (Lm & ->). apply score_iff in Sc as (-> & Sc).
    split; [exact Zn|]. split; [apply (@base_new_args P rd f s Cl); exists w; exact B|].
    split. { destruct Sc as [<-|[<-|[]]]; [right; split; [reflexivity|]|left; reflexivity]. intros l ->. cbn in G. bi G cld Lg. apply learner_value in Lg as (Lg & _). exact Lg. }
    split; [exact Ll|]. split; [exact Lm|]. intro Q. rewrite Q in Bn. cbn [negb orb] in Bn. ri Bn Q'. apply Bt, Q'.
  - intros (Zn & Sp & Sc & Ll & Lm & Bn). apply (@base_new_args P rd f s Cl) in Sp as (w & B).
    assert (S' : exists sc, check_score score ["IV-type"; "partialling out"] = Ok sc /\ (String.eqb sc "IV-type" = true -> forall l, ml_g = Some l -> predicts_values l)).
    { destruct Sc as [-> |(-> & Q)]; eexists; (split; [reflexivity|]); [discriminate|intros _; exact Q]. }
    destruct S' as (sc & S1 & S2). unfold plr_init. sb B. sr (proj2 no_z_iff Zn). sb S1. sb (proj2 (learner_value ml_l false) (conj Ll eq_refl)). sb (proj2 (learner_either ml_m _) (conj Lm eq_refl)). cbv zeta.
    assert (G : succeeds (match ml_g with
            | Some l => if String.eqb sc "IV-type" then let! _ := check_learner l true false in Ok (Some (entry_of l false)) else Ok None
            | None => Ok (if String.eqb sc "IV-type" then Some {| le_obj := ln_clone L (ly_obj ml_l); le_proba := false; le_classifier := ly_classifier ml_l |} else None)
            end)).
    { destruct ml_g as [l|]; [|eexists; reflexivity]. destruct (String.eqb sc "IV-type"); [|eexists; reflexivity]. sb (proj2 (learner_value l false) (conj (S2 eq_refl l eq_refl) eq_refl)). eexists; reflexivity. }
    destruct G as (g & G). sb G. assert (Q : negb (ly_classifier ml_m) || forallb snd (M_Data.dd_bt s) = true). { destruct (ly_classifier ml_m); [cbn; apply Bt, Bn; reflexivity|reflexivity]. }
    rewrite Q. eexists; reflexivity.
Qed.

(** PLIV: the IV-type score needs ml_g and is only available with one instrument. *)
Lemma pliv_accepts proj ml_l ml_m ml_r ml_g nf nr score draw :
  succeeds (pliv_init L rd f s proj ml_l ml_m ml_r ml_g nf nr score draw) <->
  split_args n nf nr draw None /\ predicts_values ml_l /\ predicts_values ml_m /\ predicts_values ml_r /\
  exists z more, M_Data.r_z roles = Some (z :: more) /\
    (score = PStr "partialling out" \/ score = PStr "IV-type" /\ more = [] /\ exists l, ml_g = Some l /\ predicts_values l).
Proof.
  destruct arrays as (_ & Az & _). split.
  - intros (o & H). unfold pliv_init in H. bi H w B. rewrite Az in H. destruct (M_Data.r_z roles) as [[|z more]|] eqn:Ez; try discriminate.
    bi H sc Sc. bi H cla Ll. bi H clb Lm. bi H clc Lr. cbv zeta in H. bi H g G. apply learner_value in Ll as (Ll & _). apply learner_value in Lm as (Lm & _). apply learner_value in Lr as (Lr & _). apply score_iff in Sc as (-> & Sc).
    split; [apply (@base_new_args P rd f s Cl); exists w; exact B|]. split; [exact Ll|]. split; [exact Lm|]. split; [exact Lr|]. exists z, more. split; [reflexivity|].
    destruct more as [|z' more]; cbn in Sc; [|left; destruct Sc as [<-|[]]; reflexivity]. destruct Sc as [<-|[<-|[]]]; [left; reflexivity|right]. split; [reflexivity|]. split; [reflexivity|].
    destruct ml_g as [l|]; [|discriminate]. cbn in G. bi G cld Lg. apply learner_value in Lg as (Lg & _). eauto.
  - intros (Sp & Ll & Lm & Lr & z & more & Ez & Sc). apply (@base_new_args P rd f s Cl) in Sp as (w & B).
    assert (S' : exists sc, check_score score (match more with [] => ["partialling out"; "IV-type"] | _ => ["partialling out"] end) = Ok sc /\ (String.eqb sc "IV-type" = true -> exists l, ml_g = Some l /\ predicts_values l)).
    { destruct Sc as [-> |(-> & -> & Q)]; [exists "partialling out"|exists "IV-type"]; (split; [|]); [destruct more; reflexivity|discriminate|reflexivity|intros _; exact Q]. }
    destruct S' as (sc & S1 & S2). unfold pliv_init. sb B. rewrite Az, Ez. sb S1. sb (proj2 (learner_value ml_l false) (conj Ll eq_refl)). sb (proj2 (learner_value ml_m false) (conj Lm eq_refl)). sb (proj2 (learner_value ml_r false) (conj Lr eq_refl)). cbv zeta.
    assert (G : succeeds (match ml_g with
                | Some l => if String.eqb sc "IV-type" then let! _ := check_learner l true false in Ok [("ml_g", entry_of l false)] else Ok []
                | None => if String.eqb sc "IV-type" then Err ValueError else Ok []
                end)).
    { destruct (String.eqb sc "IV-type"); [|destruct ml_g; eexists; reflexivity]. destruct (S2 eq_refl) as (l & -> & Pl). sb (proj2 (learner_value l false) (conj Pl eq_refl)). eexists; reflexivity. }
    destruct G as (g & G). sb G. eexists; reflexivity.
Qed.
(** The partialZ and partialXZ variants. *)
Lemma pliv_z_accepts proj dummy ml_r nf nr score draw : predicts_values dummy ->
  (succeeds (pliv_partial_z L rd f s proj dummy ml_r nf nr score draw) <->
   split_args n nf nr draw None /\ predicts_values ml_r /\ score = PStr "partialling out" /\ exists z more, M_Data.r_z roles = Some (z :: more)).
Proof.
  intro Dm. split.
  - intros (o & H). unfold pliv_partial_z in H. bi H p Pi. bi H sc Sc. apply score_iff in Sc as (-> & [<-|[]]). destruct (proj1 (pliv_accepts proj dummy dummy ml_r None nf nr _ draw) (ex_intro _ _ Pi)) as (Sp & _ & _ & Lr & z & more & Ez & _).
    split; [exact Sp|]. split; [exact Lr|]. split; [reflexivity|]. eauto.
  - intros (Sp & Lr & -> & z & more & Ez). destruct (proj2 (pliv_accepts proj dummy dummy ml_r None nf nr (PStr "partialling out") draw)) as (p & Pi).
    { split; [exact Sp|]. split; [exact Dm|]. split; [exact Dm|]. split; [exact Lr|]. exists z, more. auto. }
    unfold pliv_partial_z. sb Pi. eapply succ_bind; [reflexivity|]. sb (proj2 (learner_value ml_r false) (conj Lr eq_refl)). eexists; reflexivity.
Qed.
Lemma pliv_xz_accepts proj ml_l ml_m ml_r nf nr score draw :
  succeeds (pliv_partial_xz L rd f s proj ml_l ml_m ml_r nf nr score draw) <->
  split_args n nf nr draw None /\ predicts_values ml_l /\ predicts_values ml_m /\ predicts_values ml_r /\ score = PStr "partialling out" /\ exists z more, M_Data.r_z roles = Some (z :: more).
Proof.
  split.
  - intros (o & H). unfold pliv_partial_xz in H. bi H p Pi. bi H sc Sc. apply score_iff in Sc as (-> & [<-|[]]). destruct (proj1 (pliv_accepts proj ml_l ml_m ml_r None nf nr _ draw) (ex_intro _ _ Pi)) as (Sp & Ll & Lm & Lr & z & more & Ez & _).
    do 4 (split; [assumption|]). split; [reflexivity|]. eauto.
  - intros (Sp & Ll & Lm & Lr & -> & z & more & Ez). destruct (proj2 (pliv_accepts proj ml_l ml_m ml_r None nf nr (PStr "partialling out") draw)) as (p & Pi).
    { do 4 (split; [assumption|]). exists z, more. auto. }
    unfold pliv_partial_xz. sb Pi. eapply succ_bind; [reflexivity|]. eexists; reflexivity.
Qed.
End Accept.

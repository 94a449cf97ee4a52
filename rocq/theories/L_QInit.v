(** Constructor calls of the quantile models. *)
From Verif Require Import L_DataProps.
From Verif Require Export S_QObject L_InitAccept L_InitMade L_InitSplit L_InitErrors.
From Coq Require Import Lia Lra.
Local Open Scope R_scope.
Local Open Scope res_scope.
Local Open Scope string_scope.

Ltac bi H x X := apply bind_ok in H as (x & X & H).
Ltac ri H X := apply require_ok in H as (X & H).
Ltac sb H := eapply succ_bind; [exact H|].
Ltac sr H := apply succ_require; [exact H|].

Lemma rleb_flag x y : rleb x y = true <-> x <= y.
Proof. unfold rleb. destruct (Rle_dec x y); split; intro; try discriminate; tauto. Qed.
Lemma rleb_not x y : rleb x y = false <-> y < x.
Proof. unfold rleb. destruct (Rle_dec x y); split; intro; try discriminate; try reflexivity; lra. Qed.
Lemma reqb_flag x y : reqb x y = true <-> x = y.
Proof. unfold reqb. destruct (Req_EM_T x y); split; intro; try discriminate; tauto. Qed.
Lemma quantile_iff v q : quantile_arg v = Ok q <-> quantile_ok v q.
Proof.
  unfold quantile_arg, check_quantile, quantile_ok. split.
  - intro H. destruct v as [x| | | | | |]; try discriminate. apply bind_ok in H as (u & H & J). apply require_ok in H as (B & _). injection J as <-.
    apply negb_true_iff, orb_false_iff in B as (B1 & B2). apply rleb_not in B1. apply rleb_not in B2. auto.
  - intros (-> & A & B). apply rleb_not in A. apply rleb_not in B. cbn [bind]. rewrite A, B. reflexivity.
Qed.
Lemma treatment_iff v b : treatment_arg v = Ok b <-> arm_number v (level b).
Proof.
  unfold treatment_arg, arm_number, require, level. split.
  - intro H. destruct v; cbn [is_int int_val] in H; try discriminate.
    + destruct (Z.eqb_spec z 0) as [->|]; [injection H as <-; left; auto|]. destruct (Z.eqb_spec z 1) as [->|]; [injection H as <-; right; auto|]. discriminate.
    + destruct b0; injection H as <-; [right|left]; auto.
  - intros [([-> | ->] & H)|([-> | ->] & H)]; destruct b; try lra; reflexivity.
Qed.
Lemma arm_bool v a : arm_number v a -> exists b, a = level b.
Proof. intros [(_ & ->)|(_ & ->)]; [exists false|exists true]; reflexivity. Qed.
Lemma kernel_iff dflt k : succeeds (check_kde dflt k) <-> kernel_ok k.
Proof.
  unfold kernel_ok, succeeds. destruct k as [|h|]; cbn; split; intro H; eauto.
  - destruct H as (? & ?). discriminate.
  - destruct H as [?|(? & ?)]; discriminate.
Qed.
Lemma has_arm_iff n b d : has_arm n b d = true <-> exists i, (i < n)%nat /\ d i = level b.
Proof.
  unfold has_arm. rewrite existsb_exists. split; intros (i & A & B); exists i.
  - apply in_seq in A. apply reqb_flag in B. split; [lia|exact B].
  - split; [apply in_seq; lia|apply reqb_flag; exact B].
Qed.

Section Accept.
Context {E P : Type}.
Variable L : learner E row P.
Variable rd : randomness.
Variable f : M_Data.frame.
Variable s : M_Data.ddata.
Hypothesis Con : S_Data.constructed f s.
Hypothesis Un : unclustered s.
Hypothesis Ba : both_arms f s.
Let n := M_Data.frows f.
Let roles := M_Data.dd_roles s.

Lemma arm_there b : binary_treatment f s (M_Data.c_d s) -> has_arm n b (col f (M_Data.c_d s)) = true.
Proof. intro B. apply has_arm_iff. apply (Ba _ B). destruct b; [right|left]; reflexivity. Qed.

Lemma cvar_accepts o ml_g ml_m treatment quantile nf nr score norm rule thr draw :
  succeeds (cvar_init L rd f s o ml_g ml_m treatment quantile nf nr score norm rule thr draw) <->
  no_instruments s /\ (exists c, binary_treatment f s c /\ split_args n nf nr draw (Some (col f c))) /\
  quantile_options "CVaR" score treatment quantile norm rule thr /\ predicts_values ml_g /\ predicts_probabilities ml_m.
Proof.
  split.
  - intros (r & H). unfold cvar_init in H. bi H w B. ri H Zn. ri H D. bi H sc Sc. bi H q Q. bi H tr Tr. bi H nm Nm. ri H Ar. bi H w' Rw. bi H th T. bi H g G. bi H m M.
    apply (no_z_iff s) in Zn. apply (one_binary f s Con) in D. apply score_iff in Sc as (-> & Sc). destruct (started _ _ _ Con Un _ _ _ _ _ _ B Rw) as (Sp & _ & _).
    apply quantile_iff in Q. apply treatment_iff in Tr. apply bool_iff in Nm. apply trimming_iff in T as (T1 & T2 & T3). apply learner_value in G as (G & _). apply learner_proba in M as (M & _).
    split; [exact Zn|]. split; [exists (M_Data.c_d s); split; [exact D|exact Sp]|]. split; [|split; [exact G|exact M]].
    split; [destruct Sc as [<-|[]]; reflexivity|]. split; [eauto|]. split; [eauto|]. split; [eexists; exact Nm|]. split; [exact T1|eauto].
  - intros (Zn & (c & Bt & Sp) & (-> & (q & Q) & (a & A) & (nm & Nm) & T1 & t & T2 & T3) & Pg & Pm). pose proof (binary_active f s Con c Bt) as ->.
    destruct (arm_bool _ _ A) as (b & ->).
    destruct (drawn (P:=P) rd f s Con Un _ _ _ _ Sp) as (w & w' & B & Rw & _). { intros _; apply zero_one_whole, Bt. }
    unfold cvar_init. sb B. sr (proj2 (no_z_iff s) Zn). sr (proj2 (one_binary f s Con) Bt). sb (eq_refl : check_score (PStr "CVaR") ["CVaR"] = Ok "CVaR").
    sb (proj2 (quantile_iff _ _) Q). sb (proj2 (treatment_iff _ _) A). sb (proj2 (bool_iff _ _) Nm). sr (arm_there b Bt). sb Rw. sb (proj2 (trimming_iff rule thr t) (conj T1 (conj T2 T3))).
    sb (proj2 (learner_value ml_g false) (conj Pg eq_refl)). sb (proj2 (learner_proba ml_m true) (conj Pm eq_refl)). eexists; reflexivity.
Qed.
Lemma pq_accepts dflt o ml_g ml_m treatment quantile nf nr score norm kde rule thr draw :
  succeeds (pq_init L rd f s dflt o ml_g ml_m treatment quantile nf nr score norm kde rule thr draw) <->
  no_instruments s /\ (exists c, binary_treatment f s c /\ split_args n nf nr draw (Some (col f c))) /\
  quantile_options "PQ" score treatment quantile norm rule thr /\ kernel_ok kde /\ predicts_probabilities ml_g /\ predicts_probabilities ml_m.
Proof.
  split.
  - intros (r & H). unfold pq_init in H. bi H w B. bi H k Kd. ri H Zn. ri H D. bi H sc Sc. bi H q Q. bi H tr Tr. bi H nm Nm. ri H Ar. bi H w' Rw. bi H th T. bi H g G. bi H m M.
    apply (no_z_iff s) in Zn. apply (one_binary f s Con) in D. apply score_iff in Sc as (-> & Sc). destruct (started _ _ _ Con Un _ _ _ _ _ _ B Rw) as (Sp & _ & _).
    apply quantile_iff in Q. apply treatment_iff in Tr. apply bool_iff in Nm. apply trimming_iff in T as (T1 & T2 & T3). apply learner_proba in G as (G & _). apply learner_proba in M as (M & _).
    split; [exact Zn|]. split; [exists (M_Data.c_d s); split; [exact D|exact Sp]|]. split; [|split; [apply (kernel_iff dflt); eexists; exact Kd|split; [exact G|exact M]]].
    split; [destruct Sc as [<-|[]]; reflexivity|]. split; [eauto|]. split; [eauto|]. split; [eexists; exact Nm|]. split; [exact T1|eauto].
  - intros (Zn & (c & Bt & Sp) & (-> & (q & Q) & (a & A) & (nm & Nm) & T1 & t & T2 & T3) & Kd & Pg & Pm). pose proof (binary_active f s Con c Bt) as ->.
    destruct (arm_bool _ _ A) as (b & ->). apply (kernel_iff dflt) in Kd as (k & Kd).
    destruct (drawn (P:=P) rd f s Con Un _ _ _ _ Sp) as (w & w' & B & Rw & _). { intros _; apply zero_one_whole, Bt. }
    unfold pq_init. sb B. sb Kd. sr (proj2 (no_z_iff s) Zn). sr (proj2 (one_binary f s Con) Bt). sb (eq_refl : check_score (PStr "PQ") ["PQ"] = Ok "PQ").
    sb (proj2 (quantile_iff _ _) Q). sb (proj2 (treatment_iff _ _) A). sb (proj2 (bool_iff _ _) Nm). sr (arm_there b Bt). sb Rw. sb (proj2 (trimming_iff rule thr t) (conj T1 (conj T2 T3))).
    sb (proj2 (learner_proba ml_g true) (conj Pg eq_refl)). sb (proj2 (learner_proba ml_m true) (conj Pm eq_refl)). eexists; reflexivity.
Qed.
Lemma lpq_accepts dflt o ml_g ml_m treatment quantile nf nr score norm kde rule thr draw :
  succeeds (lpq_init L rd f s dflt o ml_g ml_m treatment quantile nf nr score norm kde rule thr draw) <->
  (exists c z, binary_treatment f s c /\ binary_instrument f s z /\ split_args n nf nr draw (Some (fun i => col f c i + 2 * col f z i))) /\
  quantile_options "LPQ" score treatment quantile norm rule thr /\ kernel_ok kde /\ predicts_probabilities ml_g /\ predicts_probabilities ml_m.
Proof.
  destruct (arrays f s Con) as (_ & Az & _). split.
  - intros (r & H). unfold lpq_init in H. bi H w B. bi H k Kd. ri H D. apply (one_binary f s Con) in D. rewrite Az in H. destruct (M_Data.r_z (M_Data.dd_roles s)) as [[|z [|z' l]]|] eqn:Ez; try discriminate.
    ri H Zn. apply zero_one_iff in Zn. bi H sc Sc. bi H q Q. bi H tr Tr. bi H nm Nm. ri H Ar. cbv zeta in H. bi H w' Rw. bi H th T. bi H g G. bi H m M.
    apply score_iff in Sc as (-> & Sc). destruct (started _ _ _ Con Un _ _ _ _ _ _ B Rw) as (Sp & _ & _).
    apply quantile_iff in Q. apply treatment_iff in Tr. apply bool_iff in Nm. apply trimming_iff in T as (T1 & T2 & T3). apply learner_proba in G as (G & _). apply learner_proba in M as (M & _).
    split; [exists (M_Data.c_d s), z; split; [exact D|]; split; [split; [exact Ez|exact Zn]|exact Sp]|]. split; [|split; [apply (kernel_iff dflt); eexists; exact Kd|split; [exact G|exact M]]].
    split; [destruct Sc as [<-|[]]; reflexivity|]. split; [eauto|]. split; [eauto|]. split; [eexists; exact Nm|]. split; [exact T1|eauto].
  - intros ((c & z & Bt & (Ez & Zn) & Sp) & (-> & (q & Q) & (a & A) & (nm & Nm) & T1 & t & T2 & T3) & Kd & Pg & Pm). pose proof (binary_active f s Con c Bt) as ->.
    destruct (arm_bool _ _ A) as (b & ->). apply (kernel_iff dflt) in Kd as (k & Kd).
    destruct (drawn (P:=P) rd f s Con Un _ _ _ _ Sp) as (w & w' & B & Rw & _). { intros _. apply sum_whole; apply zero_one_whole; [apply Bt|exact Zn]. }
    unfold lpq_init. sb B. sb Kd. sr (proj2 (one_binary f s Con) Bt). rewrite Az, Ez. sr (proj2 (zero_one_iff f z) Zn). sb (eq_refl : check_score (PStr "LPQ") ["LPQ"] = Ok "LPQ").
    sb (proj2 (quantile_iff _ _) Q). sb (proj2 (treatment_iff _ _) A). sb (proj2 (bool_iff _ _) Nm). sr (arm_there b Bt). cbv zeta. sb Rw. sb (proj2 (trimming_iff rule thr t) (conj T1 (conj T2 T3))).
    sb (proj2 (learner_proba ml_g true) (conj Pg eq_refl)). sb (proj2 (learner_proba ml_m true) (conj Pm eq_refl)). eexists; reflexivity.
Qed.
End Accept.

Section Drawn.
Context {E P : Type}.
Variable L : learner E row P.
Variable rd : randomness.
Variable fr : M_Data.frame.
Variable s : M_Data.ddata.
Hypothesis Re : S_Data.reachable fr s.
Hypothesis Un : unclustered s.
Hypothesis Rd : sound_randomness rd.
Let n := M_Data.frows fr.
Let roles := M_Data.dd_roles s.
Lemma cvar_drawn o ml_g ml_m treatment quantile nf nr score norm rule thr C w0 : cvar_init L rd fr s o ml_g ml_m treatment quantile nf nr score norm rule thr (PBool true) = Ok (C, w0) ->
  exists c, M_Data.r_d roles = [c] /\ stratified_by n nf nr (col fr c) w0.
Proof.
  intro H. unfold cvar_init in H. bi H w B. ri H Zn. ri H D. bi H sc Sc. bi H q Q. bi H tr Tr. bi H nm Nm. ri H Ar. bi H w' Rw. bi H th T. bi H g G. bi H m M. apply ok_inj in H. injection H as _ <-.
  destruct (one_binary_r fr s Re D) as (c & <- & Bt). exists (M_Data.c_d s). split; [apply Bt|exact (redrawn rd fr s Re Un Rd _ _ _ _ _ B Rw)].
Qed.
Lemma pq_drawn dflt o ml_g ml_m treatment quantile nf nr score norm kde rule thr K b : pq_init L rd fr s dflt o ml_g ml_m treatment quantile nf nr score norm kde rule thr (PBool true) = Ok (K, b) ->
  exists c, M_Data.r_d roles = [c] /\ stratified_by n nf nr (col fr c) (ob_world b).
Proof.
  intro H. unfold pq_init in H. bi H w B. bi H k Kd. ri H Zn. ri H D. bi H sc Sc. bi H q Q. bi H tr Tr. bi H nm Nm. ri H Ar. bi H w' Rw. bi H th T. bi H g G. bi H m M. apply ok_inj in H. injection H as _ <-.
  destruct (one_binary_r fr s Re D) as (c & <- & Bt). exists (M_Data.c_d s). split; [apply Bt|exact (redrawn rd fr s Re Un Rd _ _ _ _ _ B Rw)].
Qed.
Lemma lpq_drawn dflt o ml_g ml_m treatment quantile nf nr score norm kde rule thr K b : lpq_init L rd fr s dflt o ml_g ml_m treatment quantile nf nr score norm kde rule thr (PBool true) = Ok (K, b) ->
  exists c z, M_Data.r_d roles = [c] /\ M_Data.r_z roles = Some [z] /\ stratified_by n nf nr (fun i => col fr c i + 2 * col fr z i) (ob_world b).
Proof.
  intro H. unfold lpq_init in H. bi H w B. bi H k Kd. ri H D. destruct (arrays_r fr s Re) as (_ & Az & _). rewrite Az in H. fold roles in H. destruct (M_Data.r_z roles) as [[|z [|z' l]]|] eqn:Ez; try discriminate. ri H Zn. bi H sc Sc. bi H q Q. bi H tr Tr. bi H nm Nm. ri H Ar. cbv zeta in H. bi H w' Rw. bi H th T. bi H g G. bi H m M. apply ok_inj in H. injection H as _ <-.
  destruct (one_binary_r fr s Re D) as (c & <- & Bt). exists (M_Data.c_d s), z. split; [apply Bt|]. split; [reflexivity|exact (redrawn rd fr s Re Un Rd _ _ _ _ _ B Rw)].
Qed.
End Drawn.

Section Refused.
Context {E P : Type}.
Variable L : learner E row P.
Variable rd : randomness.
Variable f : M_Data.frame.
Variable s : M_Data.ddata.
Hypothesis Con : S_Data.constructed f s.
Hypothesis Un : unclustered s.
Hypothesis Ba : both_arms f s.
Lemma td_quantile v : type_or_value_error (quantile_arg v).
Proof.
  unfold quantile_arg, check_quantile. destruct v as [q| | | | | |]; try apply td_type. apply td_bind; [apply td_req_v, td_ok|intro; apply td_ok].
Qed.
Lemma td_treatment v : type_or_value_error (treatment_arg v).
Proof. unfold treatment_arg. apply td_req_t, td_req_v, td_ok. Qed.
Lemma td_kernel dflt k : type_or_value_error (check_kde dflt k).
Proof. destruct k; [apply td_ok|apply td_ok|apply td_type]. Qed.
Lemma td_arm {A} b (k : result A) : one_treat s && zero_one_col f (M_Data.c_d s) = true -> type_or_value_error k -> type_or_value_error (require (has_arm (M_Data.frows f) b (col f (M_Data.c_d s))) IndexError k).
Proof. intros D H. apply (one_binary f s Con) in D. rewrite (arm_there f s Ba b D). exact H. Qed.
Lemma td_req_vt {A} b (k : result A) : (b = true -> type_or_value_error k) -> type_or_value_error (require b ValueError k).
Proof. intros H. destruct b; [exact (H eq_refl)|apply td_value]. Qed.
Lemma Cl0 : M_Data.c_cl s = None. Proof. exact (proj1 (uncl f s Con Un)). Qed.
Ltac tq := apply td_bind; [first [apply td_base | apply td_redraw | apply td_learner | apply td_score | apply td_bool | apply td_trim | apply td_quantile | apply td_treatment | apply td_kernel]; try exact Cl0|intro].
Lemma cvar_refused o ml_g ml_m treatment quantile nf nr score norm rule thr draw : type_or_value_error (cvar_init L rd f s o ml_g ml_m treatment quantile nf nr score norm rule thr draw).
Proof. unfold cvar_init. tq. apply td_req_v. apply td_req_vt; intro D. tq. tq. tq. tq. apply td_arm; [exact D|]. tq. tq. tq. tq. apply td_ok. Qed.
Lemma pq_refused dflt o ml_g ml_m treatment quantile nf nr score norm kde rule thr draw : type_or_value_error (pq_init L rd f s dflt o ml_g ml_m treatment quantile nf nr score norm kde rule thr draw).
Proof. unfold pq_init. tq. tq. apply td_req_v. apply td_req_vt; intro D. tq. tq. tq. tq. apply td_arm; [exact D|]. tq. tq. tq. tq. apply td_ok. Qed.
Lemma lpq_refused dflt o ml_g ml_m treatment quantile nf nr score norm kde rule thr draw : type_or_value_error (lpq_init L rd f s dflt o ml_g ml_m treatment quantile nf nr score norm kde rule thr draw).
Proof. unfold lpq_init. tq. tq. apply td_req_vt; intro D. destruct (M_Data.c_z s) as [[|z [|z' l]]|]; try apply td_value. apply td_req_v. tq. tq. tq. tq. apply td_arm; [exact D|]. cbv zeta. tq. tq. tq. tq. apply td_ok. Qed.
End Refused.

(** The split drawn by a constructor call, and the errors of refused calls. *)
From Verif Require Import L_DataProps.
From Verif Require Export L_InitMade.
From Coq Require Import Lia Lra.
Local Open Scope R_scope.
Local Open Scope res_scope.
Local Open Scope string_scope.

(** *** The drawn split *)
Section Drawn.
Context {E P : Type}.
Variable L : learner E row P.
Variable rd : randomness.
Variable fr : M_Data.frame.
Variable s : M_Data.ddata.
Hypothesis Re : S_Data.reachable fr s.
Hypothesis Un : unclustered s.
Hypothesis Rd : sound_randomness rd.
Let n := M_Data.frows fr.
Let roles := M_Data.dd_roles s.

Lemma ClR : M_Data.c_cl s = None.
Proof. destruct (arrays_r fr s Re) as (_ & _ & _ & _ & C & _). rewrite C. exact Un. Qed.
Lemma redrawn nf nr (w w' : world P) v : base_new rd fr s nf nr (PBool true) = Ok w -> redraw rd fr s v (PBool true) w = Ok w' -> stratified_by n nf nr v w'.
Proof.
  intros B R. destruct (@base_reps P rd fr s ClR _ _ _ _ B) as (Br & Bf). destruct (proj1 (@base_new_args P rd fr s ClR nf nr (PBool true)) (ex_intro _ w B)) as (_ & _ & _ & Nr & b & Q & Nf). injection Q as <-. specialize (Nf eq_refl). cbv zeta in Nf. destruct Nf as (Nf & _).
  unfold redraw in R. rewrite ClR in R. cbn [option_map] in R. destruct (all_whole _ _); cbn [require] in R; [|discriminate].
  unfold strata_ctx, with_clusters, draw_sample_splitting in R. rewrite ClR in R. cbn [option_map c_cluster c_strata c_n] in R. unfold andthen at 1, lift at 1 in R. unfold andthen, lift in R. fold n in R.
  destruct (resampling (m_n_folds (w_obj w)) (m_n_rep (w_obj w)) n (Some (value_codes v)) (rd_g rd)) as [sm|e] eqn:D; [|discriminate]. apply ok_inj in R. subst w'.
  destruct Rd as (_ & _ & Sh & _). destruct (draws _ _ _ _ _ _ Sh D) as (Ls & Fs). pose proof (draws_labels _ _ _ _ _ _ Sh D) as Lb.
  exists sm. split; [reflexivity|]. split; [congruence|]. intros fs Hf. destruct (Fs fs Hf) as (F1 & F2 & F3). split; [congruence|]. split; [exact F2|]. split.
  - intros h k i Hh Hk Hi. pose proof (Lb fs Hf h k i Hh Hk Hi) as Q. rewrite !code_counts in Q. exact Q.
  - intros h i Hh Hi Two. destruct (train_has_label n (value_codes v) fs h i F2 (Lb fs Hf)) as (j & Hj & Ej); [lia|exact Hh|exact Hi|rewrite code_count; exact Two|].
    exists j. split; [|split; [exact Hj|apply value_codes_eq, Ej]]. destruct F2 as (_ & F2). destruct (F2 h Hh) as (_ & _ & F2'). apply F2' in Hj. tauto.
Qed.
Ltac st H := repeat first [apply require_ok in H; destruct H as (_ & H) | progress (cbv zeta in H)].
Lemma irm_drawn ml_g ml_m nf nr score wa norm rule thr C w0 : irm_init L rd fr s ml_g ml_m nf nr score wa norm rule thr (PBool true) = Ok (C, w0) ->
  exists c, M_Data.r_d roles = [c] /\ stratified_by n nf nr (col fr c) w0.
Proof.
  intro H. unfold irm_init in H. bi H w B. ri H Zn. ri H D. bi H sc' Sc. bi H w' Rw. bi H gc G. bi H mm M. bi H u Og. bi H nm Nm. bi H th T. cbv zeta in H. bi H u' W. apply ok_inj in H. injection H as _ <-.
  destruct (one_binary_r fr s Re D) as (c & <- & Bt). exists (M_Data.c_d s). split; [apply Bt|exact (redrawn _ _ _ _ _ B Rw)].
Qed.
Lemma apo_drawn ml_g ml_m level nf nr score wa norm rule thr C w0 : apo_init L rd fr s ml_g ml_m level nf nr score wa norm rule thr (PBool true) = Ok (C, w0) ->
  exists c, M_Data.r_d roles = [c] /\ stratified_by n nf nr (col fr c) w0.
Proof.
  intro H. pose proof H as H'. apply (apo_made L rd fr s Re Rd) in H' as (c & mc & nm & th & bo & stt & Q & _ & _ & Ed & _). exists c. split; [exact Q|]. subst c.
  unfold apo_init in H. bi H w B. cbv zeta in H. ri H D. ri H Zn. ri H Tr. bi H sc' Sc. bi H w' Rw. bi H gc G. bi H mm M. bi H u Og. bi H nm1 Nm. bi H th1 T. bi H u' W. apply ok_inj in H. injection H as _ <-.
  exact (redrawn _ _ _ _ _ B Rw).
Qed.
Lemma iivm_drawn ml_g ml_m ml_r nf nr score sg norm rule thr C w0 : iivm_init L rd fr s ml_g ml_m ml_r nf nr score sg norm rule thr (PBool true) = Ok (C, w0) ->
  exists c z, M_Data.r_d roles = [c] /\ M_Data.r_z roles = Some [z] /\ stratified_by n nf nr (fun i => col fr c i + 2 * col fr z i) w0.
Proof.
  intro H. unfold iivm_init in H. bi H w B. ri H D. destruct (arrays_r fr s Re) as (_ & Az & _). rewrite Az in H. fold roles in H. destruct (M_Data.r_z roles) as [[|z [|z' l]]|] eqn:Ez; try discriminate. ri H Zn. bi H sc' Sc. cbv zeta in H. bi H w' Rw. bi H gc G. bi H mm M. bi H rr Mr. bi H u Og. bi H nm Nm. bi H th T. bi H p W. apply ok_inj in H. injection H as _ <-.
  destruct (one_binary_r fr s Re D) as (c & <- & Bt). exists (M_Data.c_d s), z. split; [apply Bt|]. split; [reflexivity|exact (redrawn _ _ _ _ _ B Rw)].
Qed.
Lemma did_drawn ml_g ml_m nf nr score norm rule thr C w0 : did_init L rd fr s ml_g ml_m nf nr score norm rule thr (PBool true) = Ok (C, w0) ->
  exists c, M_Data.r_d roles = [c] /\ stratified_by n nf nr (col fr c) w0.
Proof.
  intro H. unfold did_init in H. bi H w B. ri H Zn. ri H D. bi H sc' Sc. bi H nm Nm. bi H w' Rw. cbv zeta in H. bi H ls Ls. bi H th T. apply ok_inj in H. injection H as _ <-.
  destruct (one_binary_r fr s Re D) as (c & <- & Bt). exists (M_Data.c_d s). split; [apply Bt|exact (redrawn _ _ _ _ _ B Rw)].
Qed.
Lemma cs_drawn ml_g ml_m nf nr score norm rule thr C w0 : cs_init L rd fr s ml_g ml_m nf nr score norm rule thr (PBool true) = Ok (C, w0) ->
  exists c t, M_Data.r_d roles = [c] /\ M_Data.r_t roles = Some t /\ stratified_by n nf nr (fun i => col fr c i + 2 * col fr t i) w0.
Proof.
  intro H. unfold cs_init in H. bi H w B. ri H Zn. ri H D. destruct (arrays_r fr s Re) as (_ & _ & At & _). rewrite At in H. fold roles in H. destruct (M_Data.r_t roles) as [tc|] eqn:Et; [|discriminate]. ri H Zt. bi H sc' Sc. bi H nm Nm. cbv zeta in H. bi H w' Rw. bi H ls Ls. bi H th T. apply ok_inj in H. injection H as _ <-.
  destruct (one_binary_r fr s Re D) as (c & <- & Bt). exists (M_Data.c_d s), tc. split; [apply Bt|]. split; [reflexivity|exact (redrawn _ _ _ _ _ B Rw)].
Qed.
(** With several treatments it is the active one. *)
Lemma ssm_drawn tts ml_g ml_pi ml_m nf nr score norm rule thr C w0 : ssm_init L rd fr s tts ml_g ml_pi ml_m nf nr score norm rule thr (PBool true) = Ok (C, w0) ->
  exists c sel, In c (M_Data.r_d roles) /\ M_Data.r_s roles = Some sel /\ stratified_by n nf nr (fun i => col fr c i + 2 * col fr sel i) w0.
Proof.
  intro H. unfold ssm_init in H. bi H w B. bi H th T. ri H Zn. bi H sc' Sc. destruct (arrays_r fr s Re) as (_ & Az & _ & As & _ & Dd). rewrite As in H. fold roles in H. destruct (M_Data.r_s roles) as [sel|] eqn:Es; [|discriminate].
  cbv zeta in H. bi H w' Rw. bi H gc G. bi H pp Mp. bi H mm M. bi H u Og. bi H nm Nm. apply ok_inj in H. injection H as _ <-.
  exists (M_Data.c_d s), sel. split; [exact Dd|]. split; [reflexivity|exact (redrawn _ _ _ _ _ B Rw)].
Qed.
Lemma base_drawn nf nr (w : world P) : base_new rd fr s nf nr (PBool true) = Ok w -> split_drawn n nf nr w.
Proof.
  intro B. destruct (@base_reps P rd fr s ClR _ _ _ _ B) as (Br & Bf). unfold base_new in B. unfold new_object in B. match type of B with context [construct _ _ _ _ _ _ ?x] => set (w0 := x) in B end.
  destruct (construct _ nf nr (PBool true) _ _ w0) as [w1 [u|e]] eqn:Ec; [|discriminate]. apply ok_inj in B. subst w1.
  unfold construct in Ec. do 4 (apply andthen_ok in Ec; destruct Ec as (? & ? & E1 & Ec); unfold lift in E1; apply pair_equal_spec in E1; destruct E1 as [<- _]). cbv zeta in Ec.
  apply andthen_ok in Ec. destruct Ec as (w2 & [] & E2 & Ec). apply andthen_ok in Ec. destruct Ec as (w3 & [] & E3 & Ec).
  assert (Q4 : w = fresh (@base_ctx P fr s) w3) by (pose proof (init_both_eq (@base_ctx P fr s) w3) as I; unfold init_both in I; rewrite Ec in I; apply pair_equal_spec in I as [-> _]; reflexivity).
  assert (Em : m_smpls (w_obj w) = m_smpls (w_obj w3)) by (rewrite Q4; reflexivity).
  assert (E4 : m_n_rep (w_obj w) = m_n_rep (w_obj w3) /\ m_n_folds (w_obj w) = m_n_folds (w_obj w3)) by (rewrite Q4; split; reflexivity).
  unfold draw_sample_splitting, base_ctx, with_clusters in E3. rewrite ClR in E3. cbn [option_map c_cluster c_strata c_n] in E3. unfold andthen at 1, lift at 1 in E3. unfold andthen, lift in E3. fold n in E3.
  destruct (resampling (m_n_folds (w_obj w2)) (m_n_rep (w_obj w2)) n None (rd_g0 rd)) as [sm|e] eqn:D; [|discriminate]. unfold assign in E3. apply pair_equal_spec in E3 as [E3 _].
  rewrite <- E3 in Em, E4. cbn in Em, E4. destruct E4 as (E4 & E5). destruct Rd as (Sh & _). destruct (draws _ _ _ _ _ _ Sh D) as (Ls & Fs).
  exists sm. split; [exact Em|]. split; [congruence|]. intros fs Hf. destruct (Fs fs Hf) as (F1 & F2 & F3). split; [congruence|]. split; [exact F2|exact F3].
Qed.
Lemma plr_drawn ml_l ml_m ml_g nf nr score C w0 : plr_init L rd fr s ml_l ml_m ml_g nf nr score (PBool true) = Ok (C, w0) -> split_drawn n nf nr w0.
Proof. intro H. unfold plr_init in H. bi H w B. ri H Zn. bi H sc' Sc. bi H cla Ll. bi H mcl Lm. cbv zeta in H. bi H gq G. bi H u Bn. apply ok_inj in H. injection H as _ <-. exact (base_drawn _ _ _ B). Qed.
Lemma pliv_drawn proj ml_l ml_m ml_r ml_g nf nr score C w0 : pliv_init L rd fr s proj ml_l ml_m ml_r ml_g nf nr score (PBool true) = Ok (C, w0) -> split_drawn n nf nr w0.
Proof.
  intro H. unfold pliv_init in H. bi H w B. destruct (M_Data.c_z s) as [[|z more]|]; try discriminate. bi H sc' Sc. bi H cla Ll. bi H clb Lm. bi H clc Lr. cbv zeta in H. bi H gq G. apply ok_inj in H. injection H as _ <-. exact (base_drawn _ _ _ B).
Qed.
End Drawn.

(** *** Errors *)
Section Refused.
Context {E P : Type}.
Variable L : learner E row P.
Variable rd : randomness.
Variable fr : M_Data.frame.
Variable s : M_Data.ddata.
Hypothesis Cl0 : M_Data.c_cl s = None.
Lemma td_ok {A} (x : A) : type_or_value_error (Ok x). Proof. intros e H. discriminate. Qed.
Lemma td_bind {A B} (m : result A) (k : A -> result B) : type_or_value_error m -> (forall x, type_or_value_error (k x)) -> type_or_value_error (bind m k).
Proof. intros Hm Hk e H. destruct m as [x|e']; cbn in H; [exact (Hk x e H)|]. injection H as <-. apply Hm. reflexivity. Qed.
Lemma td_type {A} : type_or_value_error (@Err A TypeError). Proof. intros e H. injection H as <-. auto. Qed.
Lemma td_value {A} : type_or_value_error (@Err A ValueError). Proof. intros e H. injection H as <-. auto. Qed.
Lemma td_req_t {A} b (k : result A) : type_or_value_error k -> type_or_value_error (require b TypeError k).
Proof. intros H. destruct b; [exact H|apply td_type]. Qed.
Lemma td_req_v {A} b (k : result A) : type_or_value_error k -> type_or_value_error (require b ValueError k).
Proof. intros H. destruct b; [exact H|apply td_value]. Qed.
Ltac td := repeat first [apply td_ok | apply td_type | apply td_value | apply td_req_t | apply td_req_v | assumption].
Lemma td_learner (l : pylearner E) a b : type_or_value_error (check_learner l a b).
Proof. unfold check_learner. cbv zeta. td. Qed.
Lemma td_score v l : type_or_value_error (check_score v l).
Proof. destruct v; cbn [check_score]; td. Qed.
Lemma td_bool v : type_or_value_error (check_bool v).
Proof. destruct v; cbn [check_bool]; td. Qed.
Lemma td_outcome a b : type_or_value_error (check_outcome a b).
Proof. unfold check_outcome. td. Qed.
Lemma td_trim r t : type_or_value_error (trimming_arg r t).
Proof. unfold trimming_arg. apply td_bind; [|intros _; destruct t; td]. unfold check_trimming. destruct (match r with PStr _ => _ | _ => _ end); cbn [require]; [|td]. destruct t; td. Qed.
Lemma td_resampling k r n st g : type_or_value_error (resampling k r n st g).
Proof.
  unfold resampling. apply td_req_v, td_bind; [|intro; td]. generalize (seq 0 r). intro l. induction l as [|a l IH]; cbn [map_res]; [td|].
  apply td_bind; [|intro; apply td_bind; [exact IH|intro; td]]. destruct st; [unfold stratified_kfold|unfold kfold]; repeat (match goal with |- type_or_value_error (if ?b then _ else _) => destruct b end; td).
Qed.
Lemma td_base nf nr dr : type_or_value_error (@base_new P rd fr s nf nr dr).
Proof.
  intros e H. unfold base_new, new_object in H. match type of H with context [construct _ _ _ _ _ _ ?x] => set (w0 := x) in H end. destruct (construct _ nf nr dr _ _ w0) as [w1 [u|e1]] eqn:Ec; [discriminate|]. injection H as <-.
  assert (Ic : c_cluster (@base_ctx P fr s) = None) by (unfold base_ctx, with_clusters; rewrite Cl0; reflexivity).
  unfold construct in Ec. rewrite Ic in Ec. unfold andthen at 1, lift at 1 in Ec. cbn [require] in Ec.
  unfold andthen at 1, lift at 1 in Ec. destruct (is_int nf); cbn [require] in Ec; [|apply pair_equal_spec in Ec as [_ Ec]; injection Ec as <-; auto].
  destruct (Z.leb 1 (int_val nf)); cbn [require] in Ec; [|apply pair_equal_spec in Ec as [_ Ec]; injection Ec as <-; auto].
  unfold andthen at 1, lift at 1 in Ec. destruct (is_int nr); cbn [require] in Ec; [|apply pair_equal_spec in Ec as [_ Ec]; injection Ec as <-; auto].
  destruct (Z.leb 1 (int_val nr)); cbn [require] in Ec; [|apply pair_equal_spec in Ec as [_ Ec]; injection Ec as <-; auto].
  unfold andthen at 1, lift at 1 in Ec. destruct (is_bool dr); cbn [require] in Ec; [|apply pair_equal_spec in Ec as [_ Ec]; injection Ec as <-; auto].
  cbv zeta in Ec. unfold andthen at 1, assign at 1 in Ec. match type of Ec with context [with_spec ?a ?b ?c ?d] => set (o := with_spec a b c d) in Ec end.
  assert (Ni : forall w, exists w', (initialize_arrays (@base_ctx P fr s) ;;; initialize_params) w = (w', Ok tt)) by (intro w; exists (fresh (@base_ctx P fr s) w); apply (init_both_eq (@base_ctx P fr s))).
  unfold andthen at 1 in Ec. destruct dr as [| |[]| | | |]; try (unfold ret in Ec; match type of Ec with (_ ?w) = _ => destruct (Ni w) as (w' & Q); rewrite Q in Ec; discriminate end).
  unfold draw_sample_splitting at 1 in Ec. rewrite Ic in Ec. unfold andthen at 1, lift at 1 in Ec. unfold andthen at 1, lift at 1 in Ec.
  match type of Ec with context [resampling ?a ?b ?c ?d ?x] => pose proof (td_resampling a b c d x) as T; destruct (resampling a b c d x) as [sm|e2] end.
  - unfold assign in Ec. match type of Ec with (_ ?w) = _ => destruct (Ni w) as (w' & Q); rewrite Q in Ec; discriminate end.
  - apply pair_equal_spec in Ec as [_ Ec]. injection Ec as <-. apply T. reflexivity.
Qed.
Lemma td_redraw v dr (w : world P) : type_or_value_error (redraw rd fr s v dr w).
Proof.
  unfold redraw. destruct dr as [| |[]| | | |]; td.
  unfold draw_sample_splitting, strata_ctx, with_clusters. rewrite Cl0. cbn [option_map c_cluster c_strata c_n]. unfold andthen at 1, lift at 1. unfold andthen, lift.
  match goal with |- context [resampling ?a ?b ?c ?d ?x] => pose proof (td_resampling a b c d x) as T; destruct (resampling a b c d x) as [sm|e2] end; [cbn; td|]. intros e H. injection H as <-. apply T. reflexivity.
Qed.
Lemma td_did obs (ml_g : pylearner E) ml_m b : type_or_value_error (did_learners obs ml_g ml_m b).
Proof.
  unfold did_learners. apply td_bind; [apply td_learner|intro]. apply td_bind; [|intro; apply td_bind; [apply td_outcome|intro; td]]. destruct obs; [|td]. destruct ml_m as [l|]; [|td]. apply td_bind; [apply td_learner|intro; td].
Qed.
Lemma td_subgroups a : type_or_value_error (check_subgroups a).
Proof.
  destruct a as [|l|]; cbn [check_subgroups]; [apply td_ok| |apply td_type]. intros e H. destruct (_ && _) eqn:K; cbn [require] in H; [|apply td_value in H; exact H]. apply andb_true_iff in K as (K & _). rewrite forallb_forall in K.
  assert (G : forall k, In k ["always_takers"; "never_takers"] -> exists v, dict_get k l = Some v). { intros k Hk. apply in_get. specialize (K k Hk). apply existsb_exists in K as (z & Q & Ez). apply String.eqb_eq in Ez. now subst z. }
  destruct (G "always_takers") as (va & Ea); [cbn; auto|]. destruct (G "never_takers") as (vb & Eb); [cbn; auto|]. rewrite Ea, Eb in H. revert e H. apply td_bind; [apply td_bool|intro]. apply td_bind; [apply td_bool|intro; td].
Qed.
Lemma td_weights a k n r : arrays_given a -> k <> ScCallable -> type_or_value_error (check_weights a k n r).
Proof.
  intros Ag K. destruct a as [|a|ew eb ex|]; cbn [check_weights]; td.
  - apply td_bind; [td|intro]. destruct k; td.
  - destruct k; [|td|contradiction]. destruct ew as [| |va], eb as [| |vb]; cbn [present andb]; try (apply td_value); try (destruct Ag; congruence).
    apply td_req_v. cbn [need_shape]. apply td_bind; [td|intro]. apply td_bind; [td|intro]. td.
Qed.
Ltac tb := apply td_bind; [first [apply td_base | apply td_redraw | apply td_learner | apply td_score | apply td_bool | apply td_outcome | apply td_trim | apply td_subgroups | apply td_did | idtac]|intro].
Ltac tds := repeat first [apply td_ok | apply td_type | apply td_value | apply td_req_t | apply td_req_v | assumption | progress tb | progress (cbv zeta)].
Lemma irm_errors ml_g ml_m nf nr score wa norm rule thr draw : arrays_given wa -> type_or_value_error (irm_init L rd fr s ml_g ml_m nf nr score wa norm rule thr draw).
Proof. intro Ag. unfold irm_init. tb. do 2 apply td_req_v. tb. tb. tb. tb. tb. tb. tb. cbv zeta. apply td_bind; [apply td_weights; [exact Ag|destruct (String.eqb _ _); discriminate]|intro; td]. Qed.
Lemma apo_errors ml_g ml_m level nf nr score wa norm rule thr draw : arrays_given wa -> type_or_value_error (apo_init L rd fr s ml_g ml_m level nf nr score wa norm rule thr draw).
Proof. intro Ag. unfold apo_init. tb. cbv zeta. do 3 apply td_req_v. do 7 tb. apply td_bind; [apply td_weights; [exact Ag|discriminate]|intro; td]. Qed.
Lemma iivm_errors ml_g ml_m ml_r nf nr score sg norm rule thr draw : type_or_value_error (iivm_init L rd fr s ml_g ml_m ml_r nf nr score sg norm rule thr draw).
Proof. unfold iivm_init. tb. apply td_req_v. destruct (M_Data.c_z s) as [[|z [|z' l]]|]; td. tds. Qed.
Lemma did_errors ml_g ml_m nf nr score norm rule thr draw : type_or_value_error (did_init L rd fr s ml_g ml_m nf nr score norm rule thr draw).
Proof. unfold did_init. tds. Qed.
Lemma cs_errors ml_g ml_m nf nr score norm rule thr draw : type_or_value_error (cs_init L rd fr s ml_g ml_m nf nr score norm rule thr draw).
Proof. unfold cs_init. tb. do 2 apply td_req_v. destruct (M_Data.c_t s); tds. Qed.
Lemma ssm_errors tts ml_g ml_pi ml_m nf nr score norm rule thr draw : M_Data.c_s s <> None -> type_or_value_error (ssm_init L rd fr s tts ml_g ml_pi ml_m nf nr score norm rule thr draw).
Proof. intro S. unfold ssm_init. tb. tb. apply td_req_v. tb. destruct (M_Data.c_s s); [|contradiction]. tds. Qed.
Lemma plr_errors ml_l ml_m ml_g nf nr score draw : type_or_value_error (plr_init L rd fr s ml_l ml_m ml_g nf nr score draw).
Proof.
  unfold plr_init. tb. apply td_req_v. tb. tb. tb. cbv zeta. apply td_bind; [|intro; apply td_bind; [td|intro; td]]. destruct ml_g as [l|]; [|td]. destruct (String.eqb _ _); [|td]. tb. td.
Qed.
Lemma pliv_errors proj ml_l ml_m ml_r ml_g nf nr score draw : type_or_value_error (pliv_init L rd fr s proj ml_l ml_m ml_r ml_g nf nr score draw).
Proof.
  unfold pliv_init. tb. destruct (M_Data.c_z s) as [[|z more]|]; td. tb. tb. tb. tb. cbv zeta. apply td_bind; [|intro; td]. destruct ml_g as [l|]; destruct (String.eqb _ _); td. tb. td.
Qed.
Lemma pliv_z_errors proj dummy ml_r nf nr score draw : type_or_value_error (pliv_partial_z L rd fr s proj dummy ml_r nf nr score draw).
Proof. unfold pliv_partial_z. apply td_bind; [apply pliv_errors|intro]. tds. Qed.
Lemma pliv_xz_errors proj ml_l ml_m ml_r nf nr score draw : type_or_value_error (pliv_partial_xz L rd fr s proj ml_l ml_m ml_r nf nr score draw).
Proof. unfold pliv_partial_xz. apply td_bind; [apply pliv_errors|intro]. tds. Qed.
End Refused.

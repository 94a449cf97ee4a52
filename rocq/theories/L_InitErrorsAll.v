(** The split over clusters and the errors of refused calls, for data with or
    without cluster variables. *)
From Verif Require Import L_DataProps.
From Verif Require Export L_InitAcceptAll L_InitErrors.
From Coq Require Import Lia Lra.
Local Open Scope R_scope.
Local Open Scope res_scope.
Local Open Scope string_scope.

Section Drawn.
Context {E P : Type}.
Variable L : learner E row P.
Variable rd : randomness.
Variable fr : M_Data.frame.
Variable s : M_Data.ddata.
Hypothesis Re : S_Data.reachable fr s.
Variable cs : list string.
Hypothesis Cc : M_Data.r_cl (M_Data.dd_roles s) = Some cs.
Hypothesis Rd : sound_randomness rd.
Lemma ClC : M_Data.c_cl s = Some cs.
Proof. destruct (arrays_r fr s Re) as (_ & _ & _ & _ & C & _). rewrite C. exact Cc. Qed.
Lemma base_cells nf nr (w : world P) : base_new rd fr s nf nr (PBool true) = Ok w -> cluster_split_drawn fr cs nf nr w.
Proof.
  intro B. destruct (base_cl_inv rd fr s cs ClC _ _ _ _ B) as (_ & _ & _ & _ & _ & b & Eb & _ & _ & D). injection Eb as <-. destruct (D eq_refl) as (sm & sc & D' & A1 & A2).
  destruct Rd as (_ & Pp & _). exact (codes_split fr cs _ _ _ _ _ _ Pp D' A1 A2).
Qed.
Lemma redrawn_cells nf nr (w w' : world P) v : base_new rd fr s nf nr (PBool true) = Ok w -> redraw rd fr s v (PBool true) w = Ok w' -> cluster_split_drawn fr cs nf nr w'.
Proof.
  intros B R. destruct (redraw_cl rd fr s cs ClC _ _ _ _ v B) as (w2 & R2 & _ & D). rewrite R in R2. apply ok_inj in R2. subst w2. destruct (D eq_refl) as (sm & sc & D' & A1 & A2).
  destruct Rd as (_ & _ & _ & Pp). exact (codes_split fr cs _ _ _ _ _ _ Pp D' A1 A2).
Qed.
Ltac bi H x X := apply bind_ok in H as (x & X & H).
Ltac ri H X := apply require_ok in H as (X & H).
Lemma irm_cells ml_g ml_m nf nr score wa norm rule thr C w0 : irm_init L rd fr s ml_g ml_m nf nr score wa norm rule thr (PBool true) = Ok (C, w0) -> cluster_split_drawn fr cs nf nr w0.
Proof. intro H. unfold irm_init in H. bi H w B. ri H Zn. ri H D. bi H sc' Sc. bi H w' Rw. bi H gc G. bi H mm M. bi H u Og. bi H nm Nm. bi H th T. cbv zeta in H. bi H u' W. apply ok_inj in H. injection H as _ <-. exact (redrawn_cells _ _ _ _ _ B Rw). Qed.
Lemma apo_cells ml_g ml_m level nf nr score wa norm rule thr C w0 : apo_init L rd fr s ml_g ml_m level nf nr score wa norm rule thr (PBool true) = Ok (C, w0) -> cluster_split_drawn fr cs nf nr w0.
Proof. intro H. unfold apo_init in H. bi H w B. cbv zeta in H. ri H D. ri H Zn. ri H Tr. bi H sc' Sc. bi H w' Rw. bi H gc G. bi H mm M. bi H u Og. bi H nm1 Nm. bi H th1 T. bi H u' W. apply ok_inj in H. injection H as _ <-. exact (redrawn_cells _ _ _ _ _ B Rw). Qed.
Lemma iivm_cells ml_g ml_m ml_r nf nr score sg norm rule thr C w0 : iivm_init L rd fr s ml_g ml_m ml_r nf nr score sg norm rule thr (PBool true) = Ok (C, w0) -> cluster_split_drawn fr cs nf nr w0.
Proof. intro H. unfold iivm_init in H. bi H w B. ri H D. destruct (M_Data.c_z s) as [[|z [|z' l]]|]; try discriminate. ri H Zn. bi H sc' Sc. cbv zeta in H. bi H w' Rw. bi H gc G. bi H mm M. bi H rr Mr. bi H u Og. bi H nm Nm. bi H th T. bi H p W. apply ok_inj in H. injection H as _ <-. exact (redrawn_cells _ _ _ _ _ B Rw). Qed.
Lemma did_cells ml_g ml_m nf nr score norm rule thr C w0 : did_init L rd fr s ml_g ml_m nf nr score norm rule thr (PBool true) = Ok (C, w0) -> cluster_split_drawn fr cs nf nr w0.
Proof. intro H. unfold did_init in H. bi H w B. ri H Zn. ri H D. bi H sc' Sc. bi H nm Nm. bi H w' Rw. cbv zeta in H. bi H ls Ls. bi H th T. apply ok_inj in H. injection H as _ <-. exact (redrawn_cells _ _ _ _ _ B Rw). Qed.
Lemma cs_cells ml_g ml_m nf nr score norm rule thr C w0 : cs_init L rd fr s ml_g ml_m nf nr score norm rule thr (PBool true) = Ok (C, w0) -> cluster_split_drawn fr cs nf nr w0.
Proof. intro H. unfold cs_init in H. bi H w B. ri H Zn. ri H D. destruct (M_Data.c_t s) as [tc|]; [|discriminate]. ri H Zt. bi H sc' Sc. bi H nm Nm. cbv zeta in H. bi H w' Rw. bi H ls Ls. bi H th T. apply ok_inj in H. injection H as _ <-. exact (redrawn_cells _ _ _ _ _ B Rw). Qed.
Lemma ssm_cells tts ml_g ml_pi ml_m nf nr score norm rule thr C w0 : ssm_init L rd fr s tts ml_g ml_pi ml_m nf nr score norm rule thr (PBool true) = Ok (C, w0) -> cluster_split_drawn fr cs nf nr w0.
Proof. intro H. unfold ssm_init in H. bi H w B. bi H th T. ri H Zn. bi H sc' Sc. destruct (M_Data.c_s s) as [sel|]; [|discriminate]. cbv zeta in H. bi H w' Rw. bi H gc G. bi H pp Mp. bi H mm M. bi H u Og. bi H nm Nm. apply ok_inj in H. injection H as _ <-. exact (redrawn_cells _ _ _ _ _ B Rw). Qed.
Lemma plr_cells ml_l ml_m ml_g nf nr score C w0 : plr_init L rd fr s ml_l ml_m ml_g nf nr score (PBool true) = Ok (C, w0) -> cluster_split_drawn fr cs nf nr w0.
Proof. intro H. unfold plr_init in H. bi H w B. ri H Zn. bi H sc' Sc. bi H cla Ll. bi H mcl Lm. cbv zeta in H. bi H gq G. bi H u Bn. apply ok_inj in H. injection H as _ <-. exact (base_cells _ _ _ B). Qed.
Lemma pliv_cells proj ml_l ml_m ml_r ml_g nf nr score C w0 : pliv_init L rd fr s proj ml_l ml_m ml_r ml_g nf nr score (PBool true) = Ok (C, w0) -> cluster_split_drawn fr cs nf nr w0.
Proof. intro H. unfold pliv_init in H. bi H w B. destruct (M_Data.c_z s) as [[|z more]|]; try discriminate. bi H sc' Sc. bi H cla Ll. bi H clb Lm. bi H clc Lr. cbv zeta in H. bi H gq G. apply ok_inj in H. injection H as _ <-. exact (base_cells _ _ _ B). Qed.
End Drawn.

(** *** Errors *)
Section Refused.
Context {E P : Type}.
Variable L : learner E row P.
Variable rd : randomness.
Variable fr : M_Data.frame.
Variable s : M_Data.ddata.
Hypothesis Two : match M_Data.c_cl s with None => True | Some cs => (length cs <= 2)%nat end.
Ltac td := repeat first [apply td_ok | apply td_type | apply td_value | apply td_req_t | apply td_req_v | assumption].
Lemma td_clusters k r n cv perm : type_or_value_error (cluster_resampling k r n cv perm).
Proof.
  unfold cluster_resampling. apply td_bind; [|intro; td]. generalize (seq 0 r). intro l. induction l as [|a l IH]; cbn [map_res]; [td|].
  apply td_bind; [|intro; apply td_bind; [exact IH|intro; td]]. apply td_bind; [|intro; td]. generalize (combine (seq 0 (length cv)) cv). intro q. induction q as [|b q IQ]; cbn [map_res]; [td|].
  apply td_bind; [|intro; apply td_bind; [exact IQ|intro; td]]. unfold cluster_var_folds. apply td_bind; [|intro; td]. unfold kfold. repeat (match goal with |- type_or_value_error (if ?b then _ else _) => destruct b end; td).
Qed.
Lemma td_draw (C : ctx P) g perm w : type_or_value_error (snd (draw_sample_splitting C g perm w)).
Proof.
  unfold draw_sample_splitting. unfold andthen at 1, lift at 1. cbv zeta. destruct (c_cluster C) as [cv|].
  - unfold andthen, lift. match goal with |- context [cluster_resampling ?a ?b ?c ?d ?x] => pose proof (td_clusters a b c d x) as T; destruct (cluster_resampling a b c d x) as [sm|e2] end; [cbn; td|]. intros e H. injection H as <-. apply T. reflexivity.
  - unfold andthen, lift. match goal with |- context [resampling ?a ?b ?c ?d ?x] => pose proof (td_resampling a b c d x) as T; destruct (resampling a b c d x) as [sm|e2] end; [cbn; td|]. intros e H. injection H as <-. apply T. reflexivity.
Qed.
Lemma td_base_all nf nr dr : type_or_value_error (@base_new P rd fr s nf nr dr).
Proof.
  intros e H. unfold base_new, new_object in H. match type of H with context [construct _ _ _ _ _ _ ?x] => set (w0 := x) in H end. destruct (construct _ nf nr dr _ _ w0) as [w1 [u|e1]] eqn:Ec; [discriminate|]. injection H as <-.
  assert (Ic : match c_cluster (@base_ctx P fr s) with Some cv => Nat.leb (length cv) 2 | None => true end = true).
  { unfold base_ctx, with_clusters. destruct (M_Data.c_cl s) as [cs|]; [|reflexivity]. cbn [option_map clustered c_cluster]. rewrite map_length. apply Nat.leb_le, Two. }
  unfold construct in Ec. rewrite Ic in Ec. unfold andthen at 1, lift at 1 in Ec. cbn [require] in Ec.
  unfold andthen at 1, lift at 1 in Ec. destruct (is_int nf); cbn [require] in Ec; [|apply pair_equal_spec in Ec as [_ Ec]; injection Ec as <-; auto].
  destruct (Z.leb 1 (int_val nf)); cbn [require] in Ec; [|apply pair_equal_spec in Ec as [_ Ec]; injection Ec as <-; auto].
  unfold andthen at 1, lift at 1 in Ec. destruct (is_int nr); cbn [require] in Ec; [|apply pair_equal_spec in Ec as [_ Ec]; injection Ec as <-; auto].
  destruct (Z.leb 1 (int_val nr)); cbn [require] in Ec; [|apply pair_equal_spec in Ec as [_ Ec]; injection Ec as <-; auto].
  unfold andthen at 1, lift at 1 in Ec. destruct (is_bool dr); cbn [require] in Ec; [|apply pair_equal_spec in Ec as [_ Ec]; injection Ec as <-; auto].
  cbv zeta in Ec. unfold andthen at 1, assign at 1 in Ec. match type of Ec with context [with_spec ?a ?b ?c ?d] => set (o := with_spec a b c d) in Ec end.
  assert (Ni : forall w, exists w', (initialize_arrays (@base_ctx P fr s) ;;; initialize_params) w = (w', Ok tt)) by (intro w; exists (fresh (@base_ctx P fr s) w); apply (init_both_eq (@base_ctx P fr s))).
  unfold andthen at 1 in Ec. destruct dr as [| |[]| | | |]; try (unfold ret in Ec; match type of Ec with (_ ?w) = _ => destruct (Ni w) as (w' & Q); rewrite Q in Ec; discriminate end).
  match type of Ec with context [draw_sample_splitting ?C ?g ?p ?w] => pose proof (td_draw C g p w) as T; destruct (draw_sample_splitting C g p w) as [w3 [[]|e2]] end.
  - match type of Ec with (_ ?w) = _ => destruct (Ni w) as (w' & Q); rewrite Q in Ec; discriminate end.
  - apply pair_equal_spec in Ec as [_ Ec]. injection Ec as <-. apply T. reflexivity.
Qed.
Lemma td_redraw_all v dr (w : world P) : type_or_value_error (redraw rd fr s v dr w).
Proof.
  unfold redraw. destruct dr as [| |[]| | | |]; td.
  match goal with |- context [draw_sample_splitting ?C ?g ?p ?w] => pose proof (td_draw C g p w) as T; destruct (draw_sample_splitting C g p w) as [w3 [[]|e2]] end; [td|]. intros e H. injection H as <-. apply T. reflexivity.
Qed.
Ltac tb := apply td_bind; [first [apply td_base_all | apply td_redraw_all | apply td_learner | apply td_score | apply td_bool | apply td_outcome | apply td_trim | apply td_subgroups | apply td_did | idtac]|intro].
Ltac tds := repeat first [apply td_ok | apply td_type | apply td_value | apply td_req_t | apply td_req_v | assumption | progress tb | progress (cbv zeta)].
Lemma irm_errors_all ml_g ml_m nf nr score wa norm rule thr draw : arrays_given wa -> type_or_value_error (irm_init L rd fr s ml_g ml_m nf nr score wa norm rule thr draw).
Proof. intro Ag. unfold irm_init. tb. do 2 apply td_req_v. tb. tb. tb. tb. tb. tb. tb. cbv zeta. apply td_bind; [apply td_weights; [exact Ag|destruct (String.eqb _ _); discriminate]|intro; td]. Qed.
Lemma apo_errors_all ml_g ml_m level nf nr score wa norm rule thr draw : arrays_given wa -> type_or_value_error (apo_init L rd fr s ml_g ml_m level nf nr score wa norm rule thr draw).
Proof. intro Ag. unfold apo_init. tb. cbv zeta. do 3 apply td_req_v. do 7 tb. apply td_bind; [apply td_weights; [exact Ag|discriminate]|intro; td]. Qed.
Lemma iivm_errors_all ml_g ml_m ml_r nf nr score sg norm rule thr draw : type_or_value_error (iivm_init L rd fr s ml_g ml_m ml_r nf nr score sg norm rule thr draw).
Proof. unfold iivm_init. tb. apply td_req_v. destruct (M_Data.c_z s) as [[|z [|z' l]]|]; td. tds. Qed.
Lemma did_errors_all ml_g ml_m nf nr score norm rule thr draw : type_or_value_error (did_init L rd fr s ml_g ml_m nf nr score norm rule thr draw).
Proof. unfold did_init. tds. Qed.
Lemma cs_errors_all ml_g ml_m nf nr score norm rule thr draw : type_or_value_error (cs_init L rd fr s ml_g ml_m nf nr score norm rule thr draw).
Proof. unfold cs_init. tb. do 2 apply td_req_v. destruct (M_Data.c_t s); tds. Qed.
Lemma ssm_errors_all tts ml_g ml_pi ml_m nf nr score norm rule thr draw : M_Data.c_s s <> None -> type_or_value_error (ssm_init L rd fr s tts ml_g ml_pi ml_m nf nr score norm rule thr draw).
Proof. intro S. unfold ssm_init. tb. tb. apply td_req_v. tb. destruct (M_Data.c_s s); [|contradiction]. tds. Qed.
Lemma plr_errors_all ml_l ml_m ml_g nf nr score draw : type_or_value_error (plr_init L rd fr s ml_l ml_m ml_g nf nr score draw).
Proof.
  unfold plr_init. tb. apply td_req_v. tb. tb. tb. cbv zeta. apply td_bind; [|intro; apply td_bind; [td|intro; td]]. destruct ml_g as [l|]; [|td]. destruct (String.eqb _ _); [|td]. tb. td.
Qed.
Lemma pliv_errors_all proj ml_l ml_m ml_r ml_g nf nr score draw : type_or_value_error (pliv_init L rd fr s proj ml_l ml_m ml_r ml_g nf nr score draw).
Proof.
  unfold pliv_init. tb. destruct (M_Data.c_z s) as [[|z more]|]; td. tb. tb. tb. tb. cbv zeta. apply td_bind; [|intro; td]. destruct ml_g as [l|]; destruct (String.eqb _ _); td. tb. td.
Qed.
Lemma pliv_z_errors_all proj dummy ml_r nf nr score draw : type_or_value_error (pliv_partial_z L rd fr s proj dummy ml_r nf nr score draw).
Proof. unfold pliv_partial_z. apply td_bind; [apply pliv_errors_all|intro]. tds. Qed.
Lemma pliv_xz_errors_all proj ml_l ml_m ml_r nf nr score draw : type_or_value_error (pliv_partial_xz L rd fr s proj ml_l ml_m ml_r nf nr score draw).
Proof. unfold pliv_partial_xz. apply td_bind; [apply pliv_errors_all|intro]. tds. Qed.
End Refused.

(** More than two cluster columns: not implemented, whatever the other arguments. *)
Section Many.
Context {E P : Type}.
Variable L : learner E row P.
Variable rd : randomness.
Variable f : M_Data.frame.
Variable s : M_Data.ddata.
Hypothesis Con : S_Data.constructed f s.
Hypothesis Many : ~ two_clusters s.
Lemma base_many nf nr dr : @base_new P rd f s nf nr dr = Err NotImplementedError.
Proof.
  destruct (L_InitAccept.arrays f s Con) as (_ & _ & _ & _ & C & _). unfold two_clusters in Many. destruct (M_Data.r_cl (M_Data.dd_roles s)) as [cs|] eqn:Q; [|tauto].
  unfold base_new, new_object, construct, base_ctx, with_clusters. rewrite C. cbn [option_map clustered c_cluster]. rewrite map_length.
  replace (Nat.leb (length cs) 2) with false by (symmetry; apply Nat.leb_gt; lia). reflexivity.
Qed.
Lemma plr_many ml_l ml_m ml_g nf nr score draw : plr_init L rd f s ml_l ml_m ml_g nf nr score draw = Err NotImplementedError.
Proof. unfold plr_init. rewrite base_many. reflexivity. Qed.
Lemma pliv_many proj ml_l ml_m ml_r ml_g nf nr score draw : pliv_init L rd f s proj ml_l ml_m ml_r ml_g nf nr score draw = Err NotImplementedError.
Proof. unfold pliv_init. rewrite base_many. reflexivity. Qed.
Lemma irm_many ml_g ml_m nf nr score wa norm rule thr draw : irm_init L rd f s ml_g ml_m nf nr score wa norm rule thr draw = Err NotImplementedError.
Proof. unfold irm_init. rewrite base_many. reflexivity. Qed.
Lemma apo_many ml_g ml_m level nf nr score wa norm rule thr draw : apo_init L rd f s ml_g ml_m level nf nr score wa norm rule thr draw = Err NotImplementedError.
Proof. unfold apo_init. rewrite base_many. reflexivity. Qed.
Lemma iivm_many ml_g ml_m ml_r nf nr score sg norm rule thr draw : iivm_init L rd f s ml_g ml_m ml_r nf nr score sg norm rule thr draw = Err NotImplementedError.
Proof. unfold iivm_init. rewrite base_many. reflexivity. Qed.
Lemma did_many ml_g ml_m nf nr score norm rule thr draw : did_init L rd f s ml_g ml_m nf nr score norm rule thr draw = Err NotImplementedError.
Proof. unfold did_init. rewrite base_many. reflexivity. Qed.
Lemma cs_many ml_g ml_m nf nr score norm rule thr draw : cs_init L rd f s ml_g ml_m nf nr score norm rule thr draw = Err NotImplementedError.
Proof. unfold cs_init. rewrite base_many. reflexivity. Qed.
Lemma ssm_many tts ml_g ml_pi ml_m nf nr score norm rule thr draw : ssm_init L rd f s tts ml_g ml_pi ml_m nf nr score norm rule thr draw = Err NotImplementedError.
Proof. unfold ssm_init. rewrite base_many. reflexivity. Qed.
Lemma pliv_z_many proj dummy ml_r nf nr score draw : pliv_partial_z L rd f s proj dummy ml_r nf nr score draw = Err NotImplementedError.
Proof. unfold pliv_partial_z. rewrite pliv_many. reflexivity. Qed.
Lemma pliv_xz_many proj ml_l ml_m ml_r nf nr score draw : pliv_partial_xz L rd f s proj ml_l ml_m ml_r nf nr score draw = Err NotImplementedError.
Proof. unfold pliv_partial_xz. rewrite pliv_many. reflexivity. Qed.
End Many.

Lemma few f s : S_Data.constructed f s -> two_clusters s -> match M_Data.c_cl s with None => True | Some cs => (length cs <= 2)%nat end /\ M_Data.c_s s = M_Data.r_s (M_Data.dd_roles s).
Proof. intros Co Un. destruct (arrays_reachable f s (S_Data.R_new f s Co)) as (_ & _ & _ & S & C & _). rewrite C, S. split; [exact Un|reflexivity]. Qed.
Lemma plr_refused_all : forall (E P : Type) (L : learner E row P) rd f s, S_Data.constructed f s -> two_clusters s ->
  forall (ml_l : pylearner E) (ml_m : pylearner E) (ml_g : option (pylearner E)) nf nr score draw, type_or_value_error (plr_init L rd f s ml_l ml_m ml_g nf nr score draw).
Proof. intros E P L rd f s Co Un. destruct (few f s Co Un) as (C & S). intros. apply plr_errors_all; assumption. Qed.
Lemma pliv_refused_all : forall (E P : Type) (L : learner E row P) rd f s, S_Data.constructed f s -> two_clusters s ->
  forall proj (ml_l : pylearner E) (ml_m : pylearner E) (ml_r : pylearner E) (ml_g : option (pylearner E)) nf nr score draw, type_or_value_error (pliv_init L rd f s proj ml_l ml_m ml_r ml_g nf nr score draw).
Proof. intros E P L rd f s Co Un. destruct (few f s Co Un) as (C & S). intros. apply pliv_errors_all; assumption. Qed.
Lemma pliv_z_refused_all : forall (E P : Type) (L : learner E row P) rd f s, S_Data.constructed f s -> two_clusters s ->
  forall proj (dummy : pylearner E) (ml_r : pylearner E) nf nr score draw, type_or_value_error (pliv_partial_z L rd f s proj dummy ml_r nf nr score draw).
Proof. intros E P L rd f s Co Un. destruct (few f s Co Un) as (C & S). intros. apply pliv_z_errors_all; assumption. Qed.
Lemma pliv_xz_refused_all : forall (E P : Type) (L : learner E row P) rd f s, S_Data.constructed f s -> two_clusters s ->
  forall proj (ml_l : pylearner E) (ml_m : pylearner E) (ml_r : pylearner E) nf nr score draw, type_or_value_error (pliv_partial_xz L rd f s proj ml_l ml_m ml_r nf nr score draw).
Proof. intros E P L rd f s Co Un. destruct (few f s Co Un) as (C & S). intros. apply pliv_xz_errors_all; assumption. Qed.
Lemma irm_refused_all : forall (E P : Type) (L : learner E row P) rd f s, S_Data.constructed f s -> two_clusters s ->
  forall (ml_g : pylearner E) (ml_m : pylearner E) nf nr score wa norm rule thr draw, arrays_given wa -> type_or_value_error (irm_init L rd f s ml_g ml_m nf nr score wa norm rule thr draw).
Proof. intros E P L rd f s Co Un. destruct (few f s Co Un) as (C & S). intros. apply irm_errors_all; assumption. Qed.
Lemma apo_refused_all : forall (E P : Type) (L : learner E row P) rd f s, S_Data.constructed f s -> two_clusters s ->
  forall (ml_g : pylearner E) (ml_m : pylearner E) level nf nr score wa norm rule thr draw, arrays_given wa -> type_or_value_error (apo_init L rd f s ml_g ml_m level nf nr score wa norm rule thr draw).
Proof. intros E P L rd f s Co Un. destruct (few f s Co Un) as (C & S). intros. apply apo_errors_all; assumption. Qed.
Lemma iivm_refused_all : forall (E P : Type) (L : learner E row P) rd f s, S_Data.constructed f s -> two_clusters s ->
  forall (ml_g : pylearner E) (ml_m : pylearner E) (ml_r : pylearner E) nf nr score sg norm rule thr draw, type_or_value_error (iivm_init L rd f s ml_g ml_m ml_r nf nr score sg norm rule thr draw).
Proof. intros E P L rd f s Co Un. destruct (few f s Co Un) as (C & S). intros. apply iivm_errors_all; assumption. Qed.
Lemma did_refused_all : forall (E P : Type) (L : learner E row P) rd f s, S_Data.constructed f s -> two_clusters s ->
  forall (ml_g : pylearner E) (ml_m : option (pylearner E)) nf nr score norm rule thr draw, type_or_value_error (did_init L rd f s ml_g ml_m nf nr score norm rule thr draw).
Proof. intros E P L rd f s Co Un. destruct (few f s Co Un) as (C & S). intros. apply did_errors_all; assumption. Qed.
Lemma cs_refused_all : forall (E P : Type) (L : learner E row P) rd f s, S_Data.constructed f s -> two_clusters s ->
  forall (ml_g : pylearner E) (ml_m : option (pylearner E)) nf nr score norm rule thr draw, type_or_value_error (cs_init L rd f s ml_g ml_m nf nr score norm rule thr draw).
Proof. intros E P L rd f s Co Un. destruct (few f s Co Un) as (C & S). intros. apply cs_errors_all; assumption. Qed.
Lemma ssm_refused_all : forall (E P : Type) (L : learner E row P) rd f s, S_Data.constructed f s -> two_clusters s ->
  forall tts (ml_g : pylearner E) (ml_pi : pylearner E) (ml_m : pylearner E) nf nr score norm rule thr draw, M_Data.r_s (M_Data.dd_roles s) <> None -> type_or_value_error (ssm_init L rd f s tts ml_g ml_pi ml_m nf nr score norm rule thr draw).
Proof. intros E P L rd f s Co Un. destruct (few f s Co Un) as (C & S). intros. apply ssm_errors_all; [exact C|rewrite S; assumption]. Qed.

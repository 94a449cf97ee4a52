(** Errors of refused constructor calls, for data objects as constructed. *)
From Verif Require Import L_DataProps.
From Verif Require Export L_InitSplit.
Local Open Scope R_scope.
Local Open Scope string_scope.

Lemma uncl f s : S_Data.constructed f s -> unclustered s -> M_Data.c_cl s = None /\ M_Data.c_s s = M_Data.r_s (M_Data.dd_roles s).
Proof. intros Co Un. destruct (arrays_reachable f s (S_Data.R_new f s Co)) as (_ & _ & _ & S & C & _). rewrite C, S. split; [exact Un|reflexivity]. Qed.
Lemma plr_refused : forall (E P : Type) (L : learner E row P) rd f s, S_Data.constructed f s -> unclustered s ->
  forall (ml_l : pylearner E) (ml_m : pylearner E) (ml_g : option (pylearner E)) nf nr score draw, type_or_value_error (plr_init L rd f s ml_l ml_m ml_g nf nr score draw).
Proof. intros E P L rd f s Co Un. destruct (uncl f s Co Un) as (C & S). intros. apply plr_errors; assumption. Qed.
Lemma pliv_refused : forall (E P : Type) (L : learner E row P) rd f s, S_Data.constructed f s -> unclustered s ->
  forall proj (ml_l : pylearner E) (ml_m : pylearner E) (ml_r : pylearner E) (ml_g : option (pylearner E)) nf nr score draw, type_or_value_error (pliv_init L rd f s proj ml_l ml_m ml_r ml_g nf nr score draw).
Proof. intros E P L rd f s Co Un. destruct (uncl f s Co Un) as (C & S). intros. apply pliv_errors; assumption. Qed.
Lemma pliv_z_refused : forall (E P : Type) (L : learner E row P) rd f s, S_Data.constructed f s -> unclustered s ->
  forall proj (dummy : pylearner E) (ml_r : pylearner E) nf nr score draw, type_or_value_error (pliv_partial_z L rd f s proj dummy ml_r nf nr score draw).
Proof. intros E P L rd f s Co Un. destruct (uncl f s Co Un) as (C & S). intros. apply pliv_z_errors; assumption. Qed.
Lemma pliv_xz_refused : forall (E P : Type) (L : learner E row P) rd f s, S_Data.constructed f s -> unclustered s ->
  forall proj (ml_l : pylearner E) (ml_m : pylearner E) (ml_r : pylearner E) nf nr score draw, type_or_value_error (pliv_partial_xz L rd f s proj ml_l ml_m ml_r nf nr score draw).
Proof. intros E P L rd f s Co Un. destruct (uncl f s Co Un) as (C & S). intros. apply pliv_xz_errors; assumption. Qed.
Lemma irm_refused : forall (E P : Type) (L : learner E row P) rd f s, S_Data.constructed f s -> unclustered s ->
  forall (ml_g : pylearner E) (ml_m : pylearner E) nf nr score wa norm rule thr draw, arrays_given wa -> type_or_value_error (irm_init L rd f s ml_g ml_m nf nr score wa norm rule thr draw).
Proof. intros E P L rd f s Co Un. destruct (uncl f s Co Un) as (C & S). intros. apply irm_errors; assumption. Qed.
Lemma apo_refused : forall (E P : Type) (L : learner E row P) rd f s, S_Data.constructed f s -> unclustered s ->
  forall (ml_g : pylearner E) (ml_m : pylearner E) level nf nr score wa norm rule thr draw, arrays_given wa -> type_or_value_error (apo_init L rd f s ml_g ml_m level nf nr score wa norm rule thr draw).
Proof. intros E P L rd f s Co Un. destruct (uncl f s Co Un) as (C & S). intros. apply apo_errors; assumption. Qed.
Lemma iivm_refused : forall (E P : Type) (L : learner E row P) rd f s, S_Data.constructed f s -> unclustered s ->
  forall (ml_g : pylearner E) (ml_m : pylearner E) (ml_r : pylearner E) nf nr score sg norm rule thr draw, type_or_value_error (iivm_init L rd f s ml_g ml_m ml_r nf nr score sg norm rule thr draw).
Proof. intros E P L rd f s Co Un. destruct (uncl f s Co Un) as (C & S). intros. apply iivm_errors; assumption. Qed.
Lemma did_refused : forall (E P : Type) (L : learner E row P) rd f s, S_Data.constructed f s -> unclustered s ->
  forall (ml_g : pylearner E) (ml_m : option (pylearner E)) nf nr score norm rule thr draw, type_or_value_error (did_init L rd f s ml_g ml_m nf nr score norm rule thr draw).
Proof. intros E P L rd f s Co Un. destruct (uncl f s Co Un) as (C & S). intros. apply did_errors; assumption. Qed.
Lemma cs_refused : forall (E P : Type) (L : learner E row P) rd f s, S_Data.constructed f s -> unclustered s ->
  forall (ml_g : pylearner E) (ml_m : option (pylearner E)) nf nr score norm rule thr draw, type_or_value_error (cs_init L rd f s ml_g ml_m nf nr score norm rule thr draw).
Proof. intros E P L rd f s Co Un. destruct (uncl f s Co Un) as (C & S). intros. apply cs_errors; assumption. Qed.
Lemma ssm_refused : forall (E P : Type) (L : learner E row P) rd f s, S_Data.constructed f s -> unclustered s ->
  forall tts (ml_g : pylearner E) (ml_pi : pylearner E) (ml_m : pylearner E) nf nr score norm rule thr draw, M_Data.r_s (M_Data.dd_roles s) <> None -> type_or_value_error (ssm_init L rd f s tts ml_g ml_pi ml_m nf nr score norm rule thr draw).
Proof. intros E P L rd f s Co Un. destruct (uncl f s Co Un) as (C & S). intros. apply ssm_errors; [exact C|rewrite S; assumption]. Qed.

(** Examples for refused predictions and successful fits. *)
From Verif Require Export L_FitSuccess.
From Coq Require Import Lia Lra FunctionalExtensionality.
Local Open Scope R_scope.
Local Open Scope string_scope.

(** External predictions for every nuisance function. *)
Definition ext_setup (v : string -> vec) : setup r_memo unit := with_ext (r_setup 8 true) (fun l => Some (v l)).
Definition half : vec := fun _ => 1 / 2.
Definition mixed : string -> vec := fun l => if String.eqb l "ml_g0" then w_d else half.
Lemma half_not_labels : ~ labels_only 8 half.
Proof. intro H. destruct (H 0%nat) as [Z|Z]; [lia| |]; unfold half in Z; lra. Qed.
Lemma w_d_labels : labels_only 8 w_d.
Proof. intros i Hi. eight i; cbn; lra. Qed.
(** 0/1 predictions of the control outcome are accepted, of the treated outcome refused. *)
Lemma control_accepted x y d smpls : exists out, irm_nuis r_learner (ext_setup mixed) false false true true (1 / 100) unit_weights x y d smpls = Ok out /\ class_labels 8 out "ml_g0".
Proof.
  destruct (irm_external r_learner (ext_setup mixed) false false true true (1 / 100) unit_weights x y d smpls w_d half half eq_refl eq_refl eq_refl) as (_ & H).
  destruct H as (out & H); [intros (_ & _ & Z); exact (half_not_labels Z)|]. exists out. split; [exact H|]. unfold irm_nuis in H. cbn [or_ext ext_setup with_ext su_ext bind] in H.
  match type of H with require ?b _ _ = _ => destruct b; [|discriminate] end. cbn [require bind] in H. injection H as <-. intros i Hi. change (Some (w_d i) = Some 0 \/ Some (w_d i) = Some 1). destruct (w_d_labels i Hi) as [->| ->]; auto.
Qed.
Lemma treated_refused x y d smpls g0 m : irm_nuis r_learner (ext_setup (fun l => if String.eqb l "ml_g1" then w_d else if String.eqb l "ml_g0" then g0 else m)) false false true true (1 / 100) unit_weights x y d smpls = Err ValueError.
Proof. eapply irm_external; try reflexivity. split; [reflexivity|]. split; [reflexivity|]. exact w_d_labels. Qed.

(** A regression learner that predicts 1/2. *)
Definition h_learner : learner r_memo row unit := {|
  ln_clone := ln_clone r_learner; ln_set := ln_set r_learner; ln_fit := ln_fit r_learner;
  ln_predict := fun _ xs => map (fun _ => 1 / 2) xs; ln_proba := ln_proba r_learner; ln_classes := ln_classes r_learner |}.
Definition h_setup : setup r_memo unit := r_setup 8 false.
Lemma h_setting : setting h_learner (fun _ _ => 1 / 2) r_proba h_setup w_smpls.
Proof. constructor; [intros e xs; split; reflexivity|exact r_clone|exact w_part|exact w_range|intro l; exact ex_sched]. Qed.
Lemma h_soft name lrn : never_labels (fun _ _ => 1 / 2) r_proba h_setup name lrn.
Proof. intros e v. cbn. lra. Qed.
Lemma h_fits (e : r_memo) p data : data <> [] -> exists m, fitted h_learner e p data m.
Proof. intro H. exists data. destruct p as [[]|]; cbn; [exists []; split; [reflexivity|]|]; (destruct data; [congruence|reflexivity]). Qed.
Lemma h_trainable name lrn y (G : nat -> Prop) a b : (a < 4)%nat -> (4 <= b < 8)%nat -> G a -> G b -> trainable h_learner r_proba h_setup name lrn y G w_smpls.
Proof.
  intros Ha Hb Ga Gb. constructor.
  - intros k p data _ _ H. apply h_fits, H.
  - discriminate.
  - intros h Hh. destruct Hh as [<- | [<- | []]]; [exists b|exists a]; (split; [cbn; lia|split; [assumption|cbn; lia]]).
  - intro Z. discriminate.
  - intro Z. discriminate.
Qed.
Lemma h_binary_irm : exists out, irm_nuis h_learner h_setup false false true true (1 / 100) unit_weights w_x w_t w_d w_smpls = Ok out.
Proof.
  apply (irm_success h_learner (fun _ _ => 1 / 2) r_proba h_setup); [cbn; lia|exact h_setting| | | |intros; apply h_soft|intros; apply h_soft]; intros _.
  - apply (h_trainable _ _ _ _ 0 4); cbn; (lia || lra).
  - apply (h_trainable _ _ _ _ 1 5); cbn; (lia || lra).
  - apply (h_trainable _ _ _ _ 0 4); try lia; exact Logic.I.
Qed.

(** The learner of the other examples, a classifier for the propensity. *)
Lemma r_can_fit (e : r_memo) p data : data <> [] -> exists m, fitted r_learner e p data m.
Proof. intro H. exists data. destruct p as [[]|]; cbn; [exists []; split; [reflexivity|]|]; (destruct data; [congruence|reflexivity]). Qed.
Lemma w_train (su : setup r_memo unit) name lrn y (G : nat -> Prop) a b : su_n su = 8%nat -> su_params su name = NoParams -> su_proba su lrn = false -> (a < 4)%nat -> (4 <= b < 8)%nat -> G a -> G b -> trainable r_learner r_proba su name lrn y G w_smpls.
Proof.
  intros En Ep Eq Ha Hb Ga Gb. constructor.
  - intros k p data _ _ H. apply r_can_fit, H.
  - rewrite Ep. discriminate.
  - rewrite En. intros h Hh. destruct Hh as [<- | [<- | []]]; [exists b|exists a]; (split; [lia|split; [assumption|cbn; lia]]).
  - intro Z. congruence.
  - intro Z. congruence.
Qed.
Lemma w_train_class (su : setup r_memo unit) name lrn y : su_n su = 8%nat -> su_params su name = NoParams -> both_labels 8 y w_smpls -> (exists i j, (i < 8)%nat /\ (j < 8)%nat /\ y i <> y j) -> trainable r_learner r_proba su name lrn y everyone w_smpls.
Proof.
  intros En Ep Hb Ht. constructor.
  - intros k p data _ _ H. apply r_can_fit, H.
  - rewrite Ep. discriminate.
  - rewrite En. intros h Hh. destruct Hh as [<- | [<- | []]]; [exists 4%nat|exists 0%nat]; (split; [lia|split; [exact Logic.I|cbn; lia]]).
  - intros _. split; [exact r_classifier|]. rewrite En. destruct Hb as (A & B & _). intros h i Hh Hi. destruct (A h i Hh Hi) as (j & J1 & J2). exists j. split; [eapply B; eassumption|]. split; [exact Logic.I|]. split; assumption.
  - intros _. rewrite En. exact Ht.
Qed.
Lemma w_d_two : exists i j, (i < 8)%nat /\ (j < 8)%nat /\ w_d i <> w_d j.
Proof. exists 0%nat, 1%nat. split; [lia|]. split; [lia|]. cbn. lra. Qed.
Lemma w_t_two : exists i j, (i < 8)%nat /\ (j < 8)%nat /\ w_t i <> w_t j.
Proof. exists 0%nat, 2%nat. split; [lia|]. split; [lia|]. cbn. lra. Qed.
(** All hypotheses of the success theorems, for the eight rows. *)
Lemma w_ready_d : forall name y b, b = 0 \/ b = 1 -> trainable r_learner r_proba (r_setup 8 true) name "ml_g" y (fun i => w_d i = b) w_smpls.
Proof. intros name y b [->| ->]; [apply (w_train _ _ _ _ _ 0 4)|apply (w_train _ _ _ _ _ 1 5)]; try reflexivity; try lia; cbn; lra. Qed.
Lemma w_ready_z : forall name lrn y b, b = 0 \/ b = 1 -> lrn <> "ml_m" -> trainable r_learner r_proba (r_setup 8 true) name lrn y (fun i => w_t i = b) w_smpls.
Proof.
  intros name lrn y b Hb Hl. assert (Q : su_proba (r_setup 8 true) lrn = false) by (cbn; apply String.eqb_neq; exact Hl).
  destruct Hb as [->| ->]; [apply (w_train _ _ _ _ _ 0 4)|apply (w_train _ _ _ _ _ 2 6)]; try reflexivity; try exact Q; try lia; cbn; lra.
Qed.
Lemma w_ready_all : forall name lrn y, lrn <> "ml_m" -> trainable r_learner r_proba (r_setup 8 true) name lrn y everyone w_smpls.
Proof.
  intros name lrn y Hl. assert (Q : su_proba (r_setup 8 true) lrn = false) by (cbn; apply String.eqb_neq; exact Hl). apply (w_train _ _ _ _ _ 0 4); try reflexivity; try exact Q; try lia; exact Logic.I.
Qed.
Lemma w_ready_m : forall name, trainable r_learner r_proba (r_setup 8 true) name "ml_m" w_d everyone w_smpls /\ trainable r_learner r_proba (r_setup 8 true) name "ml_m" w_t everyone w_smpls.
Proof. intro name. split; apply w_train_class; try reflexivity; [exact w_d_both|exact w_d_two|exact w_t_both|exact w_t_two]. Qed.
Lemma w_ready_cell : forall name lrn y a b, (a = 0 \/ a = 1) -> (b = 0 \/ b = 1) -> lrn <> "ml_m" -> trainable r_learner r_proba (r_setup 8 true) name lrn y (fun i => w_d i = a /\ w_t i = b) w_smpls.
Proof.
  intros name lrn y a b Ha Hb Hl. assert (Q : su_proba (r_setup 8 true) lrn = false) by (cbn; apply String.eqb_neq; exact Hl).
  destruct Ha as [->| ->], Hb as [->| ->]; [apply (w_train _ _ _ _ _ 0 4)|apply (w_train _ _ _ _ _ 2 6)|apply (w_train _ _ _ _ _ 1 5)|apply (w_train _ _ _ _ _ 3 7)]; try reflexivity; try exact Q; try lia; cbn; lra.
Qed.
(** A complete fit. *)
Lemma w_fit_ready : exists w, soundly_reached w_irm_ctx w /\ sound_learning r_learner r_predict r_proba w_machine w /\ (exists sm, m_smpls (w_obj w) = Some sm) /\
  ready r_learner r_proba w_machine w 8 0 "d" "ml_g0" "ml_g" w_y (fun i => w_d i = 0) /\ ready r_learner r_proba w_machine w 8 0 "d" "ml_g1" "ml_g" w_y (fun i => w_d i = 1) /\
  ready r_learner r_proba w_machine w 8 0 "d" "ml_m" "ml_m" w_d everyone.
Proof.
  destruct w_irm_new as (w0 & N & Es & En & Ep). exists w0. split.
  { exists (PInt 2), (PInt 1), (PBool true), g_id, no_perm, w0, []. split; [split; reflexivity|]. split; [intros r v l; reflexivity|]. split; [exact N|]. split; [intros o []|reflexivity]. }
  split; [apply w_learning, Es|]. split; [eauto|].
  assert (R : forall name lrn y G, trainable r_learner r_proba (r_setup 8 true) name lrn y G w_smpls -> ready r_learner r_proba w_machine w0 8 0 "d" name lrn y G).
  { intros name lrn y G T sm r fs E Er. rewrite Es in E. injection E as <-. destruct r as [|[|r]]; [injection Er as <-|discriminate|discriminate]. rewrite (w_setup w0 "d" 0 Ep). exact T. }
  split; [apply R, w_ready_d; auto|]. split; [apply R, w_ready_d; auto|]. apply R, w_ready_m.
Qed.
Lemma w_plr_fit_ready : exists w, soundly_reached w_plr_ctx w /\ sound_learning r_learner r_predict r_proba w_machine w /\ (exists sm, m_smpls (w_obj w) = Some sm) /\
  forall t col, nth_error ["d"; "e"] t = Some col -> ready r_learner r_proba w_machine w 8 t col "ml_l" "ml_l" w_y everyone /\ ready r_learner r_proba w_machine w 8 t col "ml_m" "ml_m" (match t with O => w_d | _ => w_t end) everyone.
Proof.
  destruct w_plr_new as (w0 & N & Es & En & Ep). exists w0. split.
  { exists (PInt 2), (PInt 1), (PBool true), g_id, no_perm, w0, []. split; [split; reflexivity|]. split; [intros r v l; reflexivity|]. split; [exact N|]. split; [intros o []|reflexivity]. }
  split; [apply w_learning, Es|]. split; [eauto|]. intros t col _.
  assert (R : forall name lrn y G, trainable r_learner r_proba (r_setup 8 true) name lrn y G w_smpls -> ready r_learner r_proba w_machine w0 8 t col name lrn y G).
  { intros name lrn y G T sm r fs E Er. rewrite Es in E. injection E as <-. destruct r as [|[|r]]; [injection Er as <-|discriminate|discriminate]. rewrite (w_setup w0 col t Ep). exact T. }
  split; [apply R, w_ready_all; discriminate|]. apply R. destruct t; apply w_ready_m.
Qed.
Lemma control_treated : exists (su : setup r_memo unit) v g0 m, (forall x y d smpls, exists out,
    irm_nuis r_learner su false false true true (1 / 100) unit_weights x y d smpls = Ok out /\ su_ext su "ml_g0" = Some v /\ class_labels 8 out "ml_g0") /\
  forall x y d smpls, irm_nuis r_learner (ext_setup (fun l => if String.eqb l "ml_g1" then v else if String.eqb l "ml_g0" then g0 else m)) false false true true (1 / 100) unit_weights x y d smpls = Err ValueError.
Proof.
  exists (ext_setup mixed), w_d, half, half. split.
  - intros x y d smpls. destruct (control_accepted x y d smpls) as (out & A & B). exists out. split; [exact A|]. split; [reflexivity|exact B].
  - intros. apply treated_refused.
Qed.

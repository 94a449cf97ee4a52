(** Refused predictions, irrelevant learners, success. *)
From Verif Require Export S_Checks L_NuisWitness.
From Coq Require Import Lia Lra.
Local Open Scope R_scope.
Local Open Scope res_scope.
Local Open Scope string_scope.

Lemma binary_preds_iff n h : binary_preds n h = true <-> forall i, (i < n)%nat -> h_preds h i = Some 0 \/ h_preds h i = Some 1.
Proof.
  unfold binary_preds. rewrite forallb_forall. split; intros H i Hi.
  - specialize (H i). rewrite in_seq in H. specialize (H ltac:(lia)). destruct (h_preds h i) as [p|]; [|discriminate]. apply orb_prop in H. rewrite !reqb_spec in H. destruct H; subst; auto.
  - apply in_seq in Hi. destruct (H i) as [-> | ->]; [lia| |]; rewrite orb_true_iff, !reqb_spec; auto.
Qed.

Ltac step H := match type of H with bind ?m _ = Ok _ => let v := fresh "v" in let Ev := fresh "Ev" in destruct m as [v|] eqn:Ev; [cbn [bind] in H|discriminate] end.
Ltac gate H := match type of H with require ?b _ _ = Ok _ => let Eb := fresh "Eb" in destruct b eqn:Eb; [cbn [require] in H|discriminate] end.

Section Checks.
Context {E P : Type}.
Variable L : learner E row P.
Variable su : setup E P.
Notation n := (su_n su).

Lemma plr_refuses iv x y d smpls out : plr_nuis L su iv true x y d smpls = Ok out -> ~ class_labels n out "ml_m".
Proof.
  intros H C. unfold plr_nuis in H. step H. step H. gate H. step H. injection H as <-. apply negb_true_iff in Eb. cbn [andb] in Eb.
  assert (B : binary_preds n v0 = true) by (apply binary_preds_iff; exact C). congruence.
Qed.
Lemma irm_refuses atte norm tr thr w x y d smpls out : irm_nuis L su atte norm true tr thr w x y d smpls = Ok out ->
  (su_ext su "ml_g0" = None -> ~ class_labels n out "ml_g0") /\ (atte = false -> ~ class_labels n out "ml_g1").
Proof.
  intros H. unfold irm_nuis in H. step H. step H. gate H. step H. injection H as <-. apply negb_true_iff in Eb. split.
  - intros Hx C. unfold or_ext in Ev. rewrite Hx in Ev. step Ev. gate Ev. injection Ev as <-. apply negb_true_iff in Eb0. cbn [andb] in Eb0.
    assert (B : binary_preds n v2 = true) by (apply binary_preds_iff; exact C). congruence.
  - intros -> C. cbn [andb negb] in Eb. assert (B : binary_preds n v0 = true) by (apply binary_preds_iff; exact C). congruence.
Qed.
Lemma apo_refuses norm tr thr w x y d t smpls out : apo_nuis L su norm true tr thr w x y d t smpls = Ok out -> ~ class_labels n out "ml_g_d_lvl0" /\ ~ class_labels n out "ml_g_d_lvl1".
Proof.
  intros H. unfold apo_nuis in H. cbv zeta in H. step H. gate H. step H. gate H. step H. injection H as <-. apply negb_true_iff in Eb, Eb0. cbn [andb] in Eb, Eb0.
  split; intro C; [assert (B : binary_preds n v0 = true)|assert (B : binary_preds n v = true)]; try (apply binary_preds_iff; exact C); congruence.
Qed.
Lemma iivm_refuses norm at_ nt tr thr x y z d smpls out : iivm_nuis L su norm true at_ nt tr thr x y z d smpls = Ok out -> ~ class_labels n out "ml_g0" /\ ~ class_labels n out "ml_g1".
Proof.
  intros H. unfold iivm_nuis in H. cbv zeta in H. step H. step H. step H. step H. step H. injection H as <-.
  step Ev. gate Ev. injection Ev as <-. step Ev0. gate Ev0. injection Ev0 as <-. apply negb_true_iff in Eb, Eb0. cbn [andb] in Eb, Eb0.
  split; intro C; [assert (B : binary_preds n v4 = true)|assert (B : binary_preds n v = true)]; try (apply binary_preds_iff; exact C); congruence.
Qed.
(** With external predictions the check is the only obstacle. *)
Lemma ext_binary v : binary_preds n (ext_hat v) = true <-> labels_only n v.
Proof. rewrite binary_preds_iff. unfold labels_only. cbn. split; intros H i Hi; destruct (H i Hi) as [A|A]; try (injection A as A); rewrite ?A; auto. Qed.
Lemma plr_external bin x y d smpls l m : su_ext su "ml_l" = Some l -> su_ext su "ml_m" = Some m ->
  (bin = true /\ labels_only n m -> plr_nuis L su false bin x y d smpls = Err ValueError) /\
  (~ (bin = true /\ labels_only n m) -> exists out, plr_nuis L su false bin x y d smpls = Ok out).
Proof.
  intros El Em. unfold plr_nuis, or_ext. rewrite El, Em. cbn [bind]. rewrite <- ext_binary. destruct bin, (binary_preds n (ext_hat m)); cbn [andb negb require bind]; split; intros H; try (exfalso; tauto); try reflexivity; try (eexists; reflexivity);
  destruct H; discriminate.
Qed.
Lemma irm_external atte norm bin tr thr w x y d smpls g0 g1 m : su_ext su "ml_g0" = Some g0 -> su_ext su "ml_g1" = Some g1 -> su_ext su "ml_m" = Some m ->
  (bin = true /\ atte = false /\ labels_only n g1 -> irm_nuis L su atte norm bin tr thr w x y d smpls = Err ValueError) /\
  (~ (bin = true /\ atte = false /\ labels_only n g1) -> exists out, irm_nuis L su atte norm bin tr thr w x y d smpls = Ok out).
Proof.
  intros E0 E1 Em. unfold irm_nuis, or_ext. rewrite E0, E1, Em. cbn [bind]. rewrite <- ext_binary. destruct bin, atte, (binary_preds n (ext_hat g1)); cbn [andb negb require bind]; split; intros H; try (exfalso; tauto); try reflexivity; try (eexists; reflexivity);
  destruct H as (? & ? & ?); discriminate.
Qed.
End Checks.

(** ** Learners that are not consulted *)
Section Irrelevant.
Context {E P E' P' : Type}.
Variable L : learner E row P.
Variable L' : learner E' row P'.
Variable su : setup E P.
Variable su' : setup E' P'.
Hypothesis Hs : same_external su su'.

Lemma ext_in name ns : all_external su ns -> In name ns -> exists v, su_ext su name = Some v /\ su_ext su' name = Some v.
Proof. intros H Hi. destruct (H name Hi) as (v & Ev). exists v. split; [exact Ev|]. rewrite <- (proj2 Hs). exact Ev. Qed.
Ltac known name H := let v := fresh "v" in let A := fresh in let B := fresh in destruct (ext_in name _ H) as (v & A & B); [cbn; tauto|]; rewrite ?A, ?B.

Lemma plr_po_irrelevant bin x y d smpls : all_external su ["ml_l"; "ml_m"] -> plr_nuis L su false bin x y d smpls = plr_nuis L' su' false bin x y d smpls.
Proof. intros H. unfold plr_nuis, or_ext. known "ml_l" H. known "ml_m" H. rewrite (proj1 Hs). reflexivity. Qed.
Lemma plr_iv_irrelevant bin x y d smpls : all_external su ["ml_m"; "ml_g"] -> plr_nuis L su true bin x y d smpls = plr_nuis L' su' true bin x y d smpls.
Proof. intros H. unfold plr_nuis, or_ext. known "ml_m" H. known "ml_g" H. rewrite (proj1 Hs), (proj2 Hs "ml_l"). cbn [andb]. reflexivity. Qed.
Lemma irm_irrelevant atte norm bin tr thr w x y d smpls : all_external su ["ml_g0"; "ml_g1"; "ml_m"] ->
  irm_nuis L su atte norm bin tr thr w x y d smpls = irm_nuis L' su' atte norm bin tr thr w x y d smpls.
Proof. intros H. unfold irm_nuis, or_ext. known "ml_g0" H. known "ml_g1" H. known "ml_m" H. rewrite (proj1 Hs). reflexivity. Qed.
Lemma apo_irrelevant norm bin tr thr w x y d t smpls : all_external su ["ml_g_d_lvl0"; "ml_g_d_lvl1"; "ml_m"] ->
  apo_nuis L su norm bin tr thr w x y d t smpls = apo_nuis L' su' norm bin tr thr w x y d t smpls.
Proof. intros H. unfold apo_nuis, apo_ext. cbv zeta. known "ml_g_d_lvl0" H. known "ml_g_d_lvl1" H. known "ml_m" H. rewrite (proj1 Hs). reflexivity. Qed.
Lemma iivm_irrelevant norm bin at_ nt tr thr x y z d smpls : all_external su ["ml_g0"; "ml_g1"; "ml_m"; "ml_r0"; "ml_r1"] ->
  iivm_nuis L su norm bin at_ nt tr thr x y z d smpls = iivm_nuis L' su' norm bin at_ nt tr thr x y z d smpls.
Proof. intros H. unfold iivm_nuis, or_ext. cbv zeta. known "ml_g0" H. known "ml_g1" H. known "ml_m" H. known "ml_r0" H. known "ml_r1" H. rewrite (proj1 Hs). reflexivity. Qed.
Lemma did_irrelevant (obs : bool) norm tr thr x y d smpls : all_external su ("ml_g0" :: "ml_g1" :: if obs then ["ml_m"] else []) ->
  did_nuis L su obs norm tr thr x y d smpls = did_nuis L' su' obs norm tr thr x y d smpls.
Proof. intros H. unfold did_nuis, or_ext. cbv zeta. known "ml_g0" H. known "ml_g1" H. destruct obs; [known "ml_m" H|]; rewrite (proj1 Hs); reflexivity. Qed.
Lemma cs_irrelevant (obs : bool) norm tr thr x y d t smpls : all_external su ("ml_g_d0_t0" :: "ml_g_d0_t1" :: "ml_g_d1_t0" :: "ml_g_d1_t1" :: if obs then ["ml_m"] else []) ->
  cs_nuis L su obs norm tr thr x y d t smpls = cs_nuis L' su' obs norm tr thr x y d t smpls.
Proof. intros H. unfold cs_nuis, or_ext. cbv zeta. known "ml_g_d0_t0" H. known "ml_g_d0_t1" H. known "ml_g_d1_t0" H. known "ml_g_d1_t1" H. destruct obs; [known "ml_m" H|]; rewrite (proj1 Hs); reflexivity. Qed.
Lemma pliv_irrelevant (iv : bool) x y d z smpls : all_external su ("ml_l" :: "ml_m" :: "ml_r" :: if iv then ["ml_g"] else []) ->
  pliv_x_nuis L su iv x y d z smpls = pliv_x_nuis L' su' iv x y d z smpls.
Proof. intros H. unfold pliv_x_nuis, or_ext. known "ml_l" H. known "ml_m" H. known "ml_r" H. destruct iv; [known "ml_g" H|]; reflexivity. Qed.
Lemma pliv_several_irrelevant proj x y d zs smpls : all_external su ("ml_l" :: "ml_r" :: map (fun p : string * vec => ("ml_m_" ++ fst p)%string) zs) ->
  pliv_xs_nuis L su proj x y d zs smpls = pliv_xs_nuis L' su' proj x y d zs smpls.
Proof.
  intros H. unfold pliv_xs_nuis, or_ext. known "ml_l" H. known "ml_r" H. cbn [bind].
  match goal with |- context [map_res ?A zs] => match goal with |- _ = bind (map_res ?B zs) _ => assert (Q : map_res A zs = map_res B zs) end end.
  { apply map_res_ext. intros p Hp. destruct (ext_in ("ml_m_" ++ fst p) _ H) as (u & U1 & U2); [right; right; apply in_map_iff; eauto|]. rewrite U1, U2. reflexivity. }
  rewrite Q. unfold pliv_proj_score. rewrite (proj1 Hs). reflexivity.
Qed.
End Irrelevant.

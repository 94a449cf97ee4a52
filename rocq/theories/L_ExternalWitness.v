(** Fits from external predictions: concrete cases with dummy learners. *)
From Verif Require Export L_ExternalIrm L_ExternalDid L_ExternalEnd M_Dummy L_ClassesWitness.
From Coq Require Import Lia Lra FunctionalExtensionality.
Local Open Scope R_scope.
Local Open Scope string_scope.

Lemma dummy_untrainable P : untrainable (dummy_learner P).
Proof. intros e data. exists AttributeError. reflexivity. Qed.

(** Dummy learners; arrays [f l] as predictions of the learners [names]. *)
Definition d_machine : machinery unit unit :=
  {| mc_learner := fun _ => tt; mc_proba := fun l => String.eqb l "ml_m"; mc_classifier := fun l => String.eqb l "ml_m"; mc_order := fun _ _ _ => [1; 0]%nat; mc_models := false |}.
Definition given (f : string -> vec) (names : list string) : ext_arg :=
  ExtDict [("d", InnerDict (map (fun l => (l, Val {| shape := [8; 1]%nat; at_ := fun i => f l (hd 0%nat i) |})) names))].
Definition halves (l : string) (i : nat) : R := 1 / 2.

Lemma given_get f names l : In l names -> dict_get l (map (fun l => (l, Val {| shape := [8; 1]%nat; at_ := fun i => f l (hd 0%nat i) |})) names) = Some (Val {| shape := [8; 1]%nat; at_ := fun i => f l (hd 0%nat i) |}).
Proof.
  induction names as [|a names IH]; intro H; [destruct H|]. cbn [map dict_get]. destruct (String.eqb_spec l a) as [->|N]; [reflexivity|]. apply IH. destruct H as [->|H]; [contradiction|exact H].
Qed.
Lemma given_supplied f names l r : In l names -> supplied (given f names) "d" l r (f l).
Proof. intro H. do 3 eexists. split; [reflexivity|]. split; [reflexivity|]. split; [exact (given_get f names l H)|]. intro i. reflexivity. Qed.
Lemma given_wf f names learners : incl names learners -> well_formed_predictions (given f names) ["d"] learners 8 1.
Proof.
  intro I. eexists. split; [reflexivity|]. intros d inner [[= <- <-]|[]]. split; [left; reflexivity|]. eexists. split; [reflexivity|].
  intros l e H. apply in_map_iff in H as (l' & [= <- <-] & H). split; [apply I, H|]. eexists. split; reflexivity.
Qed.
Lemma given_complete f names : complete_predictions (given f names) ["d"] names.
Proof. intros d l r [<-|[]] H. exists (f l). apply given_supplied, H. Qed.
Lemma given_soft names l : In l names -> soft_predictions (given halves names) "d" l 8.
Proof. intros H r v S. rewrite (supplied_same _ _ _ _ _ _ S (given_supplied halves names l r H)). exists 0%nat. split; [lia|]. unfold halves. lra. Qed.

(** The object, before the fit, and its predictions. *)
Definition ext_case (C : ctx unit) (learners names : list string) : Prop :=
  exists w, reachable C w /\ m_smpls (w_obj w) = Some [w_smpls] /\ m_n_rep (w_obj w) = 1%nat /\ some_folds w /\
    well_formed_predictions (given halves names) ["d"] learners 8 1 /\ complete_predictions (given halves names) ["d"] names /\
    forall l, In l names -> soft_predictions (given halves names) "d" l 8.
Lemma ext_case_of C learners names : w_object C -> incl names learners -> ext_case C learners names.
Proof.
  intros (w0 & N & Es & En & _) I. exists w0. split.
  { apply reached_reachable. exists (PInt 2), (PInt 1), (PBool true), g_id, no_perm, w0, []. split; [split; reflexivity|]. split; [intros r v l; reflexivity|]. split; [exact N|]. split; [intros o []|reflexivity]. }
  split; [exact Es|]. split; [exact En|]. split; [intros sm fs E H; rewrite Es in E; injection E as <-; destruct H as [<-|[]]; discriminate|].
  split; [apply given_wf, I|]. split; [apply given_complete|]. intros l H. apply given_soft, H.
Qed.
Definition d_plr (iv : bool) : ctx unit := plr_ctx (dummy_learner unit) d_machine 8 ["d"] iv (fun _ => true) (fun _ => w_x) w_y (fun _ => w_d).
Definition d_pliv (iv : bool) : ctx unit := pliv_ctx (dummy_learner unit) d_machine 8 ["d"] iv (fun _ => w_x) w_y (fun _ => w_d) w_t.
Definition d_several : ctx unit := pliv_several_ctx (dummy_learner unit) d_machine 8 (fun data v => Rsum v) ["d"] (fun _ => w_x) w_y (fun _ => w_d) [("z1", w_t); ("z2", w_d)].
Definition d_irm (atte : bool) (wa : warg) : ctx unit := irm_ctx (dummy_learner unit) d_machine 8 "d" atte true true true (1 / 100) (weights_of wa) w_x w_y w_d (Some w_strata).
Definition d_apo (wa : warg) : ctx unit := apo_ctx (dummy_learner unit) d_machine 8 "d" true true true (1 / 100) (weights_of wa) w_x w_y w_d w_d (Some w_strata).
Definition d_iivm : ctx unit := iivm_ctx (dummy_learner unit) d_machine 8 "d" true true true false true (1 / 100) w_x w_y w_t w_d (Some w_strata).
Definition d_did (obs norm : bool) : ctx unit := did_ctx (dummy_learner unit) d_machine 8 "d" obs norm true (1 / 100) w_x w_y w_d (Some w_strata).
Definition d_cs (obs norm : bool) : ctx unit := cs_ctx (dummy_learner unit) d_machine 8 "d" obs norm true (1 / 100) w_x w_y w_d w_t (Some w_strata).
Lemma d_plr_case iv : ext_case (d_plr iv) (c_learners (d_plr iv)) (if iv then ["ml_m"; "ml_g"] else ["ml_l"; "ml_m"]).
Proof. apply ext_case_of; [destruct iv; w_obj_tac|]. intros l H. destruct iv; cbn in *; tauto. Qed.
Lemma d_pliv_case iv : ext_case (d_pliv iv) (c_learners (d_pliv iv)) (c_learners (d_pliv iv)).
Proof. apply ext_case_of; [destruct iv; w_obj_tac|apply incl_refl]. Qed.
Lemma d_several_case : ext_case d_several (c_learners d_several) (c_learners d_several).
Proof. apply ext_case_of; [w_obj_tac|apply incl_refl]. Qed.
Lemma d_irm_case atte wa : ext_case (d_irm atte wa) ["ml_g0"; "ml_g1"; "ml_m"] ["ml_g0"; "ml_g1"; "ml_m"].
Proof. apply ext_case_of; [w_obj_tac|apply incl_refl]. Qed.
Lemma d_apo_case wa : ext_case (d_apo wa) ["ml_g_d_lvl0"; "ml_g_d_lvl1"; "ml_m"] ["ml_g_d_lvl0"; "ml_g_d_lvl1"; "ml_m"].
Proof. apply ext_case_of; [w_obj_tac|apply incl_refl]. Qed.
Lemma d_iivm_case : ext_case d_iivm ["ml_g0"; "ml_g1"; "ml_m"; "ml_r0"; "ml_r1"] ["ml_g0"; "ml_g1"; "ml_m"; "ml_r0"].
Proof. apply ext_case_of; [w_obj_tac|]. intros l H. cbn in *. tauto. Qed.
Lemma d_did_case obs norm : ext_case (d_did obs norm) (c_learners (d_did obs norm)) (c_learners (d_did obs norm)).
Proof. apply ext_case_of; [destruct obs; w_obj_tac|apply incl_refl]. Qed.
Lemma d_cs_case obs norm : ext_case (d_cs obs norm) (c_learners (d_cs obs norm)) (c_learners (d_cs obs norm)).
Proof. apply ext_case_of; [destruct obs; w_obj_tac|apply incl_refl]. Qed.

(** Partially linear model: the estimate from the predictions [f]. *)
Definition theta_at {P} (w : world P) (t r : nat) (v : R) : Prop := exists F, current_fw w F /\ at_ (fw_all_thetas F) [t; r] = v.
Lemma d_plr_fit f b w : reachable (d_plr false) w -> m_smpls (w_obj w) = Some [w_smpls] -> m_n_rep (w_obj w) = 1%nat -> (f "ml_m") = halves "ml_m" ->
  exists w', fit (d_plr false) PNone (PBool b) (given f ["ml_l"; "ml_m"]) (PBool false) w = (w', Ok tt) /\ theta_at w' 0 0 (sumf 8 (fun i => (w_d i - 1 / 2) * (w_y i - f "ml_l" i)) / 2).
Proof.
  intros Hw Es En Hm. assert (Q2 : sumf 8 (fun i => (w_d i - 1 / 2) * (w_d i - 1 / 2)) = 2) by (unfold sumf; cbn [seq map Rsum fold_right w_d nth INR]; lra).
  destruct (plr_ext (dummy_learner unit) d_machine 8 ["d"] (fun _ => true) (fun _ => w_x) w_y (fun _ => w_d) w PNone b (given f ["ml_l"; "ml_m"]) false) as (w' & F & sm & Hf & (Hc & _ & _ & Ef & _) & K).
  - apply Nat.lt_0_succ.
  - discriminate.
  - exact Hw.
  - left; reflexivity.
  - eexists; exact Es.
  - rewrite En. apply given_wf, incl_refl.
  - apply given_complete.
  - intros t col Ht _. assert (col = "d") as -> by (apply nth_error_In in Ht; destruct Ht as [<-|[]]; reflexivity).
    intros r v S. rewrite (supplied_same _ _ _ _ _ _ S (given_supplied f ["ml_l"; "ml_m"] "ml_m" r ltac:(cbn; tauto))). exists 0%nat. split; [lia|]. rewrite Hm. unfold halves. lra.
  - exists w'. split; [exact Hf|]. exists F. split; [exact Hc|].
    assert (S : sm = [w_smpls]) by (rewrite Es in Ef; injection Ef as <-; reflexivity). subst sm.
    pose proof (K 0%nat 0%nat w_smpls "d" eq_refl eq_refl (f "ml_l") (f "ml_m") (given_supplied f ["ml_l"; "ml_m"] "ml_l" 0 ltac:(cbn; tauto)) (given_supplied f ["ml_l"; "ml_m"] "ml_m" 0 ltac:(cbn; tauto))) as X.
    rewrite Hm in X. unfold halves in X. cbv zeta beta in X. rewrite Q2 in X. destruct (X ltac:(lra)) as (Et & _). exact Et.
Qed.
Lemma d_plr_ex : exists w w', reachable (d_plr false) w /\ fit (d_plr false) PNone (PBool true) (given halves ["ml_l"; "ml_m"]) (PBool false) w = (w', Ok tt) /\ theta_at w' 0 0 1.
Proof.
  destruct (d_plr_case false) as (w & Hw & Es & En & _). destruct (d_plr_fit halves true w Hw Es En eq_refl) as (w' & Hf & Ht). exists w, w'. split; [exact Hw|]. split; [exact Hf|].
  replace 1 with (sumf 8 (fun i => (w_d i - 1 / 2) * (w_y i - halves "ml_l" i)) / 2); [exact Ht|]. unfold halves, w_y, sumf. cbn [seq map Rsum fold_right w_d nth INR]. lra.
Qed.

(** A partially linear IV object that partials out instruments accepts
    predictions and runs its learners all the same. *)
Lemma ignored_case_of (C : ctx unit) : c_dcols C = ["d"] -> c_cluster C = None -> sens_var_ok C -> c_ext_ok C = true -> c_learners C = ["ml_r"] -> c_n C = 8%nat -> w_object C ->
  (forall e, exists out, c_nuis C 0 0 w_smpls (fun _ => None) e = Ok out) ->
  exists w w1 w2, reachable C w /\ fit C PNone (PBool true) ExtNone (PBool false) w = (w1, Ok tt) /\ fit C PNone (PBool true) (given halves ["ml_r"]) (PBool false) w = (w2, Ok tt).
Proof.
  intros Hd Hc Hv He Hl Hn (w0 & N & Es & En & Ep) Ho. assert (Sr : soundly_reached C w0).
  { exists (PInt 2), (PInt 1), (PBool true), g_id, no_perm, w0, []. split; [split; reflexivity|]. split; [intros r v l; reflexivity|]. split; [exact N|]. split; [intros o []|reflexivity]. }
  assert (K : forall ext, check_external ext ["d"] ["ml_r"] 8 1 = Ok tt -> (exists e, set_external ext ["ml_r"] "d" 0 = Ok e) -> exists w', fit C PNone (PBool true) ext (PBool false) w0 = (w', Ok tt)).
  { intros ext Ck (e & Se). apply fit_complete.
    - rewrite Hd. cbn. lia.
    - apply reachable_wf, reached_reachable, Sr.
    - unfold fit_check, check_fit, lift. cbn. rewrite He, Hd, Hl, Hn, En, Ck. reflexivity.
    - intros r t Hr Ht. rewrite En in Hr. assert (r = 0%nat) as -> by lia. rewrite Hd in Ht. cbn in Ht. assert (t = 0%nat) as -> by lia.
      unfold step_fun, nuis_call, smpls_rep, cluster_args_of. rewrite Es, Hc, Hd, Hl. cbn [bind nth_error nth]. rewrite Se. cbn [bind].
      rewrite (functional_extensionality (fun l => nth 0 (m_params (w_obj w0) l "d") None) (fun _ => None)) by (intro l; now rewrite Ep). destruct (Ho e) as (out & ->). cbn [bind]. eexists. reflexivity.
    - apply var_ok_cond, Hv. }
  destruct (K ExtNone) as (w1 & F1); [reflexivity|eexists; reflexivity|]. destruct (K (given halves ["ml_r"])) as (w2 & F2); [apply wf_pred_ok, given_wf, incl_refl|eexists; reflexivity|].
  exists w0, w1, w2. split; [apply reached_reachable, Sr|]. split; assumption.
Qed.
Definition ignored_case (C : ctx unit) : Prop :=
  exists w w1 w2, reachable C w /\ fit C PNone (PBool true) ExtNone (PBool false) w = (w1, Ok tt) /\ fit C PNone (PBool true) (given halves ["ml_r"]) (PBool false) w = (w2, Ok tt).
Lemma pliv_z_ignored : ignored_case w_pliv_z_ctx.
Proof. apply ignored_case_of; try reflexivity; try exact Logic.I; [w_obj_tac|]. intro e. w_nuis (w_pliv_z w_y). Qed.

(** A complete fit of the interactive model. *)
From Verif Require Export L_NuisWitness L_ModelExamples.
From Coq Require Import Lia Lra FunctionalExtensionality.
Local Open Scope R_scope.
Local Open Scope string_scope.

Definition w_machine : machinery r_memo unit :=
  {| mc_learner := fun _ => []; mc_proba := fun l => String.eqb l "ml_m"; mc_classifier := fun l => String.eqb l "ml_m"; mc_order := fun _ _ _ => [1; 0]%nat; mc_models := false |}.
Definition w_strata (i : nat) : Z := nth i [0; 1; 0; 1; 0; 1; 0; 1]%Z 0%Z.
Definition w_irm_ctx : ctx unit := irm_ctx r_learner w_machine 8 "d" false true false true (1 / 100) (fun _ => unit_weights) w_x w_y w_d (Some w_strata).
Definition w_plr_ctx : ctx unit := plr_ctx r_learner w_machine 8 ["d"; "e"] false (fun _ => false) (fun _ => w_x) w_y (fun t => match t with O => w_d | _ => w_t end).
Lemma w_irm_new : exists w0, new_object w_irm_ctx (PInt 2) (PInt 1) (PBool true) g_id no_perm = Ok w0 /\ m_smpls (w_obj w0) = Some [w_smpls] /\ m_n_rep (w_obj w0) = 1%nat /\ forall l t, m_params (w_obj w0) l t = [None].
Proof. eexists. split; [reflexivity|]. split; [reflexivity|]. split; reflexivity. Qed.
Lemma w_plr_new : exists w0, new_object w_plr_ctx (PInt 2) (PInt 1) (PBool true) g_id no_perm = Ok w0 /\ m_smpls (w_obj w0) = Some [w_smpls] /\ m_n_rep (w_obj w0) = 1%nat /\ forall l t, m_params (w_obj w0) l t = [None].
Proof. eexists. split; [reflexivity|]. split; [reflexivity|]. split; reflexivity. Qed.

Lemma w_setup (w : world unit) d t : (forall l t, m_params (w_obj w) l t = [None]) ->
  setup_of w_machine 8 0 t (fun l => nth 0 (m_params (w_obj w) l d) None) (fun _ => None) = r_setup 8 true.
Proof. intro H. unfold setup_of, r_setup. f_equal. apply functional_extensionality. intro l. rewrite H. reflexivity. Qed.
Lemma w_learning w : m_smpls (w_obj w) = Some [w_smpls] -> sound_learning r_learner r_predict r_proba w_machine w.
Proof.
  intro Es. constructor; [exact r_row|exact r_clone|]. intros sm r t l fs E Er. rewrite Es in E. injection E as <-. destruct r as [|[|r]]; [injection Er as <-|discriminate|discriminate]. exact ex_sched.
Qed.
Lemma w_everywhere w lrn y G : m_smpls (w_obj w) = Some [w_smpls] -> (forall h i, In h w_smpls -> (i < 8)%nat -> exists j, (j < 8)%nat /\ G j /\ In j (fst h) /\ y j = y i) -> labels_everywhere r_learner r_proba w_machine w 8 lrn y G.
Proof. intros Es H _. split; [exact r_classifier|]. intros sm fs h i E Hf Hh Hi. rewrite Es in E. injection E as <-. destruct Hf as [<-|[]]. apply H; assumption. Qed.
Lemma w_everywhere_all w lrn y : m_smpls (w_obj w) = Some [w_smpls] -> both_labels 8 y w_smpls -> labels_everywhere r_learner r_proba w_machine w 8 lrn y everyone.
Proof. intros Es (A & B & _). apply w_everywhere; [exact Es|]. intros h i Hh Hi. destruct (A h i Hh Hi) as (j & J1 & J2). exists j. split; [eapply B; eassumption|]. split; [exact Logic.I|]. split; assumption. Qed.
Lemma not_classified w lrn y G : lrn <> "ml_m" -> labels_everywhere r_learner r_proba w_machine w 8 lrn y G.
Proof. intros H Z. cbn in Z. apply String.eqb_eq in Z. congruence. Qed.
Lemma w_irm_case : exists w w', soundly_reached w_irm_ctx w /\ sound_learning r_learner r_predict r_proba w_machine w /\
  labels_everywhere r_learner r_proba w_machine w 8 "ml_g" w_y (fun j => w_d j = 0) /\ labels_everywhere r_learner r_proba w_machine w 8 "ml_g" w_y (fun j => w_d j = 1) /\ labels_everywhere r_learner r_proba w_machine w 8 "ml_m" w_d everyone /\
  fit w_irm_ctx PNone (PBool true) ExtNone (PBool false) w = (w', Ok tt).
Proof.
  destruct w_irm_new as (w0 & N & Es & En & Ep). assert (Sr : soundly_reached w_irm_ctx w0).
  { exists (PInt 2), (PInt 1), (PBool true), g_id, no_perm, w0, []. split; [split; reflexivity|]. split; [intros r v l; reflexivity|]. split; [exact N|]. split; [intros o []|reflexivity]. }
  destruct (fit_complete w_irm_ctx PNone (PBool true) ExtNone (PBool false) w0) as (w' & F).
  - cbn. lia.
  - apply reachable_wf, reached_reachable, Sr.
  - unfold fit_check, check_fit, lift. reflexivity.
  - intros r t Hr Ht. rewrite En in Hr. assert (r = 0%nat) as -> by lia. cbn in Ht. assert (t = 0%nat) as -> by lia.
    destruct (w_irm true true (1 / 100) unit_weights w_y) as (out & H). unfold step_fun, nuis_call, smpls_rep. rewrite Es. cbn [set_external bind nth_error w_irm_ctx irm_ctx c_dcols c_nuis c_learners].
    cbn [nth]. rewrite (w_setup w0 "d" 0 Ep), H. cbn [bind]. eexists. reflexivity.
  - apply var_ok_cond, irm_var_ok.
  - exists w0, w'. split; [exact Sr|]. split; [apply w_learning, Es|]. split; [apply not_classified; discriminate|]. split; [apply not_classified; discriminate|]. split; [apply w_everywhere_all; [exact Es|exact w_d_both]|exact F].
Qed.
Lemma w_plr_case : exists w w', soundly_reached w_plr_ctx w /\ sound_learning r_learner r_predict r_proba w_machine w /\
  labels_everywhere r_learner r_proba w_machine w 8 "ml_l" w_y everyone /\ (forall t, labels_everywhere r_learner r_proba w_machine w 8 "ml_m" (match t with O => w_d | _ => w_t end) everyone) /\
  fit w_plr_ctx PNone (PBool true) ExtNone (PBool false) w = (w', Ok tt).
Proof.
  destruct w_plr_new as (w0 & N & Es & En & Ep). assert (Sr : soundly_reached w_plr_ctx w0).
  { exists (PInt 2), (PInt 1), (PBool true), g_id, no_perm, w0, []. split; [split; reflexivity|]. split; [intros r v l; reflexivity|]. split; [exact N|]. split; [intros o []|reflexivity]. }
  destruct (fit_complete w_plr_ctx PNone (PBool true) ExtNone (PBool false) w0) as (w' & F).
  - cbn. lia.
  - apply reachable_wf, reached_reachable, Sr.
  - unfold fit_check, check_fit, lift. reflexivity.
  - intros r t Hr Ht. rewrite En in Hr. assert (r = 0%nat) as -> by lia. cbn in Ht. unfold step_fun, nuis_call, smpls_rep. rewrite Es. cbn [set_external bind nth_error w_plr_ctx plr_ctx c_dcols c_nuis c_learners].
    destruct t as [|[|t]]; [| |lia]; cbn [nth].
    + destruct (w_plr false w_y w_d w_d_both) as (out & H). rewrite (w_setup w0 "d" 0 Ep), H. cbn [bind]. eexists. reflexivity.
    + destruct (w_plr false w_y w_t w_t_both) as (out & H). rewrite (w_setup w0 "e" 1 Ep), H. cbn [bind]. eexists. reflexivity.
  - apply var_ok_cond, plr_var_ok.
  - exists w0, w'. split; [exact Sr|]. split; [apply w_learning, Es|]. split; [apply not_classified; discriminate|]. split; [intros [|t]; (apply w_everywhere_all; [exact Es|first [exact w_d_both|exact w_t_both]])|exact F].
Qed.

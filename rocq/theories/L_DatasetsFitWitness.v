(** Estimates on simulated data: a partially linear sample, estimated with its learners and from the true nuisance functions. *)
From Verif Require Export L_DatasetsFit L_InitWitness L_ExternalWitness.
From Coq Require Import Lia Lra.
Local Open Scope R_scope.
Local Open Scope string_scope.

Definition t_x : mat := fun _ _ => 2.
Definition t_v : vec := fun i => if Nat.even i then 1 else 2.
Definition t_true (alpha : R) (l : string) : vec := if String.eqb l "ml_l" then plr_l alpha 1 0.25 1 0.25 t_x else plr_m 1 0.25 t_x.
Definition simulated_fit (alpha : R) : Prop := exists fr s C w0 w w1 w2,
  make_plr 8 3 alpha None None None None None None RetData t_x t_v (fun _ => 0) = Ok (OutData fr s) /\
  plr_init q_learner i_rd fr s reg reg None (PInt 2) (PInt 1) (PStr "partialling out") (PBool true) = Ok (C, w0) /\ later C w0 w /\
  (forall mc, mc_order mc = rd_order i_rd -> sound_learning q_learner q_predict q_proba mc w) /\
  fit C PNone (PBool true) ExtNone (PBool false) w = (w1, Ok tt) /\
  fit C PNone (PBool true) (given (t_true alpha) ["ml_l"; "ml_m"]) (PBool false) w = (w2, Ok tt) /\ theta_at w2 0 0 alpha.
Lemma t_m i : 2 < plr_m 1 0.25 t_x i.
Proof. unfold plr_m, t_x, logistic. assert (H := exp_pos (-2)). assert (0 < / (1 + exp (-2))) by (apply Rinv_0_lt_compat; lra). assert (exp 2 / (1 + exp 2) > 0) by (apply Rdiv_lt_0_compat; assert (H1 := exp_pos 2); lra). lra. Qed.
Lemma simulated_fits alpha : simulated_fit alpha.
Proof.
  assert (X : exists o, make_plr 8 3 alpha None None None None None None RetData t_x t_v (fun _ => 0) = Ok o) by (apply plr_simulates; split; [lia|right; right; left; reflexivity]).
  destruct X as (o & Mk). destruct (plr_simulated _ _ _ _ _ _ _ _ _ _ _ _ _ _ Mk) as (y & d & Rt & M). destruct Rt as (_ & _ & Da & _). destruct (Da (or_introl eq_refl)) as (fr & s & -> & Ho & Con & Ro).
  pose proof (S_Data.R_new _ _ Con) as Re. assert (Un : unclustered s) by (unfold unclustered; rewrite Ro; reflexivity). assert (Fr : M_Data.frows fr = 8%nat) by exact (proj1 Ho).
  destruct (proj2 (plr_accepts q_learner i_rd fr s Con Un reg reg None (PInt 2) (PInt 1) (PStr "partialling out") (PBool true))) as ((C & w0) & E).
  { split; [unfold no_instruments; rewrite Ro; reflexivity|]. split; [rewrite Fr; apply i_split; exact Logic.I|]. split; [left; reflexivity|].
    split; [exact reg_values|]. split; [repeat split; auto|]. intros Q. discriminate Q. }
  pose proof E as E0. destruct (plr_made q_learner i_rd fr s Re i_sound _ _ _ _ _ _ _ _ _ E) as (mc & bin & Ec & Sr & Od & R1 & R2 & _). rewrite (plain_ctx fr s Re _ Un) in Ec. rewrite Fr in Ec.
  destruct (i_later C w0) as (w & Lt & K); [now rewrite Ec|now rewrite Ec|]. pose proof (reached_later _ _ _ Sr Lt) as Sw.
  assert (Rd : M_Data.r_d (M_Data.dd_roles s) = ["d"]) by (rewrite Ro; reflexivity).
  assert (F1 : exists w1, fit C PNone (PBool true) ExtNone (PBool false) w = (w1, Ok tt)).
  { subst C. apply (plr_fit_success q_learner q_predict q_proba); try assumption; [lia|exact (some_treatment fr s Re)|apply i_learning; assumption|left; reflexivity|destruct K as (K & _); eauto|].
    intros t c Hc. split; [apply ready_any; [exact K|apply R1]|]. split; [apply ready_any; [exact K|apply R2]|]. split; [discriminate|intros _; apply q_soft]. }
  assert (F2 : exists w2, fit C PNone (PBool true) (given (t_true alpha) ["ml_l"; "ml_m"]) (PBool false) w = (w2, Ok tt)).
  { subst C. rewrite Rd in *. edestruct (plr_ext q_learner mc 8 ["d"] bin) as (w2 & F & sm & Hf & _); [lia|discriminate|apply reached_reachable, Sw|left; reflexivity|destruct K as (K & _); eauto| | | |exists w2; exact Hf].
    - assert (N1 : m_n_rep (w_obj w) = 1%nat); [|rewrite N1; apply given_wf, incl_refl]. destruct K as (K & _). rewrite <- (wf_smpls _ _ (reachable_wf _ _ (reached_reachable _ _ Sw)) _ K). reflexivity.
    - apply given_complete.
    - intros t c Hc _. assert (c = "d") as -> by (apply nth_error_In in Hc; destruct Hc as [<-|[]]; reflexivity).
      intros r u S. rewrite (supplied_same _ _ _ _ _ _ S (given_supplied (t_true alpha) ["ml_l"; "ml_m"] "ml_m" r ltac:(cbn; tauto))). exists 0%nat. split; [lia|]. cbn [t_true String.eqb Ascii.eqb Bool.eqb]. pose proof (t_m 0). unfold t_true. cbn. lra. }
  destruct F1 as (w1 & F1). destruct F2 as (w2 & F2). exists fr, s, C, w0, w, w1, w2. split; [exact Mk|]. split; [exact E0|]. split; [exact Lt|]. split; [intros mc'; apply i_learning, K|]. split; [exact F1|]. split; [exact F2|].
  destruct (plr_truth q_learner q_predict q_proba i_rd 8 3 alpha None None None None None None RetData t_x t_v (fun _ => 0) fr s reg reg None (PInt 2) (PInt 1) (PBool true) C w0 w PNone (PBool true) (given (t_true alpha) ["ml_l"; "ml_m"]) (PBool false) w2 ltac:(lia) Mk i_sound E0 Lt) as (mc' & Mo & R1' & R2' & H).
  destruct (H (i_learning w mc' K Mo)) as (F & sm & Dn & T).
  { intro Q. destruct R1' as (_ & R1'). congruence. }
  { intro Q. destruct R2' as (_ & R2'). cbn in R2'. congruence. }
  { exact F2. }
  pose proof Dn as (Hc & _ & _ & Ef & _). exists F. split; [exact Hc|]. assert (sm = [w_smpls]) as -> by (destruct K as (K & _); congruence).
  rewrite (T 0%nat w_smpls (t_true alpha "ml_l") (t_true alpha "ml_m") eq_refl (given_supplied _ ["ml_l"; "ml_m"] "ml_l" _ (or_introl eq_refl)) (given_supplied _ ["ml_l"; "ml_m"] "ml_m" _ (or_intror (or_introl eq_refl)))).
  - rewrite (sumf_ext 8 (fun i => t_v i * 0) (fun _ => 0)) by (intros; ring). unfold sumf at 1. cbn [seq map Rsum fold_right]. unfold Rdiv. ring.
  - intros i Hi. split; reflexivity.
  - cbn. lra.
  - unfold sumf, t_v. cbn [seq map Rsum fold_right Nat.even]. lra.
Qed.

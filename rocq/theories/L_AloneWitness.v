(** Several treatment variables: two fitted objects. *)
From Verif Require Export L_Alone L_EqualWitness.
From Verif Require Import L_InitMade L_InitAccept L_FitSuccess L_InitFit.
From Coq Require Import Lia Lra.
Local Open Scope R_scope.
Local Open Scope string_scope.

(** Treatments d and e; then e alone with d among the covariates. *)
Definition both_roles : M_Data.roles := M_Data.mk_roles "y" ["d"; "e"] ["x"] None None None None.
Definition own_roles : M_Data.roles := M_Data.mk_roles "y" ["e"] ["x"; "d"] None None None None.
Definition a_plr s := plr_init h_learner i_rd h_frame s reg cls None (PInt 2) (PInt 1) (PStr "partialling out") (PBool false).
Lemma a_exists r : r = both_roles \/ r = own_roles -> exists s, h_data r s.
Proof.
  intro H. assert (W : S_Data.well_formed h_frame r /\ M_Data.r_d r <> []) by (destruct H as [-> | ->]; (split; [i_wf|discriminate])). destruct W as (W & Hd).
  destruct (L_DataWitness.construct_of h_frame r true M_Data.Strict) as (s & K & R & O & _); [|exists s; split; auto].
  assert (N : forall c, S_Data.number_column h_frame c) by (intros c i _; cbn; eexists; reflexivity).
  split; [apply L_Data.distinct_iff; reflexivity|]. split; [exact W|]. split; [exact Hd|]. split; intros c _; [|apply L_DataProps.number_allowed]; apply N.
Qed.
Lemma a_column r c : r = both_roles \/ r = own_roles -> In c (M_Data.r_d r) -> (c = "d" \/ c = "z" \/ c = "e") /\ (col h_frame c = h_d \/ col h_frame c = (fun i => 1 - h_d i)).
Proof. intros [-> | ->] H; cbn in H; repeat (destruct H as [<-|H]; [split; [tauto|]; (left; reflexivity) || (right; reflexivity)|]); destruct H. Qed.
Lemma a_runs r s : r = both_roles \/ r = own_roles -> h_data r s -> h_runs (a_plr s).
Proof.
  intros Hr (Con & Ro & Ot). pose proof (S_Data.R_new _ _ Con) as Re. assert (Un : unclustered s) by (unfold unclustered; rewrite Ro; destruct Hr as [-> | ->]; reflexivity).
  destruct (proj2 (plr_accepts h_learner i_rd h_frame s Con Un reg cls None (PInt 2) (PInt 1) (PStr "partialling out") (PBool false))) as ((C & w0) & E).
  { split; [unfold no_instruments; rewrite Ro; destruct Hr as [-> | ->]; reflexivity|]. split; [apply h_split|]. split; [left; reflexivity|]. split; [exact reg_values|]. split; [repeat split; auto|].
    intros _ c Hc. rewrite Ro in Hc. apply h_01, (a_column r c Hr Hc). }
  destruct (plr_made h_learner i_rd h_frame s Re i_sound _ _ _ _ _ _ _ _ _ E) as (mc & bin & Ec & Sr & Od & R1 & R2 & _). rewrite (plain_ctx h_frame s Re _ Un) in Ec. subst C.
  eapply h_runs_of; [exact E|reflexivity|reflexivity|exact Sr|]. intros w Kw Sw Sm.
  apply (plr_fit_success h_learner q_predict h_proba); try assumption; [cbn; lia|exact (some_treatment _ s Re)|apply (reliable_sound _ _ _ _ i_rd _ Od), h_reliable, Kw|left; reflexivity|].
  intros t c Hc. split; [exact (h_any _ _ _ _ _ _ _ Kw (proj2 R1))|]. destruct (x_of_at _ s Re t c Hc) as (_ & Ed). rewrite Ed.
  rewrite Ro in Hc. split; [apply (h_class mc w t c "ml_m" "ml_m" _ Kw), (a_column r c Hr (nth_error_In _ _ Hc))|]. split; [discriminate|intros _; apply h_soft].
Qed.
Definition alone_case : Prop := exists s s' w0 w w1 w0' w' w1' F F',
  h_data both_roles s /\ h_data own_roles s' /\ h_fit (a_plr s) w0 w w1 F /\ h_fit (a_plr s') w0' w' w1' F' /\ alone_at F F' 1 0 /\ alone_overall F F' 1.
Lemma alone_holds : alone_case.
Proof.
  destruct (a_exists both_roles) as (s & D); [auto|]. destruct (a_exists own_roles) as (s' & D'); [auto|].
  destruct (a_runs both_roles s) as (C & w0 & w & w1 & E & Lt & K & Np & Ff); [auto|exact D|]. destruct (a_runs own_roles s') as (C' & w0' & w' & w1' & E' & Lt' & K' & Np' & Ff'); [auto|exact D'|].
  pose proof D as (Con & Ro & Ot). pose proof D' as (Con' & Ro' & Ot').
  destruct (plr_alone r_memo unit h_learner q_predict h_proba i_rd i_rd h_frame s s' 1 "e" reg cls None None (PInt 2) (PInt 2) (PInt 1) (PInt 1) (PBool false) (PBool false) C C' w0 w0' w w' PNone PNone (PBool true) (PBool true) ExtNone ExtNone (PBool false) (PBool false) w1 w1') as (mc & F & F' & sm & R2 & Dn & Dn' & Ag & H); try assumption.
  - exact (S_Data.R_new _ _ Con).
  - unfold unclustered; rewrite Ro; reflexivity.
  - exact i_sound.
  - cbn. lia.
  - exact (S_Data.R_new _ _ Con').
  - unfold unclustered; rewrite Ro'; reflexivity.
  - exact i_sound.
  - apply h_reliable, K.
  - apply h_reliable, K'.
  - rewrite Ro. reflexivity.
  - constructor; rewrite ?Ro, ?Ro', ?Ot; try reflexivity. destruct K as (K & _), K' as (K' & _). congruence.
  - rewrite Ro. intros c Hc. destruct (a_column both_roles c (or_introl eq_refl) Hc) as (_ & Q). apply (seen_twin h_learner h_proba true w w 10 10 1 0 (col h_frame c) (col h_frame c) everyone everyone eq_refl eq_refl (same_affine 10 _ _ (fun _ _ => eq_refl)) (fun _ _ x => x)).
    destruct Q as [-> | ->]; [exact (h_seen w K)|]. intro T. destruct (h_seen w K T) as (A & B). split; [exact A|]. intros sm0 fs h i Es Hf Hh Hi.
    rewrite (proj1 K) in Es. injection Es as <-. destruct Hf as [<-|[]].
    destruct (h_d01 i) as [Q|Q]; destruct Hh as [<-|[<-|[]]]; [exists 6%nat|exists 0%nat|exists 5%nat|exists 1%nat]; (split; [lia|]); (split; [exact Logic.I|]); (split; [cbn; lia|]); rewrite Q; reflexivity.
  - assert (sm = [h_smpls]) as -> by (destruct K as (K & _); destruct Dn as (_ & _ & _ & Es & _); congruence).
    assert (A0 : alone_at F F' 1 0).
    { destruct (H 0%nat h_smpls eq_refl) as (m & U & Q); [apply h_matched; assumption|apply h_matched; assumption|]. apply Q. clear Q.
      destruct R2 as (_ & R2). destruct U as (_ & U). destruct U as (cd & _ & V); [intros e (el & il & a & Y & _); discriminate Y|]. destruct (V 0%nat ltac:(cbn; lia)) as (k & h & rows & p & mm & _ & _ & _ & _ & X). cbn [setup_of su_proba] in X. change (ly_classifier cls) with true in R2. rewrite R2 in X. apply h_half in X.
      apply Rgt_not_eq, sumf_pos; [intros i _; apply pow2_ge_0|]. exists 0%nat. split; [cbn; lia|]. change (col h_frame "e" 0%nat) with (1 - h_d 0%nat). rewrite X. cbn. lra. }
    exists s, s', w0, w, w1, w0', w', w1', F, F'. split; [exact D|]. split; [exact D'|]. split; [exists C; split; [exact E|]; split; [exact Lt|]; split; [exact Ff|apply Dn]|]. split; [exists C'; split; [exact E'|]; split; [exact Lt'|]; split; [exact Ff'|apply Dn']|].
    split; [exact A0|]. apply Ag. intros r Hr. cbn in Hr. assert (r = 0%nat) as -> by lia. exact A0.
Qed.

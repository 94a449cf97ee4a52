(** Order of the rows: a concrete pair of fits on rows listed in two orders. *)
From Verif Require Export L_RowOrderFit2 L_UnitsWitness.
From Verif Require Import L_FitSuccess L_InitAccept L_DataProps L_CrossExamples L_CrossPath L_Sum.
From Coq Require Import Lia Lra.
Local Open Scope R_scope.
Local Open Scope string_scope.

Lemma o_bound l l' : Permutation l l' -> m_bound l = m_bound l'.
Proof. intro H. unfold m_bound. induction H as [|x l l' H IH|x y l|l l' l2 _ IH1 _ IH2]; cbn; lia. Qed.
Lemma o_existsb {A} (p : A -> bool) l l' : Permutation l l' -> existsb p l = existsb p l'.
Proof. intro H. induction H as [|x l l' H IH|x y l|l l' l2 _ IH1 _ IH2]; cbn; [reflexivity|rewrite IH; reflexivity|destruct (p x), (p y); reflexivity|congruence]. Qed.
Lemma o_classes l l' : Permutation l l' -> m_classes (r_in l) = m_classes (r_in l').
Proof.
  intro H. unfold m_classes. rewrite (o_bound (r_in l) (r_in l')) by (apply Permutation_map, H). apply filter_ext. intro c. apply o_existsb, Permutation_map, H.
Qed.
Lemma u_order_free : order_free u_learner u_predict q_proba.
Proof.
  intros e data data' m m' Pm H H' v. cbn in H, H'. assert (m = data) as -> by (destruct data; [discriminate|congruence]). assert (m' = data') as -> by (destruct data'; [discriminate|congruence]). split.
  - unfold u_predict. rewrite (Rsum_perm _ _ (Permutation_map snd Pm)), (Permutation_length Pm). reflexivity.
  - unfold q_proba. rewrite (o_classes _ _ Pm). reflexivity.
Qed.
(** The rows of the other cases, listed in reverse; this exchanges the two folds. *)
Definition o_rev (i : nat) : nat := (7 - i)%nat.
Definition o_folds (r k : nat) : nat := (1 - k)%nat.
Definition o_reps (r : nat) : nat := r.
Definition o_frame (pm : nat -> nat) : M_Data.frame := M_Data.mk_frame ["y"; "d"; "x"] 8 (fun c i => u_cell u_y w_d c (pm i)).
Definition o_data (pm : nat -> nat) (s : M_Data.ddata) : Prop := S_Data.constructed (o_frame pm) s /\ M_Data.dd_roles s = i_roles ["d"] None None None None /\ M_Data.dd_other s = true.
Lemma o_exists pm : exists s, o_data pm s.
Proof.
  destruct (L_DataWitness.construct_of (o_frame pm) (i_roles ["d"] None None None None) true M_Data.Strict) as (s & K & R & O & _); [|exists s; split; auto].
  assert (N : forall c, S_Data.number_column (o_frame pm) c) by (intros c i _; cbn; eexists; reflexivity).
  split; [apply L_Data.distinct_iff; reflexivity|]. split; [i_wf|]. split; [discriminate|]. split; intros c _; [|apply number_allowed]; apply N.
Qed.
Definition o_order (pm : nat -> nat) : Prop := pm = (fun i => i) \/ pm = o_rev.
Lemma o_d01 pm : o_order pm -> forall i, (i < 8)%nat -> w_d (pm i) = 0 \/ w_d (pm i) = 1.
Proof. intros [->| ->] i Hi; do 8 (destruct i as [|i]; [cbn; lra|]); lia. Qed.
Lemma o_class pm mc w t c name lrn : o_order pm -> split_known w -> ready u_learner q_proba mc w 8 t c name lrn (fun i => w_d (pm i)) everyone.
Proof.
  intros Ho K. apply u_ready. pose proof (o_d01 pm Ho) as D. destruct Ho as [->| ->]; [apply (i_classify mc w t c name lrn _ everyone 0 1 4 5)|apply (i_classify mc w t c name lrn _ everyone 1 0 5 4)]; try exact Logic.I; try lia; try assumption; cbn; lra.
Qed.
Definition o_plr (pm : nat -> nat) (s : M_Data.ddata) C w0 w w1 F : Prop :=
  plr_init u_learner i_rd (o_frame pm) s reg cls None (PInt 2) (PInt 1) (PStr "partialling out") (PBool true) = Ok (C, w0) /\ later C w0 w /\
  fit C PNone (PBool true) ExtNone (PBool false) w = (w1, Ok tt) /\ current_fw w1 F.
Definition order_case : Prop := exists s s' C C' w0 w0' w w' w1 w1' F F',
  o_data (fun i => i) s /\ o_data o_rev s' /\ o_plr (fun i => i) s C w0 w w1 F /\ o_plr o_rev s' C' w0' w' w1' F' /\ same_estimates_at F F' 0 0 0 /\ at_ (fw_thetas F') [0%nat] = at_ (fw_thetas F) [0%nat] /\ at_ (fw_ses F') [0%nat] = at_ (fw_ses F) [0%nat].
Lemma o_runs pm s : o_order pm -> o_data pm s -> exists C w0 w w1,
  plr_init u_learner i_rd (o_frame pm) s reg cls None (PInt 2) (PInt 1) (PStr "partialling out") (PBool true) = Ok (C, w0) /\ later C w0 w /\ split_known w /\ fit C PNone (PBool true) ExtNone (PBool false) w = (w1, Ok tt).
Proof.
  intros Ho (Con & Ro & Ot). pose proof (S_Data.R_new _ _ Con) as Re. assert (Un : unclustered s) by (unfold unclustered; rewrite Ro; reflexivity).
  destruct (proj2 (plr_accepts u_learner i_rd (o_frame pm) s Con Un reg cls None (PInt 2) (PInt 1) (PStr "partialling out") (PBool true))) as ((C & w0) & E).
  { split; [unfold no_instruments; rewrite Ro; reflexivity|]. split; [apply i_split; exact Logic.I|]. split; [left; reflexivity|].
    split; [exact reg_values|]. split; [repeat split; auto|]. intros _. rewrite Ro. intros c [<-|[]] i Hi. change (M_Data.Num (w_d (pm i)) = M_Data.Num 0 \/ M_Data.Num (w_d (pm i)) = M_Data.Num 1). destruct (o_d01 pm Ho i Hi) as [->| ->]; auto. }
  pose proof E as E0. destruct (plr_made u_learner i_rd (o_frame pm) s Re i_sound _ _ _ _ _ _ _ _ _ E) as (mc & bin & Ec & Sr & Od & R1 & R2 & _). rewrite (plain_ctx (o_frame pm) s Re _ Un) in Ec.
  destruct (i_later C w0) as (w & Lt & K); [now rewrite Ec|now rewrite Ec|]. pose proof (reached_later _ _ _ Sr Lt) as Sw. exists C, w0, w. subst C.
  edestruct (plr_fit_success u_learner u_predict q_proba) as (w1 & Hf); [..|exists w1; split; [exact E|]; split; [exact Lt|]; split; [exact K|exact Hf]]; try assumption; [cbn; lia|exact (some_treatment _ s Re)|apply (reliable_sound _ _ _ _ i_rd _ Od), u_reliable, K|left; reflexivity|destruct K as (K & _); eauto|].
  intros t c Hc. split; [exact (u_ready _ _ _ _ _ _ _ (ready_any mc w t c "ml_l" "ml_l" _ K (proj2 R1)))|]. split.
  - destruct (x_of_at _ s Re t c Hc) as (_ & Ed). rewrite Ed. rewrite Ro in Hc. assert (c = "d") as -> by (apply nth_error_In in Hc; destruct Hc as [<-|[]]; reflexivity). exact (o_class pm mc w t "d" "ml_m" "ml_m" Ho K).
  - split; [discriminate|]. intros _ e v. destruct R2 as (_ & R2). rewrite R2. pose proof (q_soft mc "ml_m" e v) as Q. rewrite R2 in Q. exact Q.
Qed.
Lemma o_moves : rearrangement 8 o_rev /\ (forall i, (i < 8)%nat -> o_rev (o_rev i) = i).
Proof.
  assert (I : forall i, (i < 8)%nat -> (o_rev i < 8)%nat /\ o_rev (o_rev i) = i) by (intros i Hi; do 8 (destruct i as [|i]; [cbn; lia|]); lia).
  split; [split; [intros i Hi; apply (I i Hi)|]|intros i Hi; apply (I i Hi)]. intros i j Hi Hj Q. rewrite <- (proj2 (I i Hi)), <- (proj2 (I j Hj)), Q. reflexivity.
Qed.
Lemma o_rearranged s s' w w' : o_data (fun i => i) s -> o_data o_rev s' -> split_known w -> split_known w' -> rearranged o_rev o_folds o_reps (o_frame (fun i => i)) s w (o_frame o_rev) s' w'.
Proof.
  intros (_ & R1 & O1) (_ & R2 & O2) (K1 & K2) (K1' & K2'). destruct o_moves as (Om & Ii). constructor; [exact Om|reflexivity|rewrite R1, R2; reflexivity| | | |].
  - intros i Hi. unfold outcome. rewrite R1, R2. cbn -[o_rev]. rewrite (Ii i Hi). reflexivity.
  - intros c _. split; intros i Hi.
    + unfold col. cbn [M_Data.fcell o_frame]. rewrite (Ii i Hi). reflexivity.
    + unfold covariates. rewrite R1, R2, O1, O2. unfold feats. apply flat_map_ext. intro c'. cbn [M_Data.fcell o_frame]. rewrite (Ii i Hi). reflexivity.
  - intros sm Es. exists [w_smpls]. split; [exact K1'|]. assert (sm = [w_smpls]) as -> by congruence. split; [reflexivity|]. split; [split; unfold o_reps; auto|].
    intros r fs Hr. exists fs. split; [exact Hr|]. assert (fs = w_smpls) as -> by (destruct r as [|r]; [injection Hr as <-; reflexivity|destruct r; discriminate Hr]).
    split; [reflexivity|]. split; [unfold o_folds; split; [intros i Hi; change (i < 2)%nat in Hi; change (1 - i < 2)%nat; clear - Hi; lia|intros i j Hi Hj Q; change (i < 2)%nat in Hi; change (j < 2)%nat in Hj; clear - Hi Hj Q; lia]|]. intros [|[|k]] h Hh; [| |destruct k; discriminate Hh]; injection Hh as <-; (eexists; split; [reflexivity|]); split; cbn; (apply NoDup_Permutation; [repeat constructor; cbn; lia|repeat constructor; cbn; lia|intro j; cbn; lia]).
  - intros l c r. rewrite K2, K2'. unfold o_reps. destruct r as [|r]; [|destruct r]; exact Logic.I.
Qed.
Lemma order_holds : order_case.
Proof.
  destruct (o_exists (fun i => i)) as (s & D), (o_exists o_rev) as (s' & D').
  destruct (o_runs _ s (or_introl eq_refl) D) as (C & w0 & w & w1 & E & Lt & K & F1). destruct (o_runs _ s' (or_intror eq_refl) D') as (C' & w0' & w' & w1' & E' & Lt' & K' & F1').
  pose proof D as (Con & Ro & Ot). pose proof D' as (Con' & Ro' & Ot').
  destruct (plr_order r_memo unit u_learner u_predict q_proba i_rd i_rd (o_frame (fun i => i)) (o_frame o_rev) s s' reg cls None None (PInt 2) (PInt 2) (PInt 1) (PInt 1) (PBool true) (PBool true) C C' w0 w0' w w' PNone PNone (PBool true) (PBool true) ExtNone ExtNone (PBool false) (PBool false) w1 w1' o_rev o_folds o_reps) as (mc & F & F' & sm & sm' & R2 & Dn & Dn' & Ag & H); try assumption.
  - exact (S_Data.R_new _ _ Con).
  - unfold unclustered; rewrite Ro; reflexivity.
  - exact i_sound.
  - cbn. lia.
  - exact (S_Data.R_new _ _ Con').
  - unfold unclustered; rewrite Ro'; reflexivity.
  - exact i_sound.
  - apply u_reliable, K.
  - apply u_reliable, K'.
  - apply o_rearranged; assumption.
  - intros c Ic. rewrite Ro in Ic. destruct Ic as [<-|[]]. exact (fun Q => i_labels (Build_machinery _ _ (fun _ => []) (fun _ => true) (fun _ => true) (fun _ _ _ => []) false) w "ml_m" w_d K w_d_both eq_refl).
  - exists s, s', C, C', w0, w0', w, w', w1, w1', F, F'. pose proof Dn as (Hc & _ & _ & Es & _). pose proof Dn' as (Hc' & _).
    split; [exact D|]. split; [exact D'|]. split; [repeat split; assumption|]. split; [repeat split; assumption|].
    assert (sm = [w_smpls]) as -> by (destruct K as (K & _); congruence).
    assert (NS : forall l r e, ~ supplied ExtNone "d" l r e) by (intros l r e (el & il & a & Q & _); discriminate Q).
    assert (Z : same_estimates_at F F' 0 0 0); [|split; [exact Z|]; apply (Ag 0%nat); [rewrite Ro; cbn; lia|]; intros r Hr; cbn in Hr; replace r with 0%nat by lia; exact Z].
    destruct (H 0%nat 0%nat w_smpls "d" eq_refl) as (m & U & Q); [rewrite Ro; reflexivity| | |].
    + left. split; [apply NS|]. split; [apply NS|exact u_order_free].
    + left. split; [apply NS|]. split; [apply NS|exact u_order_free].
    + apply Q. clear Q. destruct U as (_ & U). destruct (U (NS "ml_m" 0%nat)) as (cd & _ & V). destruct (V 0%nat ltac:(cbn; lia)) as (k & h & rows & p & mm & _ & _ & _ & _ & X). cbn [setup_of su_proba] in X.
      destruct R2 as (_ & R2). rewrite R2 in X. cbn [cls ly_classifier] in X. pose proof (q_soft mc "ml_m" mm (covariates (o_frame (fun i => i)) s "d" 0%nat)) as Sf. rewrite R2 in Sf. cbn [cls ly_classifier] in Sf. destruct (Sf _ X) as (S0 & S1).
      apply Rgt_not_eq, sumf_pos; [intros; apply pow2_ge_0|]. exists 0%nat. split; [cbn; lia|]. rewrite <- Rsqr_pow2. apply Rsqr_pos_lt. destruct (w_d01 0 ltac:(lia)) as [Z|Z]; intro Q; [apply S0|apply S1]; change (col (o_frame (fun i => i)) "d" 0%nat) with (w_d 0) in Q; lra.
Qed.

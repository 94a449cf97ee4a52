(** Units of measurement: a concrete pair of fits with learners that predict the mean of the training targets. *)
From Verif Require Export L_UnitsFit2 L_InitWitness.
From Verif Require Export L_External L_ExternalWitness.
From Verif Require Import L_FitSuccess L_InitAccept L_DataProps.
From Coq Require Import Lia Lra.
Local Open Scope R_scope.
Local Open Scope string_scope.

(** The mean of the targets seen in training. *)
Definition u_predict (d : r_memo) (v : row) : R := Rsum (map snd d) / INR (length d).
Definition u_learner : learner r_memo row unit := {|
  ln_clone := ln_clone r_learner; ln_set := ln_set r_learner; ln_fit := ln_fit r_learner;
  ln_predict := fun d xs => map (u_predict d) xs; ln_proba := fun d xs => map (q_proba d) xs; ln_classes := ln_classes r_learner |}.
Lemma u_equivariant a b : equivariant u_learner u_predict a b.
Proof.
  intros e data m m' H H' v. cbn in H, H'. destruct data as [|p data]; [discriminate|]. injection H as <-. injection H' as <-. unfold u_predict.
  assert (S : forall l : r_memo, Rsum (map snd (map (fun q : row * R => (fst q, a * snd q + b)) l)) = a * Rsum (map snd l) + b * INR (length l)).
  { induction l as [|q l IH]; [cbn; ring|]. cbn [map length]. rewrite S_INR. cbn [Rsum snd]. rewrite IH. ring. }
  change ((fst p, a * snd p + b) :: map (fun q : row * R => (fst q, a * snd q + b)) data) with (map (fun q : row * R => (fst q, a * snd q + b)) (p :: data)). rewrite S, map_length. field. apply not_0_INR. discriminate.
Qed.
(** The rows of the other cases with outcome [yv] and treatment [dv]. *)
Definition u_cell (yv dv : vec) (c : string) (i : nat) : M_Data.cell := M_Data.Num (if String.eqb c "y" then yv i else if String.eqb c "d" then dv i else INR i).
Definition u_frame (yv dv : vec) : M_Data.frame := M_Data.mk_frame ["y"; "d"; "x"] 8 (u_cell yv dv).
Definition u_data (yv dv : vec) (s : M_Data.ddata) : Prop := S_Data.constructed (u_frame yv dv) s /\ M_Data.dd_roles s = i_roles ["d"] None None None None /\ M_Data.dd_other s = true.
Lemma u_exists yv dv : exists s, u_data yv dv s.
Proof.
  destruct (L_DataWitness.construct_of (u_frame yv dv) (i_roles ["d"] None None None None) true M_Data.Strict) as (s & K & R & O & _); [|exists s; split; auto].
  assert (N : forall c, S_Data.number_column (u_frame yv dv) c) by (intros c i _; cbn; eexists; reflexivity).
  split; [apply L_Data.distinct_iff; reflexivity|]. split; [i_wf|]. split; [discriminate|]. split; intros c _; [|apply number_allowed]; apply N.
Qed.
Definition u_y : vec := fun i => INR i.
Definition u_y' : vec := fun i => 2 * INR i + 3.
Definition u_d' : vec := fun i => -4 * w_d i + 1.
Definition u_plr (ml_m : pylearner r_memo) (yv dv : vec) (s : M_Data.ddata) C w0 w ext w1 F : Prop :=
  plr_init u_learner i_rd (u_frame yv dv) s reg ml_m None (PInt 2) (PInt 1) (PStr "partialling out") (PBool true) = Ok (C, w0) /\ later C w0 w /\
  fit C PNone (PBool true) ext (PBool false) w = (w1, Ok tt) /\ current_fw w1 F.
(** Learners that predict means, outcome 2 y + 3. *)
Definition learned_case : Prop := exists s s' C C' w0 w0' w w' w1 w1' F F',
  u_data u_y w_d s /\ u_data u_y' w_d s' /\ u_plr cls u_y w_d s C w0 w ExtNone w1 F /\ u_plr cls u_y' w_d s' C' w0' w' ExtNone w1' F' /\ rescaled F F' 0 0 2 0.
(** Supplied predictions, outcome 2 y + 3 and treatment 1 - 4 d. *)
Definition u_given (l : string) (i : nat) : R := if String.eqb l "ml_l" then 1 / 2 * INR i else 3.
Definition u_given' (l : string) (i : nat) : R := if String.eqb l "ml_l" then 2 * (1 / 2 * INR i) + 3 else -4 * 3 + 1.
Definition supplied_case : Prop := exists s s' C C' w0 w0' w w' w1 w1' F F',
  u_data u_y w_d s /\ u_data u_y' u_d' s' /\ u_plr reg u_y w_d s C w0 w (given u_given ["ml_l"; "ml_m"]) w1 F /\ u_plr reg u_y' u_d' s' C' w0' w' (given u_given' ["ml_l"; "ml_m"]) w1' F' /\ rescaled F F' 0 0 (2 / -4) 0.

Lemma u_reliable w : split_known w -> reliable u_learner u_predict q_proba i_rd w.
Proof.
  intros (Es & _). constructor; [intros e xs; split; reflexivity|exact q_clone|]. intros sm r t l fs E Er. rewrite Es in E. injection E as <-. destruct r as [|[|r]]; [injection Er as <-|discriminate|discriminate]. exact ex_sched.
Qed.
Lemma u_make (ml_m : pylearner r_memo) yv dv s : ml_m = reg \/ ml_m = cls /\ dv = w_d -> u_data yv dv s -> exists C w0 w,
  plr_init u_learner i_rd (u_frame yv dv) s reg ml_m None (PInt 2) (PInt 1) (PStr "partialling out") (PBool true) = Ok (C, w0) /\ later C w0 w /\ split_known w.
Proof.
  intros Hm (Con & Ro & Ot). pose proof (S_Data.R_new _ _ Con) as Re. assert (Un : unclustered s) by (unfold unclustered; rewrite Ro; reflexivity).
  destruct (proj2 (plr_accepts u_learner i_rd (u_frame yv dv) s Con Un reg ml_m None (PInt 2) (PInt 1) (PStr "partialling out") (PBool true))) as ((C & w0) & E).
  { split; [unfold no_instruments; rewrite Ro; reflexivity|]. split; [apply i_split; exact Logic.I|]. split; [left; reflexivity|].
    split; [exact reg_values|]. split; [destruct Hm as [->|(-> & _)]; repeat split; auto|]. intros Q. destruct Hm as [->|(-> & ->)]; [discriminate Q|].
    rewrite Ro. intros c [<-|[]] i Hi. change (M_Data.Num (w_d i) = M_Data.Num 0 \/ M_Data.Num (w_d i) = M_Data.Num 1). destruct (w_d01 i Hi) as [->| ->]; auto. }
  pose proof E as E0. destruct (plr_made u_learner i_rd (u_frame yv dv) s Re i_sound _ _ _ _ _ _ _ _ _ E) as (mc & bin & Ec & Sr & Od & R1 & R2 & _). rewrite (plain_ctx (u_frame yv dv) s Re _ Un) in Ec.
  destruct (i_later C w0) as (w & Lt & K); [now rewrite Ec|now rewrite Ec|]. exists C, w0, w. auto.
Qed.
Lemma u_ready mc w t c name lrn y : ready q_learner q_proba mc w 8 t c name lrn y everyone -> ready u_learner q_proba mc w 8 t c name lrn y everyone.
Proof.
  intros H sm r fs Es Er. specialize (H sm r fs Es Er). destruct H as [A B D F G]. constructor; [exact A|exact B|exact D|exact F|exact G].
Qed.
Lemma u_learned yv s C w0 w : u_data yv w_d s -> plr_init u_learner i_rd (u_frame yv w_d) s reg cls None (PInt 2) (PInt 1) (PStr "partialling out") (PBool true) = Ok (C, w0) -> later C w0 w -> split_known w ->
  exists w1, fit C PNone (PBool true) ExtNone (PBool false) w = (w1, Ok tt).
Proof.
  intros (Con & Ro & Ot) E Lt K. pose proof (S_Data.R_new _ _ Con) as Re. assert (Un : unclustered s) by (unfold unclustered; rewrite Ro; reflexivity).
  destruct (plr_made u_learner i_rd (u_frame yv w_d) s Re i_sound _ _ _ _ _ _ _ _ _ E) as (mc & bin & Ec & Sr & Od & R1 & R2 & _). rewrite (plain_ctx (u_frame yv w_d) s Re _ Un) in Ec. pose proof (reached_later _ _ _ Sr Lt) as Sw.
  subst C. apply (plr_fit_success u_learner u_predict q_proba); try assumption; [cbn; lia|exact (some_treatment _ s Re)|apply (reliable_sound _ _ _ _ i_rd _ Od), u_reliable, K|left; reflexivity|destruct K as (K & _); eauto|].
  intros t c Hc. split; [exact (u_ready _ _ _ _ _ _ _ (ready_any mc w t c "ml_l" "ml_l" _ K (proj2 R1)))|]. split.
  - destruct (x_of_at _ s Re t c Hc) as (_ & Ed). rewrite Ed. rewrite Ro in Hc. assert (c = "d") as -> by (apply nth_error_In in Hc; destruct Hc as [<-|[]]; reflexivity). exact (u_ready _ _ _ _ _ _ _ (ready_class mc w t "d" "ml_m" "ml_m" K w_d (or_introl eq_refl))).
  - split; [discriminate|]. intros _ e v. destruct R2 as (_ & R2). rewrite R2. pose proof (q_soft mc "ml_m" e v) as Q. rewrite R2 in Q. exact Q.
Qed.
Lemma u_twins yv dv yv' dv' s s' w w' : u_data yv dv s -> u_data yv' dv' s' -> split_known w -> split_known w' -> twins (u_frame yv dv) s w (u_frame yv' dv') s' w' /\ same_covariates (u_frame yv dv) s (u_frame yv' dv') s' "d".
Proof.
  intros (_ & R1 & O1) (_ & R2 & O2) (K1 & K2) (K1' & K2'). split; [constructor; [reflexivity|rewrite R1, R2; reflexivity|congruence|intros l c; rewrite K2, K2'; reflexivity]|].
  intros i Hi. unfold covariates. rewrite R1, R2, O1, O2. reflexivity.
Qed.
Lemma learned_holds : learned_case.
Proof.
  destruct (u_exists u_y w_d) as (s & D), (u_exists u_y' w_d) as (s' & D').
  destruct (u_make cls u_y w_d s) as (C & w0 & w & E & Lt & K); [right; auto|exact D|]. destruct (u_make cls u_y' w_d s') as (C' & w0' & w' & E' & Lt' & K'); [right; auto|exact D'|].
  destruct (u_learned u_y s C w0 w D E Lt K) as (w1 & F1). destruct (u_learned u_y' s' C' w0' w' D' E' Lt' K') as (w1' & F1').
  destruct (u_twins _ _ _ _ s s' w w' D D' K K') as (Tw & Sc). pose proof D as (Con & Ro & Ot). pose proof D' as (Con' & Ro' & Ot').
  assert (Hd : forall c, In c (M_Data.r_d (M_Data.dd_roles s)) -> c = "d") by (rewrite Ro; intros c [<-|[]]; reflexivity).
  assert (Hy : affine 8 2 3 (outcome (u_frame u_y w_d) s) (outcome (u_frame u_y' w_d) s')) by (unfold outcome; rewrite Ro, Ro'; intros i _; reflexivity).
  assert (Ad : affine 8 1 0 (col (u_frame u_y w_d) "d") (col (u_frame u_y' w_d) "d")) by (intros i _; cbn; ring).
  destruct (plr_units r_memo unit u_learner u_predict q_proba i_rd i_rd (u_frame u_y w_d) (u_frame u_y' w_d) s s' reg cls None None (PInt 2) (PInt 2) (PInt 1) (PInt 1) (PBool true) (PBool true) C C' w0 w0' w w' PNone PNone (PBool true) (PBool true) ExtNone ExtNone (PBool false) (PBool false) w1 w1' 2 3) as (mc & F & F' & sm & R2 & Dn & Dn' & H); try assumption.
  - exact (S_Data.R_new _ _ Con).
  - unfold unclustered; rewrite Ro; reflexivity.
  - exact i_sound.
  - cbn. lia.
  - exact (S_Data.R_new _ _ Con').
  - unfold unclustered; rewrite Ro'; reflexivity.
  - exact i_sound.
  - apply u_reliable, K.
  - apply u_reliable, K'.
  - intros c Ic. rewrite (Hd c Ic). exists 1, 0. exact Ad.
  - intros c Ic. rewrite (Hd c Ic). exact (fun Q => i_labels (Build_machinery _ _ (fun _ => []) (fun _ => true) (fun _ => true) (fun _ _ _ => []) false) w "ml_m" w_d K w_d_both eq_refl).
  - exists s, s', C, C', w0, w0', w, w', w1, w1', F, F'. pose proof Dn as (Hc & _ & _ & Es & _). pose proof Dn' as (Hc' & _).
    split; [exact D|]. split; [exact D'|]. split; [repeat split; assumption|]. split; [repeat split; assumption|].
    assert (sm = [w_smpls]) as -> by (destruct K as (K & _); congruence).
    assert (NS : forall l r e, ~ supplied ExtNone "d" l r e) by (intros l r e (el & il & a & Q & _); discriminate Q).
    destruct (H 0%nat 0%nat w_smpls "d" 1 0 eq_refl) as (m & U & Q); [rewrite Ro; reflexivity|exact Sc|exact Ad|lra| | |].
    + left. split; [apply NS|]. split; [apply NS|]. right. split; [reflexivity|apply u_equivariant].
    + left. split; [apply NS|]. split; [apply NS|]. left. auto.
    + replace 2 with (2 / 1) by lra. apply Q. clear Q. destruct U as (_ & U). destruct (U (NS "ml_m" 0%nat)) as (cd & _ & V). destruct (V 0%nat ltac:(cbn; lia)) as (k & h & rows & p & mm & _ & _ & _ & _ & X). cbn [setup_of su_proba] in X.
      destruct R2 as (_ & R2). rewrite R2 in X. cbn [cls ly_classifier] in X. pose proof (q_soft mc "ml_m" mm (covariates (u_frame u_y w_d) s "d" 0%nat)) as Sf. rewrite R2 in Sf. cbn [cls ly_classifier] in Sf. destruct (Sf _ X) as (S0 & S1).
      apply Rgt_not_eq, sumf_pos; [intros; apply pow2_ge_0|]. exists 0%nat. split; [cbn; lia|]. rewrite <- Rsqr_pow2. apply Rsqr_pos_lt. destruct (w_d01 0 ltac:(lia)) as [Z|Z]; intro Q; [apply S0|apply S1]; change (col (u_frame u_y w_d) "d" 0%nat) with (w_d 0) in Q; lra.
Qed.
Lemma u_supplied yv dv s C w0 w (v : string -> vec) : u_data yv dv s -> plr_init u_learner i_rd (u_frame yv dv) s reg reg None (PInt 2) (PInt 1) (PStr "partialling out") (PBool true) = Ok (C, w0) -> later C w0 w -> split_known w ->
  v "ml_m" 0%nat <> 0 /\ v "ml_m" 0%nat <> 1 -> exists w1, fit C PNone (PBool true) (given v ["ml_l"; "ml_m"]) (PBool false) w = (w1, Ok tt).
Proof.
  intros (Con & Ro & Ot) E Lt K Hv. pose proof (S_Data.R_new _ _ Con) as Re. assert (Un : unclustered s) by (unfold unclustered; rewrite Ro; reflexivity).
  destruct (plr_made u_learner i_rd (u_frame yv dv) s Re i_sound _ _ _ _ _ _ _ _ _ E) as (mc & bin & Ec & Sr & Od & R1 & R2 & _). rewrite (plain_ctx (u_frame yv dv) s Re _ Un) in Ec. pose proof (reached_later _ _ _ Sr Lt) as Sw.
  subst C. rewrite Ro in *. edestruct (plr_ext u_learner mc 8 ["d"] bin) as (w2 & F & sm & Hf & _); [lia|discriminate|apply reached_reachable, Sw|left; reflexivity|destruct K as (K & _); eauto| | | |exists w2; exact Hf].
  - assert (N1 : m_n_rep (w_obj w) = 1%nat); [|rewrite N1; apply given_wf, incl_refl]. destruct K as (K & _). rewrite <- (wf_smpls _ _ (reachable_wf _ _ (reached_reachable _ _ Sw)) _ K). reflexivity.
  - apply given_complete.
  - intros t c Hc _. assert (c = "d") as -> by (apply nth_error_In in Hc; destruct Hc as [<-|[]]; reflexivity).
    intros r u S. rewrite (supplied_same _ _ _ _ _ _ S (given_supplied v ["ml_l"; "ml_m"] "ml_m" r ltac:(cbn; tauto))). exists 0%nat. split; [lia|exact Hv].
Qed.
Lemma supplied_holds : supplied_case.
Proof.
  destruct (u_exists u_y w_d) as (s & D), (u_exists u_y' u_d') as (s' & D').
  destruct (u_make reg u_y w_d s) as (C & w0 & w & E & Lt & K); [left; auto|exact D|]. destruct (u_make reg u_y' u_d' s') as (C' & w0' & w' & E' & Lt' & K'); [left; auto|exact D'|].
  destruct (u_supplied u_y w_d s C w0 w u_given D E Lt K) as (w1 & F1); [cbn; lra|]. destruct (u_supplied u_y' u_d' s' C' w0' w' u_given' D' E' Lt' K') as (w1' & F1'); [cbn; lra|].
  destruct (u_twins _ _ _ _ s s' w w' D D' K K') as (Tw & Sc). pose proof D as (Con & Ro & Ot). pose proof D' as (Con' & Ro' & Ot').
  assert (Hd : forall c, In c (M_Data.r_d (M_Data.dd_roles s)) -> c = "d") by (rewrite Ro; intros c [<-|[]]; reflexivity).
  assert (Hy : affine 8 2 3 (outcome (u_frame u_y w_d) s) (outcome (u_frame u_y' u_d') s')) by (unfold outcome; rewrite Ro, Ro'; intros i _; reflexivity).
  assert (Ad : affine 8 (-4) 1 (col (u_frame u_y w_d) "d") (col (u_frame u_y' u_d') "d")) by (intros i _; reflexivity).
  destruct (plr_units r_memo unit u_learner u_predict q_proba i_rd i_rd (u_frame u_y w_d) (u_frame u_y' u_d') s s' reg reg None None (PInt 2) (PInt 2) (PInt 1) (PInt 1) (PBool true) (PBool true) C C' w0 w0' w w' PNone PNone (PBool true) (PBool true) (given u_given ["ml_l"; "ml_m"]) (given u_given' ["ml_l"; "ml_m"]) (PBool false) (PBool false) w1 w1' 2 3) as (mc & F & F' & sm & R2 & Dn & Dn' & H); try assumption.
  - exact (S_Data.R_new _ _ Con).
  - unfold unclustered; rewrite Ro; reflexivity.
  - exact i_sound.
  - cbn. lia.
  - exact (S_Data.R_new _ _ Con').
  - unfold unclustered; rewrite Ro'; reflexivity.
  - exact i_sound.
  - apply u_reliable, K.
  - apply u_reliable, K'.
  - intros c Ic. rewrite (Hd c Ic). exists (-4), 1. exact Ad.
  - intros c Ic Q. discriminate Q.
  - exists s, s', C, C', w0, w0', w, w', w1, w1', F, F'. pose proof Dn as (Hc & _ & _ & Es & _). pose proof Dn' as (Hc' & _).
    split; [exact D|]. split; [exact D'|]. split; [repeat split; assumption|]. split; [repeat split; assumption|].
    assert (sm = [w_smpls]) as -> by (destruct K as (K & _); congruence).
    assert (G : forall v l r, In l ["ml_l"; "ml_m"] -> supplied (given v ["ml_l"; "ml_m"]) "d" l r (v l)) by (intros; apply given_supplied; assumption).
    destruct (H 0%nat 0%nat w_smpls "d" (-4) 1 eq_refl) as (m & U & Q); [rewrite Ro; reflexivity|exact Sc|exact Ad|lra| | |].
    + right. exists (u_given "ml_l"), (u_given' "ml_l"). split; [apply G; cbn; tauto|]. split; [apply G; cbn; tauto|]. intro i. reflexivity.
    + right. exists (u_given "ml_m"), (u_given' "ml_m"). split; [apply G; cbn; tauto|]. split; [apply G; cbn; tauto|]. intro i. reflexivity.
    + apply Q. destruct U as (U & _). specialize (U _ (G u_given "ml_m" 0%nat ltac:(cbn; tauto))).
      apply Rgt_not_eq, sumf_pos; [intros; apply pow2_ge_0|]. exists 0%nat. split; [cbn; lia|]. rewrite <- Rsqr_pow2. apply Rsqr_pos_lt. rewrite U. change (u_given "ml_m" 0%nat) with 3. change (col (u_frame u_y w_d) "d" 0%nat) with (w_d 0). destruct (w_d01 0 ltac:(lia)) as [-> | ->]; lra.
Qed.

(** Selection models: the estimate is not bounded by the trimming threshold. *)
From Verif Require Import L_CrossExamples L_CrossFit L_NuisCases L_ClassesWitness L_ClassDid L_FitSuccess L_FitSuccess2 S_Checks.
From Verif Require Export S_Bounded.
From Coq Require Import Lia Lra.
Local Open Scope R_scope.
Local Open Scope string_scope.

(** Classifiers and regressors that predict a given number for all rows. *)
Definition b_proba (e : R * r_memo) (v : row) : list R := match m_classes (r_in (snd e)) with _ :: _ :: l => 1 - fst e :: fst e :: map (fun _ => 0) l | l => map (fun _ => 1) l end.
Definition b_learner : learner (R * r_memo) row unit := {|
  ln_clone := fun e => (fst e, []); ln_set := fun e _ => Ok e;
  ln_fit := fun e d => match d with [] => Err ValueError | _ => Ok (fst e, d) end;
  ln_predict := fun e xs => map (fun _ => fst e) xs; ln_proba := fun e xs => map (b_proba e) xs; ln_classes := fun e => m_classes (r_in (snd e)) |}.
Definition b_predict (e : R * r_memo) (v : row) : R := fst e.
Definition b_mach (q : string -> R) : machinery (R * r_memo) unit :=
  {| mc_learner := fun l => (q l, []); mc_proba := fun l => String.eqb l "ml_m" || String.eqb l "ml_pi"; mc_classifier := fun l => String.eqb l "ml_m" || String.eqb l "ml_pi"; mc_order := fun _ _ _ => [1; 0]%nat; mc_models := false |}.
Definition b_machine (eps : R) : machinery (R * r_memo) unit := b_mach (fun l => if String.eqb l "ml_pi" then eps else if String.eqb l "ml_m" then 1 / 2 else 0).
Definition b_ctx (eps : R) : ctx unit := ssm_ctx b_learner (b_machine eps) 8 ["d"] false true (1 / 100) (fun _ => w_x) w_d (fun _ => w_d) w_t (Some w_strata).
Lemma b_row : row_wise b_learner b_predict b_proba.
Proof. intros e xs. split; reflexivity. Qed.
Lemma b_clone : clone_ok b_learner.
Proof. split; [reflexivity|]. cbn. intros e p e' H. injection H as <-. reflexivity. Qed.
Lemma b_classifier : classifier_ok b_learner b_proba.
Proof.
  intros e data m H. assert (m = (fst e, data) /\ data <> []) as (-> & Hne) by (cbn in H; destruct data; [discriminate|injection H as <-; split; [reflexivity|discriminate]]).
  destruct (r_classifier [] data data) as (A & B & _); [cbn; destruct data; [congruence|reflexivity]|]. cbn [b_learner ln_classes r_learner] in *. split; [exact A|]. split; [exact B|].
  intro x. unfold b_proba. cbn [snd fst]. destruct (m_classes (r_in data)) as [|a [|b l]]; cbn; rewrite ?map_length; reflexivity.
Qed.
Lemma b_object eps : w_object (b_ctx eps).
Proof. w_obj_tac. Qed.
Lemma b_fitted q0 l p data m : fitted b_learner (mc_learner (b_mach q0) l) p data m -> fst m = q0 l.
Proof. destruct p as [q|]; cbn; [intros (e & H1 & H)|intro H]; [injection H1 as <-|]; destruct data; try discriminate; injection H as <-; reflexivity. Qed.
(** With outcomes and outcome predictions between -1 and 1 and threshold 1/100
    the estimate exceeds any number. *)
Definition selection_unbounded : Prop := forall K, exists (eps : R) (w w' : world unit) F fs, 0 < eps < 1 / 2 /\ soundly_reached (b_ctx eps) w /\ sound_learning b_learner b_predict b_proba (b_machine eps) w /\
  within 8 1 w_d /\ (forall p data m v, fitted b_learner (mc_learner (b_machine eps) "ml_g") p data m -> b_predict m v = 0) /\
  fit (b_ctx eps) PNone (PBool true) ExtNone (PBool false) w = (w', Ok tt) /\ fit_done w w' F [fs] 1 /\ K < at_ (fw_all_thetas F) [0; 0]%nat.
Lemma b_both y : both_labels 8 y w_smpls -> forall h i, In h w_smpls -> (i < 8)%nat -> exists j, (j < 8)%nat /\ everyone j /\ In j (fst h) /\ y j = y i.
Proof. intros (A & B & _) h i Hh Hi. destruct (A h i Hh Hi) as (j & J1 & J2). exists j. split; [eapply B; eassumption|]. split; [exact Logic.I|]. split; assumption. Qed.
Lemma b_learning q w0 : m_smpls (w_obj w0) = Some [w_smpls] -> sound_learning b_learner b_predict b_proba (b_mach q) w0.
Proof. intro Es. constructor; [exact b_row|exact b_clone|]. intros sm r t l fs E Er. rewrite Es in E. injection E as <-. destruct r as [|[|r]]; [injection Er as <-|discriminate|discriminate]. exact ex_sched. Qed.
Lemma b_labels q w0 lrn y (G : nat -> Prop) : m_smpls (w_obj w0) = Some [w_smpls] -> (forall h i, In h w_smpls -> (i < 8)%nat -> exists j, (j < 8)%nat /\ G j /\ In j (fst h) /\ y j = y i) -> labels_everywhere b_learner b_proba (b_mach q) w0 8 lrn y G.
Proof. intros Es H _. split; [exact b_classifier|]. intros sm fs h i E Hf Hh Hi. rewrite Es in E. injection E as <-. destruct Hf as [<-|[]]. apply H; assumption. Qed.
Lemma b_ready q w0 name lrn y (G : nat -> Prop) col : m_smpls (w_obj w0) = Some [w_smpls] -> (forall l t, m_params (w_obj w0) l t = [None]) -> (forall h, In h w_smpls -> exists j, (j < 8)%nat /\ G j /\ In j (fst h)) ->
    (mc_proba (b_mach q) lrn = true -> (forall h i, In h w_smpls -> (i < 8)%nat -> exists j, (j < 8)%nat /\ G j /\ In j (fst h) /\ y j = y i) /\ exists i j, (i < 8)%nat /\ (j < 8)%nat /\ y i <> y j) ->
    ready b_learner b_proba (b_mach q) w0 8 0 col name lrn y G.
Proof.
  intros Es Ep Hr Hp sm r fs E Er. rewrite Es in E. injection E as <-. destruct r as [|[|r]]; [injection Er as <-|discriminate|discriminate]. constructor.
  - intros k p data Hk Hpp Hne. cbn [setup_of su_learner]. destruct p as [q0|]; cbn; [eexists (_, data), (_, []); split; [reflexivity|]|eexists]; destruct data; try congruence; reflexivity.
  - cbn [setup_of su_params]. rewrite Ep. cbn. discriminate.
  - exact Hr.
  - intro Q. split; [exact b_classifier|]. intros h i Hh Hi. apply (proj1 (Hp Q)); assumption.
  - intro Q. exact (proj2 (Hp Q)).
Qed.
(** Propensities predicted far below the threshold; the outcome learner predicts zero. *)
Definition b_low : machinery (R * r_memo) unit := b_mach (fun l => if String.eqb l "ml_m" then 1 / 1000 else 0).
Definition b_irm (atte norm : bool) : ctx unit := irm_ctx b_learner b_low 8 "d" atte norm false true (1 / 100) (fun _ => unit_weights) w_x w_t w_d (Some w_strata).
Definition bounded_case (atte norm : bool) : Prop := exists w w', soundly_reached (b_irm atte norm) w /\ sound_learning b_learner b_predict b_proba b_low w /\ binary 8 w_d /\ 0 < sumf 8 w_d /\ within 8 1 w_t /\
  labels_everywhere b_learner b_proba b_low w 8 "ml_g" w_t (fun j => w_d j = 0) /\ labels_everywhere b_learner b_proba b_low w 8 "ml_g" w_t (fun j => w_d j = 1) /\ labels_everywhere b_learner b_proba b_low w 8 "ml_m" w_d everyone /\
  fit (b_irm atte norm) PNone (PBool true) ExtNone (PBool false) w = (w', Ok tt) /\
  (forall name sel r fs v, used_prediction b_learner b_predict b_proba b_low w 8 ExtNone r 0 "d" name "ml_g" w_x w_t sel fs v -> within 8 1 v).
Lemma b_irm_object atte norm : w_object (b_irm atte norm).
Proof. w_obj_tac. Qed.
Lemma bounded_holds atte norm : bounded_case atte norm.
Proof.
  destruct (b_irm_object atte norm) as (w0 & N & Es & En & Ep).
  assert (Sr : soundly_reached (b_irm atte norm) w0).
  { exists (PInt 2), (PInt 1), (PBool true), g_id, no_perm, w0, []. split; [split; reflexivity|]. split; [intros r v l; reflexivity|]. split; [exact N|]. split; [intros o []|reflexivity]. }
  assert (Sl := b_learning _ w0 Es : sound_learning b_learner b_predict b_proba b_low w0).
  assert (Ld := b_both w_d w_d_both).
  assert (Gr : forall a, (a = 0 \/ a = 1) -> forall h, In h w_smpls -> exists j, (j < 8)%nat /\ w_d j = a /\ In j (fst h)) by (intros a Ha h Hh; destruct Hh as [<-|[<-|[]]]; destruct Ha as [-> | ->]; [exists 6%nat|exists 7%nat|exists 2%nat|exists 3%nat]; cbn; repeat split; auto; try lia; tauto).
  assert (Ev : forall h : fold, In h w_smpls -> exists j, (j < 8)%nat /\ everyone j /\ In j (fst h)) by (intros h Hh; destruct (Ld h 0%nat Hh ltac:(lia)) as (j & ? & ? & ? & _); eauto).
  destruct (irm_fit_success b_learner b_predict b_proba b_low 8 "d" atte norm false true (1 / 100) (fun _ => unit_weights) w_x w_t w_d (Some w_strata) w0 PNone true false) as (w' & Hf); [lia|exact Sr|exact Sl|left; reflexivity|eexists; exact Es| | | |discriminate|].
  - apply b_ready; [exact Es|exact Ep|apply Gr; auto|discriminate].
  - apply b_ready; [exact Es|exact Ep|apply Gr; auto|discriminate].
  - apply b_ready; [exact Es|exact Ep|exact Ev|]. intros _. split; [exact Ld|]. exists 0%nat, 1%nat. cbn. repeat split; try lia; lra.
  - exists w0, w'. split; [exact Sr|]. split; [exact Sl|]. split; [intros i Hi; eight i; cbn; auto|]. split; [unfold sumf; cbn; lra|]. split; [intros i Hi; eight i; cbn; lra|].
    split; [intro Q; discriminate Q|]. split; [intro Q; discriminate Q|]. split; [apply b_labels; [exact Es|exact Ld]|]. split; [exact Hf|].
    intros name sel r fs v (_ & U). destruct U as (c & _ & U); [intros e Q; destruct Q as (l1 & l2 & l3 & Q & _); discriminate Q|]. intros i Hi. destruct (U i Hi) as (k & h & rows & p & e & _ & _ & _ & Fi & V).
    assert (Z : v i = 0) by (etransitivity; [exact V|]; exact (b_fitted _ "ml_g" _ _ _ Fi)). lra.
Qed.
Lemma unbounded : selection_unbounded.
Proof.
  intro K. set (eps := / (2 * (Rabs K + 2))). assert (Kp := Rabs_pos K). assert (He : 0 < eps < 1 / 2). { unfold eps. split; [apply Rinv_0_lt_compat; lra|]. apply Rmult_lt_reg_r with (2 * (Rabs K + 2)); [lra|]. rewrite Rinv_l; lra. }
  destruct (b_object eps) as (w0 & N & Es & En & Ep).
  assert (Sr : soundly_reached (b_ctx eps) w0).
  { exists (PInt 2), (PInt 1), (PBool true), g_id, no_perm, w0, []. split; [split; reflexivity|]. split; [intros r v l; reflexivity|]. split; [exact N|]. split; [intros o []|reflexivity]. }
  assert (Sl := b_learning _ w0 Es : sound_learning b_learner b_predict b_proba (b_machine eps) w0). assert (LB := fun lrn y G => b_labels _ w0 lrn y G Es : _ -> labels_everywhere b_learner b_proba (b_machine eps) w0 8 lrn y G).
  assert (Ld : forall h i, In h w_smpls -> (i < 8)%nat -> exists j, (j < 8)%nat /\ everyone j /\ In j (fst h) /\ w_d j = w_d i).
  { apply b_both, w_d_both. }
  assert (Lt : forall h i, In h w_smpls -> (i < 8)%nat -> exists j, (j < 8)%nat /\ everyone j /\ In j (fst h) /\ w_t j = w_t i).
  { apply b_both, w_t_both. }
  assert (Tr := fun name lrn y G col => b_ready _ w0 name lrn y G col Es Ep : _ -> _ -> ready b_learner b_proba (b_machine eps) w0 8 0 col name lrn y G).
  destruct (ssm_fit_success b_learner b_predict b_proba (b_machine eps) 8 ["d"] false true (1 / 100) (fun _ => w_x) w_d (fun _ => w_d) w_t (Some w_strata) w0 PNone true false) as (w' & Hf); [lia|discriminate|exact Sr|exact Sl|left; reflexivity|eexists; exact Es| |].
  { intros t col Et. destruct t as [|t]; [|destruct t; discriminate]. injection Et as <-.
    assert (Gr : forall a, (a = 0 \/ a = 1) -> forall h, In h w_smpls -> exists j, (j < 8)%nat /\ (w_d j = a /\ w_t j = 1) /\ In j (fst h)) by (intros a Ha h Hh; destruct Hh as [<-|[<-|[]]]; destruct Ha as [-> | ->]; [exists 6%nat|exists 7%nat|exists 2%nat|exists 3%nat]; cbn; repeat split; auto; try lia; tauto).
    assert (Ev : forall h : fold, In h w_smpls -> exists j, (j < 8)%nat /\ everyone j /\ In j (fst h)) by (intros h Hh; destruct (Ld h 0%nat Hh ltac:(lia)) as (j & ? & ? & ? & _); eauto).
    split; [|split; [|split]]; apply Tr.
    - exact Ev.
    - intros _. split; [exact Lt|]. exists 0%nat, 2%nat. cbn. repeat split; try lia; lra.
    - exact Ev.
    - intros _. split; [exact Ld|]. exists 0%nat, 1%nat. cbn. repeat split; try lia; lra.
    - apply (Gr 1). auto.
    - discriminate.
    - apply (Gr 0). auto.
    - discriminate. }
  destruct (ssm_fit b_learner b_predict b_proba (b_machine eps) 8 ["d"] false true (1 / 100) (fun _ => w_x) w_d (fun _ => w_d) w_t (Some w_strata) w0 PNone (PBool true) ExtNone (PBool false) w') as (F & sm & Fd & H); [lia|discriminate|exact Sr|exact Sl|apply LB; exact Lt|intros _; apply LB; exact Ld|intros t v _ Q; discriminate Q|exact Hf|].
  assert (Em : sm = [w_smpls]) by (assert (Q : m_smpls (w_obj w0) = Some sm) by apply Fd; congruence). subst sm.
  exists eps, w0, w', F, w_smpls. split; [exact He|]. split; [exact Sr|]. split; [exact Sl|].
  split; [intros i Hi; eight i; cbn; lra|]. split; [intros p data m v Q; exact (b_fitted _ "ml_g" p data m Q)|]. split; [exact Hf|]. split; [exact Fd|].
  destruct (H 0%nat 0%nat w_smpls "d" eq_refl eq_refl) as (pi & m0 & m & g1 & g0 & C1 & C2 & C3 & C4 & C5 & Q).
  assert (G1 : forall i, (i < 8)%nat -> g1 i = 0). { intros i Hi. destruct C4 as (c & _ & C4). destruct (C4 i Hi) as (k & h & rows & p & e & _ & _ & _ & Fi & V). etransitivity; [exact V|]. exact (b_fitted _ "ml_g" _ _ _ Fi). }
  assert (G0 : forall i, (i < 8)%nat -> g0 i = 0). { intros i Hi. destruct C5 as (c & _ & C5). destruct (C5 i Hi) as (k & h & rows & p & e & _ & _ & _ & Fi & V). etransitivity; [exact V|]. exact (b_fitted _ "ml_g" _ _ _ Fi). }
  assert (Pr : forall l e v q p data, fitted b_learner (mc_learner (b_machine eps) l) p data e -> nth_error (b_proba e v) 1 = Some q -> q = (if String.eqb l "ml_pi" then eps else if String.eqb l "ml_m" then 1 / 2 else 0)).
  { intros l e v q p data Fi. rewrite <- (b_fitted _ l p data e Fi : _ = if String.eqb l "ml_pi" then eps else if String.eqb l "ml_m" then 1 / 2 else 0). unfold b_proba. destruct (m_classes _) as [|a [|b r]]; cbn; intro Z; try discriminate; injection Z as <-; reflexivity. }
  assert (Pi : forall i, (i < 8)%nat -> pi i = eps). { intros i Hi. destruct C1 as (c & _ & C1). destruct (C1 i Hi) as (k & h & rows & p & e & _ & _ & _ & Fi & V). exact (Pr "ml_pi" _ _ _ _ _ Fi V). }
  assert (M : forall i, (i < 8)%nat -> m i = 1 / 2). { intros i Hi. rewrite (C3 i Hi). destruct C2 as (c & _ & C2). destruct (C2 i Hi) as (k & h & rows & p & e & _ & _ & _ & Fi & V). rewrite (Pr "ml_m" _ _ _ _ _ Fi V). cbn. rewrite Rmax_left, Rmin_left by (try rewrite Rmax_left; lra). reflexivity. }
  destruct Q as (T & _).
  - intros i Hi. eight i; cbn; auto.
  - intros i Hi. rewrite (M i Hi). lra.
  - intros i Hi. rewrite (Pi i Hi). lra.
  - discriminate.
  - rewrite T. rewrite (meanf_ext 8 _ (fun i => w_d i * w_t i * w_d i / (1 / 2 * eps))) by (intros i Hi; cbv zeta; rewrite (G1 i Hi), (G0 i Hi), (Pi i Hi), (M i Hi); eight i; cbn; field; lra).
    assert (V : meanf 8 (fun i => w_d i * w_t i * w_d i / (1 / 2 * eps)) = / (2 * eps)) by (unfold meanf; cbn; field; lra).
    rewrite V. unfold eps. rewrite Rinv_mult, Rinv_inv. pose proof (Rle_abs K). lra.
Qed.

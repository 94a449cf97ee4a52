(** The data object after a fit, and when its treatments can be activated. *)
From Verif Require Export L_SharedClass.
From Verif Require Import L_DataOps L_DataProps L_Data L_InitMade.
From Coq Require Import Lia Lra.
Local Open Scope R_scope.
Local Open Scope string_scope.

Lemma reading_data {P A} K (a : ctx P -> act P A) x x' r : reading K a x = (x', r) -> fst x' = fst x.
Proof. unfold reading. destruct (a (K (fst x)) (snd x)). intros [= <- _]. reflexivity. Qed.
Lemma switch_done {P} f t (x x' : pair_state P) : (1 < length (M_Data.r_d (M_Data.dd_roles (fst x))))%nat -> switch_to f t x = (x', Ok tt) ->
  let c := nth t (M_Data.r_d (M_Data.dd_roles (fst x))) EmptyString in xd_ok f (fst x) c = true /\ fst x' = M_Data.with_xd (fst x) c (M_Data.xd_list (fst x) c).
Proof.
  intros N H c. unfold switch_to in H. fold c in H. apply Nat.ltb_lt in N. rewrite N in H. rewrite set_xd_eq in H. destruct (xd_ok f (fst x) c); [|discriminate]. injection H as <-. auto.
Qed.
Section Loop.
Context {P : Type}.
Variables (f : M_Data.frame) (K : M_Data.ddata -> ctx P) (s : M_Data.ddata).
Notation dcols := (M_Data.r_d (M_Data.dd_roles s)).
Hypothesis Two : (1 < length dcols)%nat.
Definition at_treatment (t : nat) : M_Data.ddata := M_Data.with_xd s (nth t dcols EmptyString) (M_Data.xd_list s (nth t dcols EmptyString)).
Definition within (x : M_Data.ddata) : Prop := x = s \/ exists t, x = at_treatment t.
Lemma within_same x : within x -> M_Data.dd_roles x = M_Data.dd_roles s /\ (forall c, xd_ok f x c = xd_ok f s c) /\ forall c, M_Data.with_xd x c (M_Data.xd_list x c) = M_Data.with_xd s c (M_Data.xd_list s c).
Proof. intros [->|(t & ->)]; repeat split. Qed.
Lemma loop_done (body : nat -> ctx P -> act P unit) l : forall x x', within (fst x) -> sfor l (fun t => sthen (switch_to f t) (fun _ => reading K (body t))) x = (x', Ok tt) ->
  (forall t, In t l -> xd_ok f s (nth t dcols EmptyString) = true) /\ (l = [] -> fst x' = fst x) /\ (l <> [] -> fst x' = at_treatment (last l 0%nat)).
Proof.
  induction l as [|t l IH]; intros x x' W H; cbn [sfor] in H.
  - injection H as <-. split; [intros t []|]. split; [reflexivity|contradiction].
  - unfold sthen at 1 in H. destruct (sthen (switch_to f t) (fun _ => reading K (body t)) x) as (x1 & [[]|e]) eqn:E; [|discriminate].
    unfold sthen in E. destruct (switch_to f t x) as (x0 & [[]|e]) eqn:E0; [|discriminate]. destruct (within_same (fst x) W) as (R & O & Xd).
    destruct (switch_done f t x x0) as (A & B); [rewrite R; exact Two|exact E0|]. rewrite R in A, B. rewrite O in A. rewrite Xd in B. apply reading_data in E. rewrite B in E. change (fst x1 = at_treatment t) in E.
    destruct (IH x1 x') as (I1 & I2 & I3); [right; exists t; exact E|exact H|]. split; [intros t' [<-|Ht]; [exact A|exact (I1 t' Ht)]|]. split; [discriminate|]. intros _.
    destruct l as [|t2 l]; [rewrite (I2 eq_refl); exact E|]. rewrite I3 by discriminate. reflexivity.
Qed.
Lemma reps_done (body : nat -> nat -> ctx P -> act P unit) l : forall x x', within (fst x) -> sfor l (fun r y => sfor (seq 0 (length (M_Data.r_d (M_Data.dd_roles (fst y))))) (fun t => sthen (switch_to f t) (fun _ => reading K (body r t))) y) x = (x', Ok tt) ->
  (l <> [] -> forall t, (t < length dcols)%nat -> xd_ok f s (nth t dcols EmptyString) = true) /\ (l = [] -> fst x' = fst x) /\ (l <> [] -> fst x' = at_treatment (length dcols - 1)).
Proof.
  induction l as [|r l IH]; intros x x' W H; cbn [sfor] in H.
  - injection H as <-. split; [contradiction|]. split; [reflexivity|contradiction].
  - unfold sthen at 1 in H. destruct (sfor (seq 0 _) _ x) as (x1 & [[]|e]) eqn:E; [|discriminate]. destruct (within_same (fst x) W) as (R & _). rewrite R in E.
    destruct (loop_done (body r) _ x x1 W E) as (A & _ & B). assert (Nn : seq 0 (length dcols) <> []) by (destruct dcols; [cbn in Two; lia|discriminate]). specialize (B Nn).
    assert (La : last (seq 0 (length dcols)) 0%nat = (length dcols - 1)%nat). { clear -Two. destruct (length dcols) as [|k]; [lia|]. rewrite seq_S, last_last. lia. }
    rewrite La in B. destruct (IH x1 x') as (_ & I2 & I3); [right; eexists; exact B|exact H|]. split; [intros _ t Ht; apply A, in_seq; lia|]. split; [discriminate|]. intros _.
    destruct l as [|r2 l]; [rewrite (I2 eq_refl); exact B|apply I3; discriminate].
Qed.
End Loop.
Lemma initialize_reps {P} (C : ctx P) st w w' r : initialize_fit C st w = (w', r) -> m_n_rep (w_obj w') = m_n_rep (w_obj w).
Proof. unfold initialize_fit, andthen, assign, ret. destruct st, (c_sens C); intros [= <- _]; reflexivity. Qed.
Lemma check_same {P} (C : ctx P) nj st ext sm w w' r : check_fit C nj st ext sm w = (w', r) -> w' = w.
Proof. unfold check_fit, lift. intros [= <- _]. reflexivity. Qed.
Lemma fit_active {P} f (K : M_Data.ddata -> ctx P) nj st ext sm s w s' w' : (0 < m_n_rep (w_obj w))%nat -> live_fit f K nj st ext sm (s, w) = ((s', w'), Ok tt) ->
  let dcols := M_Data.r_d (M_Data.dd_roles s) in
  (length dcols = 1%nat -> s' = s) /\
  ((1 < length dcols)%nat -> (forall c, In c dcols -> snd (M_Data.assign f s (M_Data.SetXD (M_Data.CStr c))) = None) /\
     let c := last dcols EmptyString in s' = M_Data.with_xd s c (M_Data.xd_list s c)).
Proof.
  intros Nr H dcols. unfold live_fit in H. cbv zeta in H. unfold sthen at 1 in H. destruct (reading K (fun C => check_fit C nj st ext sm) (s, w)) as (x1 & [[]|e]) eqn:E1; [|discriminate].
  unfold sthen at 1 in H. destruct (reading K (fun C => initialize_fit C _) x1) as (x2 & [[]|e]) eqn:E2; [|discriminate].
  assert (N1 : m_n_rep (w_obj (snd x1)) = m_n_rep (w_obj w)). { unfold reading in E1. cbn [fst snd] in E1. destruct (check_fit _ _ _ _ _ _) as (w1 & r1) eqn:Q. apply check_same in Q. injection E1 as <- _. cbn. now rewrite Q. }
  assert (N2 : m_n_rep (w_obj (snd x2)) = m_n_rep (w_obj w)). { unfold reading in E2. destruct (initialize_fit _ _ _) as (w2 & r2) eqn:Q. apply initialize_reps in Q. injection E2 as <- _. cbn. congruence. }
  apply reading_data in E1. apply reading_data in E2. cbn [fst] in E1. rewrite E1 in E2.
  unfold sthen at 1 in H. destruct (sfor (seq 0 (m_n_rep (w_obj (snd x2)))) _ x2) as (x3 & [[]|e]) eqn:E3; [|discriminate]. apply reading_data in H. cbn [fst] in H. subst s'.
  assert (Nn : seq 0 (m_n_rep (w_obj (snd x2))) <> []) by (rewrite N2; destruct (m_n_rep (w_obj w)); [lia|discriminate]).
  split.
  - intro One. clear N1 N2 Nn Nr E1. revert x2 x3 E2 E3. generalize (match st with PBool b => b | _ => false end) as b. intros b x2. generalize (seq 0 (m_n_rep (w_obj (snd x2)))) as l. intro l. revert x2. induction l as [|r l IH]; intros x2 x3 E2 E3; cbn [sfor] in E3.
    + injection E3 as <-. exact E2.
    + unfold sthen at 1 in E3. rewrite E2 in E3. fold dcols in E3. rewrite One in E3. cbn [seq sfor] in E3. unfold sthen at 1 in E3. destruct (sthen (switch_to f 0) _ x2) as (x4 & [[]|e]) eqn:E4; [|discriminate].
      assert (F4 : fst x4 = s). { unfold sthen in E4. destruct (switch_to f 0 x2) as (x5 & [[]|e]) eqn:E5; [|discriminate]. apply reading_data in E4. rewrite E4. unfold switch_to in E5. rewrite E2 in E5. fold dcols in E5. rewrite One in E5. cbn in E5. injection E5 as <-. exact E2. }
      exact (IH x4 x3 F4 E3).
  - intro Two. destruct (reps_done f K s Two (fun r t C => fit_step C _ ext r t) _ x2 x3 (or_introl E2) E3) as (A & _ & B). specialize (A Nn). specialize (B Nn). split.
    + intros c Hc. apply In_nth_error in Hc as (t & Hc). assert (Ht : (t < length dcols)%nat) by (apply nth_error_Some; congruence). specialize (A t Ht). fold dcols in A. rewrite (nth_error_nth _ _ _ Hc) in A. cbn [M_Data.assign]. rewrite set_xd_eq, A. reflexivity.
    + cbv zeta. rewrite B. unfold at_treatment. fold dcols. replace (nth (length dcols - 1) dcols EmptyString) with (last dcols EmptyString); [reflexivity|].
      destruct (exists_last (l := dcols)) as (l & a & Ea); [intro Q; rewrite Q in Two; cbn in Two; lia|]. rewrite Ea, last_last, app_length. cbn. rewrite app_nth2 by lia. replace (_ - length l)%nat with 0%nat by lia. reflexivity.
Qed.

(** When the treatments can be activated *)
Lemma switchable_iff f s : S_Data.reachable f s -> (switchable f s <-> forall c, In c (M_Data.r_d (M_Data.dd_roles s)) -> S_Data.number_column f c).
Proof.
  intro Re. split; intros H c Hc.
  - specialize (H c Hc). cbn [M_Data.assign] in H. rewrite set_xd_eq in H. destruct (xd_ok f s c) eqn:O; [|discriminate]. unfold xd_ok in O. rewrite !andb_true_iff in O. apply number_col_iff, O.
  - destruct (activate_ok f s c Re Hc (H c Hc)) as (s' & E & _); [|rewrite E; reflexivity].
    intros k Hk. destruct (numbers f s Re) as (_ & Nx). rewrite (proj1 (features_reachable f s Re)) in Nx. unfold S_Data.features in *. apply in_app_iff in Hk. destruct Hk as [Hk|Hk]; [apply Nx, in_app_iff; auto|].
    destruct (M_Data.dd_other s); [|destruct Hk]. apply filter_In in Hk as (Hk & _). apply number_allowed, H, Hk.
Qed.
Lemma constructed_numbers f s : S_Data.constructed f s -> forall c, In c (M_Data.r_d (M_Data.dd_roles s)) -> S_Data.number_column f c.
Proof.
  intros [cl [y [d [x [z [t [v [other [fo H]]]]]]]]]. unfold M_Data.construct in H.
  apply require_inv in H as [HC H]. apply bind_inv in H as [cl' [Hcl H]]. apply bind_inv in H as [y' [Hy H]]. apply bind_inv in H as [d' [Hd H]]. apply bind_inv in H as [z' [Hz H]]. apply bind_inv in H as [t' [Ht H]]. apply bind_inv in H as [v' [Hv H]]. cbv zeta in H.
  apply bind_inv in H as [x' [Hx H]]. apply require_inv in H as [HB H]. apply bind_inv in H as [other' [_ H]]. apply bind_inv in H as [fo' [_ H]]. apply bind_inv in H as [bt [Hbt H]]. apply bind_inv in H as [by_ [_ H]]. apply bind_inv in H as [s1 [Hs H]]. apply require_inv in H as [HD H]. injection H as <-.
  destruct (M_Data.next _ _) as [s2 [e|]] eqn:E; cbn in Hs; [discriminate|]. injection Hs as <-. apply next_none in E as [s3 [E1 E2]]. apply set_yzts_keeps in E1. apply set_xd0_keeps in E2. destruct E1 as [R1 _]. destruct E2 as [R2 _]. rewrite R2, R1. cbn.
  apply require_inv in Hbt as [Hb _]. rewrite forallb_forall in Hb. intros c Hc. apply number_col_iff, Hb, Hc.
Qed.
Lemma kept_reachable f s : kept_treatments f s -> S_Data.reachable f s.
Proof. induction 1 as [s H|s o s' _ IH H _]; [exact (S_Data.R_new _ _ H)|exact (S_Data.R_set _ _ _ _ IH H)]. Qed.
Lemma kept_switchable f s : kept_treatments f s -> switchable f s.
Proof.
  intro H. apply (switchable_iff f s (kept_reachable f s H)). induction H as [s H|s o s' _ IH H N]; [exact (constructed_numbers f s H)|]. destruct (assign_binary f s o s' None H N) as (_ & R & _). rewrite R. exact IH.
Qed.
(** Stratification of DoubleMLSSM *)
Lemma ssm_strata {E P} (L : learner E row P) rd f s s' tts ml_g ml_pi ml_m nf nr score norm rule thr C w0 : activated s s' -> ssm_init L rd f s tts ml_g ml_pi ml_m nf nr score norm rule thr (PBool false) = Ok (C, w0) ->
  exists selc C', M_Data.c_s s = Some selc /\ ssm_init L rd f s' tts ml_g ml_pi ml_m nf nr score norm rule thr (PBool false) = Ok (C', w0) /\
    c_strata C = Some (value_codes (fun i => col f (M_Data.c_d s) i + 2 * col f selc i)) /\ c_strata C' = Some (value_codes (fun i => col f (M_Data.c_d s') i + 2 * col f selc i)).
Proof.
  intros (c & Ic & ->) H. unfold ssm_init in *. cbn [M_Data.with_xd M_Data.c_s M_Data.dd_roles M_Data.c_d].
  change (base_new rd f (M_Data.with_xd s c (M_Data.xd_list s c)) nf nr (PBool false)) with (base_new (P := P) rd f s nf nr (PBool false)).
  destruct (base_new rd f s nf nr (PBool false)) as [w|e]; [|discriminate]. cbn [bind] in *. destruct (trimming_arg rule thr) as [th|e]; [|discriminate]. cbn [bind] in *. unfold require in *.
  change (no_z (M_Data.with_xd s c (M_Data.xd_list s c))) with (no_z s). destruct (negb _); [|discriminate]. destruct (check_score _ _) as [sc|e]; [|discriminate]. cbn [bind] in *.
  destruct (M_Data.c_s s) as [selc|]; [|discriminate]. cbn [redraw bind] in *. cbv zeta in *. destruct (check_learner ml_g true true) as [gc|e]; [|discriminate]. cbn [bind] in *. destruct (check_learner ml_pi false true) as [pc|e]; [|discriminate]. cbn [bind] in *. destruct (check_learner ml_m false true) as [mc|e]; [|discriminate]. cbn [bind] in *.
  destruct (check_outcome _ _) as [u|e]; [|discriminate]. cbn [bind] in *. destruct (check_bool norm) as [nm|e]; [|discriminate]. cbn [bind] in *. apply ok_same in H. injection H as <- <-.
  do 2 eexists. split; [reflexivity|]. split; [reflexivity|]. rewrite !strata_of. destruct (String.eqb sc "nonignorable"); split; reflexivity.
Qed.

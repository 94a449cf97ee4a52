(** Invariants of the estimator object over arbitrary histories. *)
From Verif Require Export L_ModelLoop L_Splitting L_ClusterSplit.
From Coq Require Import FunctionalExtensionality.
Local Open Scope R_scope.

Lemma b_col_shape r t v b b' : b_col r t v b = Ok b' -> b_shape b' = b_shape b.
Proof.
  unfold b_col. destruct (b_shape b) as [|a [|b0 [|c [|]]]] eqn:E; try discriminate. destruct (_ && _); [|discriminate]. cbn. intro H. injection H as <-. reflexivity.
Qed.
Lemma b_set_shape idx x b b' : b_set idx x b = Ok b' -> b_shape b' = b_shape b.
Proof. unfold b_set. destruct (in_shapeb _ _); [|discriminate]. cbn. intro H. injection H as <-. reflexivity. Qed.
Lemma shape_hset h l l' b : b_shape b = b_shape (hget h l) -> b_shape (hget (set_nth l b h) l') = b_shape (hget h l').
Proof.
  intro H. destruct (Nat.eq_dec l' l) as [->|N]; [|now rewrite hget_set_other].
  destruct (lt_dec l (length h)) as [Hl|Hl]; [now rewrite hget_set_same|].
  unfold hget. rewrite !nth_overflow; [reflexivity|lia|rewrite set_nth_length; lia].
Qed.

Section Obj.
Context {P : Type}.
Variable C : ctx P.
Notation n := (c_n C).
Notation nt := (length (c_dcols C)).

(** ** Statements of a fit *)
Definition fitrel (store : bool) (w w' : world P) : Prop := frame store w w' /\ (wf C w -> wf C w').
Lemma fitrel_refl st w : fitrel st w w.
Proof. split; [apply frame_refl|auto]. Qed.
Lemma fitrel_trans st a b c : fitrel st a b -> fitrel st b c -> fitrel st a c.
Proof. intros [A1 A2] [B1 B2]. split; [eapply frame_trans; eauto|auto]. Qed.
Lemma fr_bind {A B} st w (m : act P A) (k : A -> act P B) : fitrel st w (fst (m w)) ->
  (forall x w1, m w = (w1, Ok x) -> fitrel st w1 (fst (k x w1))) -> fitrel st w (fst (andthen m k w)).
Proof.
  intros H1 H2. unfold andthen. destruct (m w) as [w1 [x|e]]; cbn in *; [|exact H1]. eapply fitrel_trans; [exact H1|]. apply (H2 x w1 eq_refl).
Qed.
Lemma fr_lift {A B} st w (r : world P -> result A) (k : A -> act P B) :
  (forall x, r w = Ok x -> fitrel st w (fst (k x w))) -> fitrel st w (fst (andthen (lift r) k w)).
Proof. intro H. unfold andthen, lift. destruct (r w) eqn:E; [auto|apply fitrel_refl]. Qed.
Lemma fr_assign {B} st w u (k : unit -> act P B) (w1 := {| w_heap := w_heap w; w_fws := w_fws w; w_obj := u (w_obj w) |}) :
  fitrel st w w1 -> fitrel st w1 (fst (k tt w1)) -> fitrel st w (fst (andthen (assign u) k w)).
Proof. intros H1 H2. eapply fitrel_trans; [exact H1|]. exact H2. Qed.
Lemma fr_for {A} st (l : list A) body w : (forall x w, fitrel st w (fst (body x w))) -> fitrel st w (fst (for_ l body w)).
Proof.
  intro H. revert w. induction l as [|x l IH]; intro w; [apply fitrel_refl|]. cbn [for_]. apply fr_bind; [apply H|]. intros; apply IH.
Qed.
Lemma fr_hwrite st w l u : l = m_vs (w_obj w) \/ l = m_all_coef (w_obj w) \/ l = m_all_se (w_obj w) ->
  (forall b b', u b = Ok b' -> b_shape b' = b_shape b) -> fitrel st w (fst (hwrite l u w)).
Proof.
  intros Hl Hu. unfold hwrite. destruct (u (hget (w_heap w) l)) as [b|e] eqn:E; [|apply fitrel_refl]. cbn [fst]. apply Hu in E. split.
  - constructor; cbn [w_heap w_fws w_obj]; auto; [apply set_nth_length|]. intros l' A1 A2 A3. apply hget_set_other. intuition congruence.
  - intros []. constructor; cbn [w_heap w_fws w_obj]; rewrite ?set_nth_length, ?(shape_hset _ l _ b E); assumption.
Qed.
Lemma fr_elements st w pa pb : (b_shape pa = b_shape (m_psi_a (w_obj w))) -> b_shape pb = b_shape (m_psi_b (w_obj w)) ->
  fitrel st w {| w_heap := w_heap w; w_fws := w_fws w; w_obj := with_elements pa pb (w_obj w) |}.
Proof.
  intros E1 E2. split; [constructor; auto|]. intros []. constructor; try assumption; cbn [w_obj w_heap w_fws with_elements with_arrays m_psi_a m_psi_b m_n_rep]; congruence.
Qed.
Lemma fr_psi st w pa pb : (b_shape pa = b_shape (m_psi (w_obj w))) -> b_shape pb = b_shape (m_psi_deriv (w_obj w)) ->
  fitrel st w {| w_heap := w_heap w; w_fws := w_fws w; w_obj := with_psi pa pb (w_obj w) |}.
Proof.
  intros E1 E2. split; [constructor; auto|]. intros []. constructor; try assumption; cbn [w_obj w_heap w_fws with_psi with_arrays m_psi m_psi_deriv m_n_rep]; congruence.
Qed.
Lemma fr_loss st w d : fitrel st w {| w_heap := w_heap w; w_fws := w_fws w; w_obj := with_loss d (w_obj w) |}.
Proof. split; [constructor; auto|]. intros []. constructor; assumption. Qed.
Lemma fr_sens st w d : fitrel st w {| w_heap := w_heap w; w_fws := w_fws w; w_obj := with_sens d (w_obj w) |}.
Proof. split; [constructor; auto|]. intros []. constructor; assumption. Qed.
Lemma fr_predictions w d d' : fitrel true w {| w_heap := w_heap w; w_fws := w_fws w; w_obj := with_predictions d d' (w_obj w) |}.
Proof. split; [constructor; auto; discriminate|]. intros []. constructor; assumption. Qed.

Lemma fr_nuisance st ext r t w : fitrel st w (fst (fit_nuisance C st ext r t w)).
Proof.
  unfold fit_nuisance. apply fr_lift. intros ed _. apply fr_lift. intros no _. apply fr_lift. intros w0 _.
  apply fr_lift. intros pa Hpa. apply b_col_shape in Hpa. apply fr_assign; [apply fr_elements; auto|].
  apply fr_lift. intros pb Hpb. apply b_col_shape in Hpb. apply fr_assign; [apply fr_elements; auto|].
  apply fr_bind.
  { unfold update_dict. apply fr_lift. intros d _. apply fr_loss. }
  intros ? w1 _. apply fr_bind; [|intros; apply fitrel_refl].
  destruct st; [|apply fitrel_refl]. apply fr_bind.
  { unfold update_dict. apply fr_lift. intros d _. apply fr_predictions. }
  intros ? w2 _. unfold update_dict. apply fr_lift. intros d _. apply fr_predictions.
Qed.
Lemma fr_solve st r t w : fitrel st w (fst (solve_score C r t w)).
Proof.
  unfold solve_score. apply fr_lift. intros w0 E0. assert (w0 = w) by congruence. subst w0. clear E0. cbv zeta. apply fr_lift. intros coef _.
  apply fr_bind; [apply fr_hwrite; [auto|intros; eapply b_set_shape; eauto]|]. intros u1 w1 H1.
  assert (O1 : w_obj w1 = w_obj w).
  { unfold hwrite in H1. destruct (b_set _ _ _); [|discriminate]. injection H1 as <-. reflexivity. }
  apply fr_lift. intros psi Hp. apply b_col_shape in Hp. apply fr_assign; [apply fr_psi; auto|].
  apply fr_lift. intros dpsi Hd. apply b_col_shape in Hd. apply fr_assign; [apply fr_psi; auto|].
  apply fr_lift. intros sv _. apply fr_bind.
  { apply fr_hwrite; [cbn [w_obj with_psi with_arrays m_vs m_all_coef m_all_se]; rewrite O1; auto|intros; eapply b_set_shape; eauto]. }
  intros u2 w2 H2. assert (O2 : m_vs (w_obj w2) = m_vs (w_obj w)).
  { unfold hwrite in H2. destruct (b_set _ _ _); [|discriminate]. injection H2 as <-. cbn [w_obj with_psi with_arrays m_vs]. now rewrite O1. }
  apply fr_hwrite; [rewrite O2; auto|intros; eapply b_set_shape; eauto].
Qed.
Lemma fr_sensitivity st no r t w : fitrel st w (fst (fit_sensitivity C no r t w)).
Proof.
  unfold fit_sensitivity. destruct (c_sens C); [|apply fitrel_refl]. apply fr_lift. intros ? _. apply fr_sens.
Qed.
Lemma fr_step st ext r t w : fitrel st w (fst (fit_step C st ext r t w)).
Proof.
  unfold fit_step. apply fr_bind; [apply fr_nuisance|]. intros no w1 _. apply fr_bind; [apply fr_solve|]. intros; apply fr_sensitivity.
Qed.
Lemma fr_initialize st w : fitrel st w (fst (initialize_fit C st w)).
Proof.
  unfold initialize_fit. apply fr_assign; [apply fr_loss|]. apply fr_bind.
  { destruct st; [apply fr_predictions|apply fitrel_refl]. }
  intros ? w1 _. destruct (c_sens C); [apply fr_sens|apply fitrel_refl].
Qed.

(** ** Histories *)
(** Framework objects keep everything except the two results their own methods
    recompute and the arrays they share. *)
Definition fw_core (o o' : fwobj) : Prop :=
  fo_all_thetas o' = fo_all_thetas o /\ fo_all_ses o' = fo_all_ses o /\ fo_vs o' = fo_vs o /\
  let f := fo_base o in let g := fo_base o' in
  fw_n_obs g = fw_n_obs f /\ fw_n_thetas g = fw_n_thetas f /\ fw_n_rep g = fw_n_rep f /\ fw_thetas g = fw_thetas f /\
  fw_ses g = fw_ses f /\ fw_scaled_psi g = fw_scaled_psi f /\ fw_cluster g = fw_cluster f /\ fw_sens g = fw_sens f /\ fw_names g = fw_names f.
Lemma fw_core_refl o : fw_core o o.
Proof. repeat split. Qed.
Lemma fw_core_trans a b c : fw_core a b -> fw_core b c -> fw_core a c.
Proof. unfold fw_core. cbv zeta. intros. intuition congruence. Qed.

Record evolves (w w' : world P) : Prop := {
  ev_len : (length (w_heap w) <= length (w_heap w'))%nat;
  ev_heap : forall l, (l < length (w_heap w))%nat -> l <> m_vs (w_obj w) -> l <> m_all_coef (w_obj w) -> l <> m_all_se (w_obj w) ->
     hget (w_heap w') l = hget (w_heap w) l;
  ev_loc : (m_vs (w_obj w') = m_vs (w_obj w) /\ m_all_coef (w_obj w') = m_all_coef (w_obj w) /\ m_all_se (w_obj w') = m_all_se (w_obj w)) \/
     (length (w_heap w) <= m_vs (w_obj w') /\ length (w_heap w) <= m_all_coef (w_obj w') /\ length (w_heap w) <= m_all_se (w_obj w'))%nat;
  ev_fws : forall k o, nth_error (w_fws w) k = Some o -> exists o', nth_error (w_fws w') k = Some o' /\ fw_core o o' }.
Lemma evolves_refl w : evolves w w.
Proof. constructor; auto. intros k o H. exists o. split; [exact H|apply fw_core_refl]. Qed.
Lemma evolves_trans a b c : evolves a b -> evolves b c -> evolves a c.
Proof.
  intros [A1 A2 A3 A4] [B1 B2 B3 B4]. constructor.
  - lia.
  - intros l Hl N1 N2 N3. rewrite B2; [apply A2; assumption|lia| | |]; destruct A3 as [(E1 & E2 & E3)|(E1 & E2 & E3)]; (congruence || lia).
  - destruct A3 as [(E1 & E2 & E3)|(E1 & E2 & E3)], B3 as [(D1 & D2 & D3)|(D1 & D2 & D3)];
      [left; repeat split; congruence|right; lia|right; rewrite D1, D2, D3; lia|right; lia].
  - intros k o H. destruct (A4 k o H) as (o' & H' & C1). destruct (B4 k o' H') as (o'' & H'' & C2). exists o''. split; [exact H''|]. eapply fw_core_trans; eauto.
Qed.
Lemma frame_evolves st w w' : frame st w w' -> evolves w w'.
Proof.
  intros []. constructor; [lia|intros; auto|left; auto|]. intros k o H. exists o. rewrite fr_fws. split; [exact H|apply fw_core_refl].
Qed.

(** Same configuration, up to the arrays and results. *)
Definition same_split (w w' : world P) : Prop :=
  m_n_rep (w_obj w') = m_n_rep (w_obj w) /\ m_n_folds (w_obj w') = m_n_folds (w_obj w) /\ m_nfpc (w_obj w') = m_nfpc (w_obj w) /\
  m_smpls (w_obj w') = m_smpls (w_obj w) /\ m_smpls_cluster (w_obj w') = m_smpls_cluster (w_obj w) /\ m_params (w_obj w') = m_params (w_obj w) /\
  m_vs (w_obj w') = m_vs (w_obj w) /\ m_all_coef (w_obj w') = m_all_coef (w_obj w) /\ m_all_se (w_obj w') = m_all_se (w_obj w).
Lemma same_split_refl w : same_split w w.
Proof. repeat split. Qed.
Lemma same_split_trans a b c : same_split a b -> same_split b c -> same_split a c.
Proof. unfold same_split. intros. intuition congruence. Qed.
Lemma frame_same_split st w w' : frame st w w' -> same_split w w'.
Proof. intros []. repeat split; assumption. Qed.

(** Result of fit on the attached framework: untouched when it fails; a new
    object sharing the current arrays when it succeeds. *)
Record fit_end (w w' : world P) (ok : bool) : Prop := {
  fe_wf : wf C w -> wf C w';
  fe_ev : evolves w w';
  fe_split : same_split w w';
  fe_len : length (w_heap w') = length (w_heap w);
  fe_fail : ok = false -> m_fw (w_obj w') = m_fw (w_obj w) /\ w_fws w' = w_fws w;
  fe_succ : ok = true -> m_fw (w_obj w') = Some (length (w_fws w)) /\ exists o, w_fws w' = w_fws w ++ [o] /\
     fo_vs o = m_vs (w_obj w) /\ fo_all_thetas o = m_all_coef (w_obj w) /\ fo_all_ses o = m_all_se (w_obj w) }.

Definition okb {A} (x : result A) : bool := match x with Ok _ => true | Err _ => false end.
Lemma wf_with_coef w co se : wf C w -> b_shape co = [nt] -> b_shape se = [nt] ->
  wf C {| w_heap := w_heap w; w_fws := w_fws w; w_obj := with_coef co se (w_obj w) |}.
Proof. intros [] A B. constructor; assumption. Qed.

Lemma andthen_unf {A B} (m : act P A) (k : A -> act P B) w :
  andthen m k w = match m w with (w', Ok x) => k x w' | (w', Err e) => (w', Err e) end.
Proof. reflexivity. Qed.
Lemma construct_eq w : construct_framework C w =
  match mk_framework (Some (framework_dict C w)) with
  | Ok base => ({| w_heap := w_heap w;
      w_fws := w_fws w ++ [{| fo_base := base; fo_all_thetas := m_all_coef (w_obj w); fo_all_ses := m_all_se (w_obj w); fo_vs := m_vs (w_obj w) |}];
      w_obj := with_fw (Some (length (w_fws w))) (w_obj w) |}, Ok tt)
  | Err e => (w, Err e)
  end.
Proof. unfold construct_framework. rewrite andthen_unf. unfold lift. destruct (mk_framework _); reflexivity. Qed.
Lemma finish_end w : wf C w -> fit_end w (fst (finish_fit C w)) (okb (snd (finish_fit C w))).
Proof.
  intro W.
  set (agg := aggregate_coefs_and_ses (b_nd (hget (w_heap w) (m_all_coef (w_obj w)))) (b_nd (hget (w_heap w) (m_all_se (w_obj w)))) (b_nd (hget (w_heap w) (m_vs (w_obj w))))).
  set (w1 := {| w_heap := w_heap w; w_fws := w_fws w; w_obj := with_coef (nd_b (fst agg)) (nd_b (snd agg)) (w_obj w) |}).
  assert (W1 : wf C w1).
  { apply wf_with_coef; [exact W| |]; unfold agg, aggregate_coefs_and_ses; cbn [fst snd nd_b b_shape mk1 shape]; unfold dim, b_nd; cbn [shape]; rewrite (wf_sc _ _ W); reflexivity. }
  set (sn := match c_sens C with None => ret tt | Some _ => s <- lift (fun w => match m_sens (w_obj w) with Some s => Ok s | None => Err TypeError end) ;;
               assign (fun m => with_sens (Some (validate_sens C (m_n_rep m) s)) m) end : act P unit).
  assert (E : finish_fit C w = (sn ;;; construct_framework C) w1).
  { reflexivity. }
  rewrite E. assert (E1 : evolves w w1) by (constructor; auto; intros k o H; exists o; split; [exact H|apply fw_core_refl]).
  assert (S1 : same_split w w1) by (repeat split).
  assert (F2 : fitrel false w1 (fst (sn w1))).
  { unfold sn. destruct (c_sens C); [|apply fitrel_refl]. apply fr_lift. intros ? _. apply fr_sens. }
  rewrite andthen_unf. destruct (sn w1) as [w2 [u|e]] eqn:Es; cbn [fst] in F2; destruct F2 as [F2 W2].
  2:{ cbn [fst snd okb]. constructor; try discriminate.
      - intros _. auto.
      - eapply evolves_trans; [exact E1|]. eapply frame_evolves; eauto.
      - eapply same_split_trans; [exact S1|]. eapply frame_same_split; eauto.
      - rewrite (fr_len _ _ _ F2). reflexivity.
      - intros _. destruct F2. split; [rewrite fr_fw|rewrite fr_fws]; reflexivity. }
  specialize (W2 W1). pose proof (frame_same_split _ _ _ F2) as S2. pose proof (frame_evolves _ _ _ F2) as E2.
  rewrite construct_eq. destruct (mk_framework (Some (framework_dict C w2))) as [base|e] eqn:Eb.
  - cbn. set (o := {| fo_base := base; fo_all_thetas := m_all_coef (w_obj w2); fo_all_ses := m_all_se (w_obj w2); fo_vs := m_vs (w_obj w2) |}).
    destruct F2. constructor; try discriminate.
    + intros _. destruct W2. constructor; try assumption; cbn [w_obj w_fws w_heap m_fw with_fw with_results].
      * intros k Hk. injection Hk as <-. rewrite app_length. cbn. lia.
      * intros k o' Hk. destruct (lt_dec k (length (w_fws w2))) as [Hl|Hl].
        -- rewrite nth_error_app1 in Hk by exact Hl. eapply wf_fws; eauto.
        -- rewrite nth_error_app2 in Hk by lia. destruct (k - length (w_fws w2))%nat as [|k'] eqn:Ek; [|destruct k'; discriminate]. injection Hk as <-. cbn. auto.
    + eapply evolves_trans; [exact E1|]. eapply evolves_trans; [exact E2|]. constructor; cbn; auto. intros k o' Hk. exists o'. split; [|apply fw_core_refl].
      rewrite nth_error_app1; [exact Hk|]. apply nth_error_Some. congruence.
    + eapply same_split_trans; [exact S1|]. eapply same_split_trans; [exact S2|]. repeat split.
    + cbn. rewrite fr_len. reflexivity.
    + intros _. cbn. rewrite fr_fws. split; [reflexivity|]. exists o. split; [reflexivity|]. cbn. rewrite fr_mvs, fr_mac, fr_mas. auto.
  - cbn. destruct F2. constructor; try discriminate.
    + intros _. exact W2.
    + eapply evolves_trans; [exact E1|exact E2].
    + eapply same_split_trans; [exact S1|exact S2].
    + rewrite fr_len. reflexivity.
    + intros _. rewrite fr_fw, fr_fws. auto.
Qed.

Lemma fit_end_trans st w w1 w2 ok : frame st w w1 -> fit_end w1 w2 ok -> (wf C w -> wf C w2) -> fit_end w w2 ok.
Proof.
  intros F [] W. pose proof F as F0. destruct F. constructor.
  - exact W.
  - eapply evolves_trans; [eapply frame_evolves; eauto|assumption].
  - eapply same_split_trans; [eapply frame_same_split; eauto|assumption].
  - congruence.
  - intro E. destruct (fe_fail0 E). split; congruence.
  - intro E. destruct (fe_succ0 E) as (A & o & B & D & G & H). split; [congruence|]. exists o. split; [congruence|]. split; [congruence|]. split; congruence.
Qed.
Lemma frame_end st w w1 : fitrel st w w1 -> fit_end w w1 false.
Proof.
  intros [F W]. pose proof F as F0. destruct F. constructor; try discriminate.
  - exact W.
  - eapply frame_evolves; eauto.
  - eapply frame_same_split; eauto.
  - assumption.
  - auto.
Qed.

Lemma fit_ends nj store ext sm w : wf C w -> fit_end w (fst (fit C nj store ext sm w)) (okb (snd (fit C nj store ext sm w))).
Proof.
  intro W. set (st := match store with PBool b => b | _ => false end).
  remember (fit C nj store ext sm w) as p eqn:E. unfold fit in E. rewrite andthen_unf in E. unfold check_fit, lift at 1 in E.
  match type of E with context [require ?a ?b ?c] => destruct (require a b c) as [u|e] end; [|rewrite E; apply (frame_end st), fitrel_refl].
  fold st in E. rewrite andthen_unf in E. pose proof (fr_initialize st w) as R1. destruct (initialize_fit C st w) as [w1 [u1|e]]; cbn [fst] in R1; [|rewrite E; apply (frame_end st), R1].
  change (p = (for_ (seq 0 (m_n_rep (w_obj w1))) (fun r => for_ (seq 0 nt) (fun t => fit_step C st ext r t)) ;;; finish_fit C) w1) in E.
  assert (R2 : fitrel st w1 (fst (for_ (seq 0 (m_n_rep (w_obj w1))) (fun r => for_ (seq 0 nt) (fun t => fit_step C st ext r t)) w1))).
  { apply fr_for. intros r w2. apply fr_for. intros t w3. apply fr_step. }
  rewrite andthen_unf in E. destruct (for_ _ _ w1) as [w2 [u2|e]]; cbn [fst] in R2; [|rewrite E; apply (frame_end st); eapply fitrel_trans; eauto].
  assert (R : fitrel st w w2) by (eapply fitrel_trans; eauto). destruct R as [F W2]. rewrite E.
  eapply fit_end_trans; [exact F|apply finish_end; auto|]. intros _. apply finish_end; auto.
Qed.

(** ** Initialisation of the arrays *)
Lemma init_arrays_eq w (nr := m_n_rep (w_obj w)) (k := length (w_heap w)) :
  initialize_arrays C w = ({| w_heap := w_heap w ++ [nan_buf [nt]] ++ [nan_buf [nt; nr]] ++ [nan_buf [nt; nr]]; w_fws := w_fws w;
     w_obj := with_arrays (nan_buf [n; nr; nt]) (nan_buf [n; nr; nt]) (nan_buf [n; nr; nt]) (nan_buf [n; nr; nt]) k (k + 1)%nat (k + 2)%nat (nan_buf [nt]) (nan_buf [nt]) (w_obj w) |}, Ok tt).
Proof.
  unfold initialize_arrays. cbn. unfold k, nr. rewrite !app_length. cbn. rewrite <- !app_assoc. cbn.
  replace (length (w_heap w) + 1 + 1)%nat with (length (w_heap w) + 2)%nat by lia. reflexivity.
Qed.

(** What must hold before the arrays are initialised. *)
Record pre (w : world P) : Prop := {
  pr_rep : (0 < m_n_rep (w_obj w))%nat;
  pr_smpls : forall sm, m_smpls (w_obj w) = Some sm -> length sm = m_n_rep (w_obj w);
  pr_smpls_c : forall cv sm, c_cluster C = Some cv -> m_smpls (w_obj w) = Some sm ->
     exists sc, m_smpls_cluster (w_obj w) = Some sc /\ length sc = m_n_rep (w_obj w);
  pr_cv : forall cv, c_cluster C = Some cv -> (length cv <= 2)%nat;
  pr_fw : forall k, m_fw (w_obj w) = Some k -> (k < length (w_fws w))%nat;
  pr_fws : forall k o, nth_error (w_fws w) k = Some o ->
     (fo_vs o < length (w_heap w))%nat /\ (fo_all_thetas o < length (w_heap w))%nat /\ (fo_all_ses o < length (w_heap w))%nat }.

Definition init_both : act P unit := initialize_arrays C ;;; initialize_params.
Definition fresh (w : world P) : world P :=
  let nr := m_n_rep (w_obj w) in let k := length (w_heap w) in
  {| w_heap := w_heap w ++ [nan_buf [nt]] ++ [nan_buf [nt; nr]] ++ [nan_buf [nt; nr]]; w_fws := w_fws w;
     w_obj := with_params (fun _ _ => repeat None nr)
       (with_arrays (nan_buf [n; nr; nt]) (nan_buf [n; nr; nt]) (nan_buf [n; nr; nt]) (nan_buf [n; nr; nt]) k (k + 1)%nat (k + 2)%nat (nan_buf [nt]) (nan_buf [nt]) (w_obj w)) |}.
Lemma init_both_eq w : init_both w = (fresh w, Ok tt).
Proof. unfold init_both. rewrite (andthen_eq _ _ _ _ _ (init_arrays_eq w)). reflexivity. Qed.
Lemma hget_fresh w l : (l < length (w_heap w))%nat -> hget (w_heap (fresh w)) l = hget (w_heap w) l.
Proof. apply hget_app. Qed.
Lemma hget_fresh0 w : hget (w_heap (fresh w)) (length (w_heap w)) = nan_buf [nt].
Proof. unfold hget, fresh. cbn [w_heap]. rewrite app_nth2 by lia. rewrite Nat.sub_diag. reflexivity. Qed.
Lemma hget_fresh1 w : hget (w_heap (fresh w)) (length (w_heap w) + 1)%nat = nan_buf [nt; m_n_rep (w_obj w)].
Proof. unfold hget, fresh. cbn [w_heap]. rewrite app_nth2 by lia. replace (length (w_heap w) + 1 - length (w_heap w))%nat with 1%nat by lia. reflexivity. Qed.
Lemma hget_fresh2 w : hget (w_heap (fresh w)) (length (w_heap w) + 2)%nat = nan_buf [nt; m_n_rep (w_obj w)].
Proof. unfold hget, fresh. cbn [w_heap]. rewrite app_nth2 by lia. replace (length (w_heap w) + 2 - length (w_heap w))%nat with 2%nat by lia. reflexivity. Qed.
Lemma wf_fresh w : pre w -> wf C (fresh w).
Proof.
  intros []. constructor; try assumption;
    cbn [w_obj m_n_rep m_vs m_all_coef m_all_se with_params with_arrays fresh m_psi m_psi_deriv m_psi_a m_psi_b m_coef m_se m_params m_smpls m_smpls_cluster m_fw w_fws];
    try assumption; try reflexivity.
  - cbn [w_heap fresh]. rewrite app_length. cbn [length app]. lia.
  - cbn [w_heap fresh]. rewrite app_length. cbn [length app]. lia.
  - cbn [w_heap fresh]. rewrite app_length. cbn [length app]. lia.
  - lia.
  - lia.
  - lia.
  - rewrite hget_fresh0. reflexivity.
  - rewrite hget_fresh1. reflexivity.
  - rewrite hget_fresh2. reflexivity.
  - intros. apply repeat_length.
  - intros k o H. destruct (pr_fws0 k o H) as (A & B & D). cbn [w_heap fresh]. rewrite app_length. lia.
Qed.
Lemma fresh_evolves w : evolves w (fresh w).
Proof.
  constructor.
  - cbn [w_heap fresh]. rewrite app_length. lia.
  - intros. apply hget_fresh. assumption.
  - right. cbn [w_obj m_vs m_all_coef m_all_se with_params with_arrays fresh]. lia.
  - intros k o H. exists o. split; [exact H|apply fw_core_refl].
Qed.

(** ** Drawing and setting splits *)
Lemma map_res_len {A B} (g : A -> result B) l r : map_res g l = Ok r -> length r = length l.
Proof. intro H. apply map_res_iff in H. apply Forall2_len in H. congruence. Qed.
Lemma resampling_len k nr m st g sm : resampling k nr m st g = Ok sm -> length sm = nr.
Proof.
  unfold resampling. intro H. apply require_ok in H. destruct H as [_ H]. match type of H with bind ?x _ = _ => destruct x; [|discriminate] end.
  cbn [bind] in H. assert (E : forall A (a b : A), Ok a = Ok b -> a = b) by (intros; congruence). apply E in H. rewrite <- H. rewrite map_length. apply seq_length.
Qed.
Lemma cluster_resampling_len k nr m cv p sm sc : cluster_resampling k nr m cv p = Ok (sm, sc) -> length sm = nr /\ length sc = nr.
Proof.
  unfold cluster_resampling. intro H. match type of H with bind ?x _ = _ => destruct x as [reps|] eqn:E; [|discriminate] end.
  cbn [bind] in H. injection H as <- <-. apply map_res_len in E. rewrite seq_length in E. rewrite !map_length. auto.
Qed.
Lemma cluster_check_len m cv asc nr k r : check_cluster_splitting m cv asc nr k = Ok r -> length r = nr.
Proof.
  unfold check_cluster_splitting. destruct asc as [asc|]; [|discriminate]. intro H. apply require_ok in H. destruct H as [E H].
  match type of H with bind ?x _ = _ => destruct x; [|discriminate] end. cbn in H. injection H as <-. now apply Nat.eqb_eq.
Qed.

Lemma draw_inv g perm w : (exists sm sc, draw_sample_splitting C g perm w =
    ({| w_heap := w_heap w; w_fws := w_fws w; w_obj := with_split (m_n_rep (w_obj w)) (m_n_folds (w_obj w)) (Some sm) sc (w_obj w) |}, Ok tt) /\
    length sm = m_n_rep (w_obj w) /\
    match c_cluster C with Some cv => exists sc', sc = Some sc' /\ length sc' = m_n_rep (w_obj w) | None => sc = m_smpls_cluster (w_obj w) end) \/
  exists e, draw_sample_splitting C g perm w = (w, Err e).
Proof.
  unfold draw_sample_splitting. rewrite (andthen_eq _ _ _ w w) by reflexivity. cbv zeta. destruct (c_cluster C) as [cv|].
  - unfold andthen, lift. destruct (cluster_resampling _ _ _ _ _) as [[sm sc]|e] eqn:E; [|right; eauto]. apply cluster_resampling_len in E. destruct E as [E1 E2].
    left. exists sm, (Some sc). split; [reflexivity|]. split; [exact E1|]. eauto.
  - unfold andthen, lift. destruct (resampling _ _ _ _ _) as [sm|e] eqn:E; [|right; eauto]. apply resampling_len in E.
    left. exists sm, (m_smpls_cluster (w_obj w)). split; [reflexivity|]. auto.
Qed.
Definition set_result (sm : list (list fold)) (sc : option (list (list cfold))) (nr nf : nat) (w : world P) : world P :=
  fresh {| w_heap := w_heap w; w_fws := w_fws w; w_obj := with_split nr nf (Some sm) sc (w_obj w) |}.
Lemma set_inv s asc w : (exists ck sc, check_sample_splitting n s = Ok ck /\
    (match c_cluster C with None => sc = None | Some cv => exists sc', sc = Some sc' /\ check_cluster_splitting n cv asc (ck_n_rep ck) (ck_n_folds ck) = Ok sc' end) /\
    set_sample_splitting C s asc w = (set_result (map (map nf) (ck_smpls ck)) sc (ck_n_rep ck) (ck_n_folds ck) w, Ok tt)) \/
  exists e, set_sample_splitting C s asc w = (w, Err e).
Proof.
  unfold set_sample_splitting. rewrite andthen_unf. unfold lift at 1. destruct (check_sample_splitting n s) as [ck|e]; [|right; cbn; eauto]. cbn [bind].
  destruct (c_cluster C) as [cv|].
  - destruct (check_cluster_splitting n cv asc (ck_n_rep ck) (ck_n_folds ck)) as [sc|e] eqn:E; [|right; cbn; eauto]. cbn [bind]. left. exists ck, (Some sc).
    split; [reflexivity|]. split; [eauto|]. cbn [fst snd]. rewrite (andthen_eq _ _ w {| w_heap := w_heap w; w_fws := w_fws w; w_obj := with_split (ck_n_rep ck) (ck_n_folds ck) (Some (map (map nf) (ck_smpls ck))) (Some sc) (w_obj w) |} tt) by reflexivity.
    apply init_both_eq.
  - cbn [bind]. left. exists ck, None. split; [reflexivity|]. split; [reflexivity|]. cbn [fst snd].
    rewrite (andthen_eq _ _ w {| w_heap := w_heap w; w_fws := w_fws w; w_obj := with_split (ck_n_rep ck) (ck_n_folds ck) (Some (map (map nf) (ck_smpls ck))) None (w_obj w) |} tt) by reflexivity.
    apply init_both_eq.
Qed.
Lemma checked_reps s ck : check_sample_splitting n s = Ok ck -> (0 < ck_n_rep ck)%nat /\ length (ck_smpls ck) = ck_n_rep ck.
Proof.
  intro H. apply accept_sound in H. destruct H as (reps & [Hw _] & A & B & _). apply Forall2_len in A. split; [|congruence].
  rewrite B. inversion Hw; subst; cbn; try lia. destruct reps; [congruence|cbn; lia].
Qed.
Lemma set_pre ck sc w s : wf C w -> check_sample_splitting n s = Ok ck ->
  (match c_cluster C with None => sc = None | Some cv => exists sc' asc, sc = Some sc' /\ check_cluster_splitting n cv asc (ck_n_rep ck) (ck_n_folds ck) = Ok sc' end) ->
  pre {| w_heap := w_heap w; w_fws := w_fws w; w_obj := with_split (ck_n_rep ck) (ck_n_folds ck) (Some (map (map nf) (ck_smpls ck))) sc (w_obj w) |}.
Proof.
  intros [] Hc Hs. apply checked_reps in Hc. destruct Hc as [H1 H2]. constructor; cbn [w_obj w_heap w_fws with_split m_n_rep m_smpls m_smpls_cluster m_fw]; auto.
  - intros sm E. injection E as <-. now rewrite map_length.
  - intros cv sm Ec E. rewrite Ec in Hs. destruct Hs as (sc' & asc & -> & Hs). apply cluster_check_len in Hs. eauto.
Qed.

Lemma method_ev {A} (mt : meth A) w :
  (forall f, let g := fst (mt f) in fw_n_obs g = fw_n_obs f /\ fw_n_thetas g = fw_n_thetas f /\ fw_n_rep g = fw_n_rep f /\ fw_thetas g = fw_thetas f /\
     fw_ses g = fw_ses f /\ fw_scaled_psi g = fw_scaled_psi f /\ fw_cluster g = fw_cluster f /\ fw_sens g = fw_sens f /\ fw_names g = fw_names f) ->
  wf C w -> wf C (fst (fw_method mt w)) /\ evolves w (fst (fw_method mt w)) /\ w_obj (fst (fw_method mt w)) = w_obj w /\ w_heap (fst (fw_method mt w)) = w_heap w.
Proof.
  intros Hm W. unfold fw_method, with_framework. rewrite (andthen_eq _ _ _ w w) by reflexivity. destruct (m_fw (w_obj w)) as [i|] eqn:Ei; [|cbn; auto using evolves_refl].
  destruct (nth_error (w_fws w) i) as [o|] eqn:Eo; [|cbn; auto using evolves_refl].
  specialize (Hm (fw_view (w_heap w) o)). destruct (mt (fw_view (w_heap w) o)) as [f' res]. cbn [fst] in *. cbv zeta in Hm.
  assert (Hi : (i < length (w_fws w))%nat) by (apply nth_error_Some; congruence).
  set (o1 := {| fo_base := f'; fo_all_thetas := fo_all_thetas o; fo_all_ses := fo_all_ses o; fo_vs := fo_vs o |}).
  split; [|split; [|split; reflexivity]].
  - destruct W. constructor; try assumption; cbn [w_obj w_heap w_fws].
    + intros k Hk. rewrite set_nth_length. auto.
    + intros k o' Hk. destruct (Nat.eq_dec k i) as [->|Nk].
      * rewrite set_nth_error_same in Hk by exact Hi. injection Hk as <-. cbn. eapply wf_fws; eauto.
      * rewrite set_nth_error_other in Hk by exact Nk. eapply wf_fws; eauto.
  - constructor; cbn; auto. intros k o' Hk. destruct (Nat.eq_dec k i) as [->|Nk].
    + exists o1. rewrite set_nth_error_same by exact Hi. split; [reflexivity|]. assert (o' = o) as -> by congruence. unfold fw_core, o1. cbn. repeat split; apply Hm.
    + exists o'. rewrite set_nth_error_other by exact Nk. split; [exact Hk|apply fw_core_refl].
Qed.
End Obj.

(** What a fit computes. *)
From Verif Require Export L_ModelReach L_FwAlg.
From Verif Require Import L_VarEst.
From Coq Require Import FunctionalExtensionality.
Local Open Scope R_scope.

Section Obj.
Context {P : Type}.
Variable C : ctx P.
Notation n := (c_n C).
Notation nt := (length (c_dcols C)).

(** ** Validation of the sensitivity elements *)
Definition bad_nu2 (nr : nat) (s : sens_bufs) (t : nat) : bool :=
  existsb (fun r => match b_at (sb_nu2 s) [0%nat; r; t] with Some x => rleb x 0 | None => false end) (seq 0 nr).
Lemma validate_treat_eq nr t s :
  sb_sigma2 (validate_treat C nr t s) = sb_sigma2 s /\ sb_psi_sigma2 (validate_treat C nr t s) = sb_psi_sigma2 s /\ sb_rr (validate_treat C nr t s) = sb_rr s /\
  b_shape (sb_nu2 (validate_treat C nr t s)) = b_shape (sb_nu2 s) /\ b_shape (sb_psi_nu2 (validate_treat C nr t s)) = b_shape (sb_psi_nu2 s) /\
  (forall r t', b_at (sb_nu2 (validate_treat C nr t s)) [0%nat; r; t'] =
     if Nat.eqb t' t && bad_nu2 nr s t then Some (meanf n (fun k => (col_of (sb_rr s) r t k) ^ 2)) else b_at (sb_nu2 s) [0%nat; r; t']) /\
  (forall k r t', b_at (sb_psi_nu2 (validate_treat C nr t s)) [k; r; t'] =
     if Nat.eqb t' t && bad_nu2 nr s t then Some ((col_of (sb_rr s) r t k) ^ 2) else b_at (sb_psi_nu2 s) [k; r; t']).
Proof.
  unfold validate_treat. change (existsb _ (seq 0 nr)) with (bad_nu2 nr s t). destruct (bad_nu2 nr s t); cbn [sb_sigma2 sb_psi_sigma2 sb_rr sb_nu2 sb_psi_nu2 b_shape b_at].
  - do 5 (split; [reflexivity|]). split; intros; destruct (Nat.eqb t' t); reflexivity.
  - do 5 (split; [reflexivity|]). split; intros; destruct (Nat.eqb t' t); reflexivity.
Qed.
Lemma validate_fold nr ts : NoDup ts -> forall s, let s' := fold_left (fun s t => validate_treat C nr t s) ts s in
  sb_sigma2 s' = sb_sigma2 s /\ sb_psi_sigma2 s' = sb_psi_sigma2 s /\ sb_rr s' = sb_rr s /\
  b_shape (sb_nu2 s') = b_shape (sb_nu2 s) /\ b_shape (sb_psi_nu2 s') = b_shape (sb_psi_nu2 s) /\
  (forall r t, b_at (sb_nu2 s') [0%nat; r; t] =
     if existsb (Nat.eqb t) ts && bad_nu2 nr s t then Some (meanf n (fun k => (col_of (sb_rr s) r t k) ^ 2)) else b_at (sb_nu2 s) [0%nat; r; t]) /\
  (forall k r t, b_at (sb_psi_nu2 s') [k; r; t] =
     if existsb (Nat.eqb t) ts && bad_nu2 nr s t then Some ((col_of (sb_rr s) r t k) ^ 2) else b_at (sb_psi_nu2 s) [k; r; t]).
Proof.
  induction ts as [|a ts IH]; intros Nd s; cbv zeta.
  - cbn. repeat split.
  - inversion Nd as [|? ? Na Nd']; subst. specialize (IH Nd' (validate_treat C nr a s)). cbv zeta in IH. cbn [fold_left].
    destruct (validate_treat_eq nr a s) as (V1 & V2 & V3 & V4 & V5 & V6 & V7). destruct IH as (I1 & I2 & I3 & I4 & I5 & I6 & I7).
    assert (Bd : forall t, t <> a -> bad_nu2 nr (validate_treat C nr a s) t = bad_nu2 nr s t).
    { intros t Ht. unfold bad_nu2. induction (seq 0 nr) as [|r l IHl]; [reflexivity|]. cbn [existsb]. rewrite IHl, V6. destruct (Nat.eqb_spec t a); [contradiction|]. reflexivity. }
    assert (Nt : forall t, existsb (Nat.eqb t) ts = true -> t <> a).
    { intros t Ht ->. apply existsb_exists in Ht. destruct Ht as (x & Hx & E). apply Nat.eqb_eq in E. congruence. }
    split; [congruence|]. split; [congruence|]. split; [congruence|]. split; [congruence|]. split; [congruence|]. split.
    + intros r t. rewrite I6. cbn [existsb]. rewrite V3. destruct (existsb (Nat.eqb t) ts) eqn:Et.
      * rewrite orb_true_r. rewrite Bd by (apply Nt; assumption). rewrite V6. destruct (Nat.eqb_spec t a) as [->|]; [exfalso; eapply Nt; eauto|]. reflexivity.
      * rewrite orb_false_r. cbn [andb]. rewrite V6. destruct (Nat.eqb_spec t a) as [->|]; reflexivity.
    + intros k r t. rewrite I7. cbn [existsb]. rewrite V3. destruct (existsb (Nat.eqb t) ts) eqn:Et.
      * rewrite orb_true_r. rewrite Bd by (apply Nt; assumption). rewrite V7. destruct (Nat.eqb_spec t a) as [->|]; [exfalso; eapply Nt; eauto|]. reflexivity.
      * rewrite orb_false_r. cbn [andb]. rewrite V7. destruct (Nat.eqb_spec t a) as [->|]; reflexivity.
Qed.
Lemma seq_mem t : (t < nt)%nat -> existsb (Nat.eqb t) (seq 0 nt) = true.
Proof. intro H. apply existsb_exists. exists t. split; [apply in_seq; lia|apply Nat.eqb_refl]. Qed.
Lemma validate_spec nr s : let s' := validate_sens C nr s in
  sb_sigma2 s' = sb_sigma2 s /\ sb_psi_sigma2 s' = sb_psi_sigma2 s /\ sb_rr s' = sb_rr s /\
  b_shape (sb_nu2 s') = b_shape (sb_nu2 s) /\ b_shape (sb_psi_nu2 s') = b_shape (sb_psi_nu2 s) /\
  (forall r t, (t < nt)%nat -> b_at (sb_nu2 s') [0%nat; r; t] =
     if bad_nu2 nr s t then Some (meanf n (fun k => (col_of (sb_rr s) r t k) ^ 2)) else b_at (sb_nu2 s) [0%nat; r; t]) /\
  (forall k r t, (t < nt)%nat -> b_at (sb_psi_nu2 s') [k; r; t] =
     if bad_nu2 nr s t then Some ((col_of (sb_rr s) r t k) ^ 2) else b_at (sb_psi_nu2 s) [k; r; t]).
Proof.
  cbv zeta. destruct (validate_fold nr (seq 0 nt) (seq_NoDup _ _) s) as (A & B & D & E & F & G & H).
  do 5 (split; [assumption|]). split; intros.
  - unfold validate_sens. rewrite G. now rewrite seq_mem.
  - unfold validate_sens. rewrite H. now rewrite seq_mem.
Qed.

(** ** Initialisation *)
Lemma initialize_ok st w : wf C w -> exists w1, initialize_fit C st w = (w1, Ok tt) /\ wf C w1 /\ fit_shapes C st w1 /\ frame st w w1.
Proof.
  intro W. destruct (fr_initialize C st w) as [F Wi]. destruct (initialize_fit C st w) as [w1 x] eqn:E. cbn [fst] in *. specialize (Wi W).
  exists w1. assert (X : x = Ok tt /\ fit_shapes C st w1).
  { unfold initialize_fit in E. destruct st; destruct (c_sens C) eqn:Es; unfold andthen, assign, ret in E; apply pair_equal_spec in E; destruct E as [E1 E2]; (split; [congruence|]); rewrite <- E1;
      constructor; cbn [w_obj with_sens with_loss with_predictions with_results m_loss m_preds m_targets m_sens m_n_rep]; try discriminate; try (eexists; split; [reflexivity|reflexivity]);
      try (intros _; eexists; split; [reflexivity|reflexivity]); rewrite ?Es; try discriminate; intros; eexists; (split; [reflexivity|]); cbn; auto. }
  destruct X as [-> X]. auto.
Qed.

(** ** The loop *)
Definition calls_ok (m : dml P) (ext : ext_arg) : Prop := forall r t, (r < m_n_rep m)%nat -> (t < nt)%nat -> exists x, step_fun C m ext r t = Ok x.
Lemma step_fun_frame st w w1 ext r t : frame st w w1 -> step_fun C (w_obj w1) ext r t = step_fun C (w_obj w) ext r t.
Proof. intros []. apply step_fun_cfg; try assumption. intros. now rewrite fr_params. Qed.
Lemma linv_base st ext w w0 w1 D : frame st w w0 -> linv C st ext w0 D w1 -> linv C st ext w D w1.
Proof.
  intros F [L1 L2 L3 L4]. constructor; auto.
  - eapply frame_trans; eauto.
  - intros r t Hd Hr Ht. rewrite <- (fr_n_rep _ _ _ F) in Hr. destruct (L4 r t Hd Hr Ht) as (no & cl & s2 & v & A & B). rewrite (step_fun_frame st w w0) in A by exact F. eauto 8.
Qed.
Definition whole (_ _ : nat) : Prop := True.
Lemma loop_inv st ext w w1 w2 : wf C w1 -> fit_shapes C st w1 -> frame st w w1 ->
  for_ (seq 0 (m_n_rep (w_obj w1))) (fun r => for_ (seq 0 nt) (fun t => fit_step C st ext r t)) w1 = (w2, Ok tt) ->
  linv C st ext w whole w2 /\ calls_ok (w_obj w) ext.
Proof.
  intros W F Fr H. assert (L0 : linv C st ext w1 (fun _ _ => False) w1) by (constructor; auto using frame_refl; tauto).
  destruct (outer_inv C st ext w1 _ 0 _ w1 w2 (Nat.le_refl _) L0 H) as [L X]. split.
  - eapply linv_base; [exact Fr|]. eapply linv_weak; [exact L|]. intros r t _ Hr Ht. right. lia.
  - intros r t Hr Ht. rewrite <- (step_fun_frame st w w1) by exact Fr. apply X; [rewrite (fr_n_rep _ _ _ Fr); lia|exact Ht].
Qed.
Lemma loop_progress st ext w w1 : wf C w1 -> fit_shapes C st w1 -> frame st w w1 -> calls_ok (w_obj w) ext ->
  exists w2, for_ (seq 0 (m_n_rep (w_obj w1))) (fun r => for_ (seq 0 nt) (fun t => fit_step C st ext r t)) w1 = (w2, Ok tt).
Proof.
  intros W F Fr H. assert (L0 : linv C st ext w1 (fun _ _ => False) w1) by (constructor; auto using frame_refl; tauto).
  eapply outer_progress; [apply Nat.le_refl|exact L0|]. intros r t Hr Ht. rewrite (step_fun_frame st w w1) by exact Fr. apply H; [rewrite <- (fr_n_rep _ _ _ Fr); exact Hr|exact Ht].
Qed.

(** ** Aggregation, validation, framework *)
Definition fin_agg (w : world P) : nd * nd := aggregate_coefs_and_ses (b_nd (hget (w_heap w) (m_all_coef (w_obj w)))) (b_nd (hget (w_heap w) (m_all_se (w_obj w)))) (b_nd (hget (w_heap w) (m_vs (w_obj w)))).
Definition fin_sens (w : world P) : option sens_bufs :=
  match c_sens C with None => m_sens (w_obj w) | Some _ => option_map (validate_sens C (m_n_rep (w_obj w))) (m_sens (w_obj w)) end.
Definition fin_world (w : world P) : world P :=
  {| w_heap := w_heap w; w_fws := w_fws w; w_obj := with_sens (fin_sens w) (with_coef (nd_b (fst (fin_agg w))) (nd_b (snd (fin_agg w))) (w_obj w)) |}.
Lemma with_sens_id (m : dml P) : with_sens (m_sens m) m = m.
Proof. destruct m. reflexivity. Qed.
Lemma finish_eq w : (forall est, c_sens C = Some est -> exists s, m_sens (w_obj w) = Some s) -> finish_fit C w = construct_framework C (fin_world w).
Proof.
  intro H. unfold finish_fit, fin_world, fin_sens. fold (fin_agg w). destruct (c_sens C) as [est|] eqn:E.
  - destruct (H est eq_refl) as [s Es]. rewrite Es. cbn [option_map]. unfold andthen, lift, assign, ret. cbn [w_obj with_coef with_arrays m_sens]. fold (fin_agg w). rewrite Es. reflexivity.
  - unfold andthen, lift, assign, ret. cbn [w_obj with_coef with_arrays m_sens]. fold (fin_agg w).
    change (m_sens (w_obj w)) with (m_sens (with_coef (nd_b (fst (fin_agg w))) (nd_b (snd (fin_agg w))) (w_obj w))). rewrite with_sens_id. reflexivity.
Qed.

Definition sens_cond (m : dml P) (ext : ext_arg) : Prop := forall est, c_sens C = Some est -> forall r t no cl s2 v, (r < m_n_rep m)%nat -> (t < nt)%nat ->
  step_fun C m ext r t = Ok (no, cl, s2, v) -> 0 <= so_sigma2 (est r t no (coef_val C no cl)).
Definition fin_fw (w : world P) (cl : option cluster_dict) (se : option sens_elems) : framework :=
  {| fw_n_obs := n; fw_n_thetas := nt; fw_n_rep := m_n_rep (w_obj w);
     fw_thetas := b_nd (nd_b (fst (fin_agg w))); fw_ses := b_nd (nd_b (snd (fin_agg w)));
     fw_all_thetas := b_nd (hget (w_heap w) (m_all_coef (w_obj w))); fw_all_ses := b_nd (hget (w_heap w) (m_all_se (w_obj w)));
     fw_vs := b_nd (hget (w_heap w) (m_vs (w_obj w)));
     fw_scaled_psi := mk3 n nt (m_n_rep (w_obj w)) (fun i t r => col_of (m_psi (w_obj w)) r t i / meanf n (col_of (m_psi_deriv (w_obj w)) r t));
     fw_cluster := cl; fw_sens := se; fw_names := Some (c_dcols C); fw_boot := None; fw_sens_params := None |}.
Definition fin_cluster (w : world P) : option cluster_dict :=
  match c_cluster C, m_smpls (w_obj w), m_smpls_cluster (w_obj w) with
  | Some cv, Some sm, Some sc => Some {| cd_smpls := sm; cd_smpls_cluster := sc; cd_vars := cv; cd_n_folds_per_cluster := m_nfpc (w_obj w) |}
  | _, _, _ => None
  end.
Definition sens_elems_of (nr : nat) (s : sens_bufs) : sens_elems :=
  let g := fun (b : buf) i t r => oget (b_at b [i; r; t]) in
  let mb := fun t r => sqrt (g (sb_sigma2 s) 0%nat t r * g (sb_nu2 s) 0%nat t r) in
  {| se_max_bias := mk3 1 nt nr (fun _ => mb);
     se_psi_max_bias := mk3 n nt nr (fun i t r => (g (sb_sigma2 s) 0%nat t r * g (sb_psi_nu2 s) i t r + g (sb_nu2 s) 0%nat t r * g (sb_psi_sigma2 s) i t r) / (2 * mb t r));
     se_bench := Some (mk3 1 nt nr (fun _ => g (sb_sigma2 s) 0%nat), mk3 1 nt nr (fun _ => g (sb_nu2 s) 0%nat)) |}.
Definition fin_se (w : world P) : option sens_elems :=
  match c_sens C with None => None | Some _ => option_map (sens_elems_of (m_n_rep (w_obj w))) (fin_sens w) end.

Lemma all_some_map {A} (l : list A) : all_some (map Some l) = Some l.
Proof. induction l as [|x l IH]; [reflexivity|]. cbn. now rewrite IH. Qed.
Lemma idx3 a b c idx : in_shape idx [a; b; c] <-> exists i j k, idx = [i; j; k] /\ (i < a)%nat /\ (j < b)%nat /\ (k < c)%nat.
Proof.
  destruct idx as [|i [|j [|k [|]]]]; cbn [in_shape]; split; try tauto; try (intros (? & ? & ? & E & _); discriminate).
  - intros (A & B & D & _). eauto 8.
  - intros (? & ? & ? & E & A & B & D). injection E as -> -> ->. auto.
Qed.

(** Which entries of the sensitivity arrays are non-negative. *)
Definition sens_nonneg (nr : nat) (s : sens_bufs) : Prop := forall r t, (r < nr)%nat -> (t < nt)%nat ->
  0 <= oget (b_at (sb_sigma2 s) [0%nat; r; t]) /\ 0 <= oget (b_at (sb_nu2 s) [0%nat; r; t]).
Lemma check_sens_iff nr s e : (exists d, k_sens d = Val (sens_dict C nr s) /\ check_sens d = Ok (Some e)) <-> sens_nonneg nr s /\ e = sens_elems_of nr s.
Proof.
  assert (N : forall X, any_neg (mk3 1 nt nr (fun _ t r => oget (b_at X [0%nat; r; t]))) = false <-> forall r t, (r < nr)%nat -> (t < nt)%nat -> 0 <= oget (b_at X [0%nat; r; t])).
  { intro X. rewrite any_neg_false. cbn [shape mk3]. split.
    - intros H r t Hr Ht. specialize (H [0%nat; t; r]). cbn in H. apply H. repeat split; lia.
    - intros H idx Hi. apply idx3 in Hi. destruct Hi as (i & t & r & -> & Hi & Ht & Hr). cbn. auto. }
  split.
  - intros (d & Ed & H). unfold check_sens in H. rewrite Ed in H. unfold sens_dict in H. cbn [si_max_bias si_psi_max_bias present andb require need_array bind] in H.
    unfold check_benchmark in H. cbn [si_sigma2 si_nu2 present andb need_array bind] in H.
    match type of H with bind (require ?b _ _) _ = _ => destruct b eqn:E; [|discriminate] end. cbn in H. injection H as <-. split; [|reflexivity].
    apply negb_true_iff in E. apply orb_false_iff in E. destruct E as [E1 E2].
    pose proof (proj1 (N _) E1) as M1. pose proof (proj1 (N _) E2) as M2. intros r t Hr Ht. split; auto.
  - intros [H ->]. exists {| k_thetas := Absent; k_ses := Absent; k_all_thetas := Absent; k_all_ses := Absent; k_vs := Absent; k_scaled_psi := Absent; k_is_cluster := Absent; k_cluster := Absent; k_sens := Val (sens_dict C nr s); k_names := Absent |}.
    split; [reflexivity|]. unfold check_sens. cbn [k_sens]. unfold sens_dict. cbn [si_max_bias si_psi_max_bias present andb require need_array bind].
    unfold check_benchmark. cbn [si_sigma2 si_nu2 present andb need_array bind].
    assert (E1 := proj2 (N (sb_sigma2 s)) (fun r t Hr Ht => proj1 (H r t Hr Ht))). assert (E2 := proj2 (N (sb_nu2 s)) (fun r t Hr Ht => proj2 (H r t Hr Ht))).
    change (fun (_ : nat) => fun t r => oget (b_at (sb_sigma2 s) [0%nat; r; t])) with (fun (_ t r : nat) => oget (b_at (sb_sigma2 s) [0%nat; r; t])).
    rewrite E1, E2. reflexivity.
Qed.
Lemma check_sens_cong d d' : k_sens d = k_sens d' -> check_sens d = check_sens d'.
Proof. unfold check_sens. now intros ->. Qed.

Lemma wf_fin_agg w : wf C w -> shape (fst (fin_agg w)) = [nt] /\ shape (snd (fin_agg w)) = [nt] /\
  (forall t, at_ (fst (fin_agg w)) [t] = medianf (m_n_rep (w_obj w)) (fun r => oget (b_at (hget (w_heap w) (m_all_coef (w_obj w))) [t; r]))) /\
  (forall t, at_ (snd (fin_agg w)) [t] = sqrt (medianf (m_n_rep (w_obj w)) (fun r => (oget (b_at (hget (w_heap w) (m_all_se (w_obj w))) [t; r]))^2
     + (oget (b_at (hget (w_heap w) (m_all_coef (w_obj w))) [t; r]) - at_ (fst (fin_agg w)) [t])^2 / oget (b_at (hget (w_heap w) (m_vs (w_obj w))) [t])))).
Proof.
  intro W. unfold fin_agg. destruct (agg_spec (b_nd (hget (w_heap w) (m_all_coef (w_obj w)))) (b_nd (hget (w_heap w) (m_all_se (w_obj w)))) (b_nd (hget (w_heap w) (m_vs (w_obj w)))) nt (m_n_rep (w_obj w))) as (A & B & D & E).
  - exact (wf_sc _ _ W).
  - exact (wf_sv _ _ W).
  - split; [exact A|]. split; [exact B|]. split; [exact D|]. intro t. rewrite E. f_equal. f_equal. apply functional_extensionality. intro r. now rewrite D.
Qed.

Lemma fin_mk st ext w w2 : (0 < nt)%nat -> linv C st ext w whole w2 -> sens_cond (w_obj w) ext ->
  mk_framework (Some (framework_dict C (fin_world w2))) = Ok (fin_fw w2 (fin_cluster w2) (fin_se w2)).
Proof.
  intros Hnt [W F Fr L] Hs. destruct (wf_fin_agg w2 W) as (A1 & A2 & _). pose proof (wf_rep _ _ W) as Hr.
  assert (Hr0 : (0 < m_n_rep (w_obj w))%nat) by (rewrite <- (fr_n_rep _ _ _ Fr); exact Hr).
  unfold fin_fw. eapply mk_fw_ok with (n := n) (nt := nt) (nr := m_n_rep (w_obj w2)); unfold framework_dict, fin_world;
    cbn [k_thetas k_ses k_all_thetas k_all_ses k_vs k_scaled_psi k_names w_obj w_heap with_sens with_results with_coef with_arrays m_coef m_se m_all_coef m_all_se m_vs m_n_rep m_psi m_psi_deriv]; try reflexivity.
  - exact A1.
  - exact A2.
  - exact (wf_sc _ _ W).
  - exact (wf_ss _ _ W).
  - exact (wf_sv _ _ W).
  - unfold check_cluster, fin_cluster. cbn [k_is_cluster k_cluster ci_smpls ci_smpls_cluster ci_vars ci_n_folds_per_cluster m_smpls m_smpls_cluster m_nfpc with_sens with_results with_coef with_arrays w_obj]. destruct (c_cluster C) as [cv|] eqn:Ec; [|reflexivity].
    destruct (L 0%nat 0%nat I Hr0 Hnt) as (no & cl & s2 & v & E & _). apply step_fun_iff in E. destruct E as (E1 & E2 & _). unfold cluster_args_of in E2. rewrite Ec in E2.
    rewrite <- (fr_smpls _ _ _ Fr), <- (fr_smpls_c _ _ _ Fr) in E2. unfold smpls_rep in E2. destruct (m_smpls (w_obj w2)) as [l|]; [|discriminate]. destruct (nth_error l 0); [|discriminate]. cbn [bind] in E2.
    destruct (m_smpls_cluster (w_obj w2)); [|discriminate]. cbn. reflexivity.
  - unfold fin_se. destruct (c_sens C) as [est|] eqn:Es; [|unfold check_sens; cbn [k_sens]; reflexivity].
    destruct (fs_sens _ _ _ F est Es) as (s & Em & Sh). unfold fin_sens. rewrite Es, Em. cbn [option_map].
    assert (SN : sens_nonneg (m_n_rep (w_obj w2)) (validate_sens C (m_n_rep (w_obj w2)) s)).
    { intros r t Hr' Ht. destruct (validate_spec (m_n_rep (w_obj w2)) s) as (V1 & V2 & V3 & V4 & V5 & V6 & V7). rewrite V1. rewrite (V6 r t Ht).
      assert (Hr1 : (r < m_n_rep (w_obj w))%nat) by (rewrite <- (fr_n_rep _ _ _ Fr); exact Hr').
      destruct (L r t I Hr1 Ht) as (no & cl & s2 & v & E & K). destruct (cw_sens _ _ _ _ _ _ _ _ _ K est s Es Em) as (K1 & K2 & _). rewrite K1. cbn [oget]. split; [eapply Hs; eauto|].
      destruct (bad_nu2 _ s t) eqn:Eb; cbn [oget].
      - unfold meanf. apply div_nonneg; [apply sumf_nonneg; intros; apply pow2_ge_0|apply pos_INR].
      - rewrite K2. cbn [oget]. unfold bad_nu2 in Eb. destruct (Rle_dec (so_nu2 (est r t no (coef_val C no cl))) 0) as [Hle|Hgt]; [|lra].
        exfalso. assert (X : existsb (fun r0 => match b_at (sb_nu2 s) [0%nat; r0; t] with Some x => rleb x 0 | None => false end) (seq 0 (m_n_rep (w_obj w2))) = true); [|congruence].
        apply existsb_exists. exists r. split; [apply in_seq; lia|]. rewrite K2. unfold rleb. destruct (Rle_dec _ 0); [reflexivity|contradiction]. }
    destruct (proj2 (check_sens_iff _ _ _) (conj SN eq_refl)) as (d & Ed & Hd). rewrite <- Hd. apply check_sens_cong. rewrite Ed. cbn [k_sens m_sens m_n_rep]. reflexivity.
  - intros e He. unfold fin_se in He. destruct (c_sens C) as [est|]; [|discriminate]. destruct (fin_sens w2) as [s|]; [|discriminate]. cbn in He. injection He as <-. cbn. split; [reflexivity|]. split; [reflexivity|].
    intros s2 n2 E. injection E as <- <-. auto.
  - unfold check_names. rewrite all_some_map. rewrite Nat.eqb_refl. reflexivity.
Qed.
Lemma fin_inv st ext w w2 f : (0 < nt)%nat -> linv C st ext w whole w2 ->
  mk_framework (Some (framework_dict C (fin_world w2))) = Ok f -> sens_cond (w_obj w) ext.
Proof.
  intros Hnt [W F Fr L] Hf est Es r t no cl s2 v Hr Ht E. apply mk_fw_inv in Hf. destruct Hf as [_ Hf]. destruct Hf as (_ & _ & _ & _ & _ & _ & _ & _ & _ & _ & Hf & _).
  destruct (fs_sens _ _ _ F est Es) as (s & Em & Sh).
  assert (Ek : k_sens (framework_dict C (fin_world w2)) = Val (sens_dict C (m_n_rep (w_obj w2)) (validate_sens C (m_n_rep (w_obj w2)) s))).
  { unfold framework_dict, fin_world, fin_sens. cbn [k_sens w_obj with_sens with_results m_sens]. rewrite Es, Em. reflexivity. }
  destruct (fw_sens f) as [e|].
  - destruct (proj1 (check_sens_iff (m_n_rep (w_obj w2)) (validate_sens C (m_n_rep (w_obj w2)) s) e)) as [SN _]; [eauto|].
    destruct (L r t I Hr Ht) as (no' & cl' & s2' & v' & E' & K). rewrite E in E'. injection E' as <- <- <- <-.
    destruct (cw_sens _ _ _ _ _ _ _ _ _ K est s Es Em) as (K1 & _). rewrite <- (fr_n_rep _ _ _ Fr) in Hr. destruct (SN r t Hr Ht) as [X _].
    destruct (validate_spec (m_n_rep (w_obj w2)) s) as (V1 & _). rewrite V1, K1 in X. exact X.
  - exfalso. unfold check_sens in Hf. rewrite Ek in Hf. unfold sens_dict in Hf. cbn [si_max_bias si_psi_max_bias present andb require need_array bind] in Hf.
    match type of Hf with bind ?x _ = _ => destruct x; discriminate end.
Qed.

(** ** fit *)
Definition fit_check (w : world P) (nj store : pyval) (ext : ext_arg) (sm : pyval) : Prop := snd (check_fit C nj store ext sm w) = Ok tt.
Definition stored_flag (store : pyval) : bool := match store with PBool b => b | _ => false end.

Definition fit_result (w2 : world P) : world P :=
  {| w_heap := w_heap w2;
     w_fws := w_fws w2 ++ [{| fo_base := fin_fw w2 (fin_cluster w2) (fin_se w2); fo_all_thetas := m_all_coef (w_obj w2); fo_all_ses := m_all_se (w_obj w2); fo_vs := m_vs (w_obj w2) |}];
     w_obj := with_fw (Some (length (w_fws w2))) (w_obj (fin_world w2)) |}.

Lemma fit_inv nj store ext sm w w' : (0 < nt)%nat -> wf C w -> fit C nj store ext sm w = (w', Ok tt) ->
  fit_check w nj store ext sm /\ calls_ok (w_obj w) ext /\ sens_cond (w_obj w) ext /\
  exists w2, linv C (stored_flag store) ext w whole w2 /\ w' = fit_result w2.
Proof.
  intros Hnt W H. unfold fit in H. rewrite andthen_unf in H. unfold fit_check. unfold check_fit, lift in *. cbn [snd].
  match type of H with match ?x with _ => _ end = _ => destruct x as [[]|e] eqn:Ec end; [|discriminate]. split; [reflexivity|].
  fold (stored_flag store) in H. destruct (initialize_ok (stored_flag store) w W) as (w1 & E1 & W1 & F1 & Fr1).
  rewrite (andthen_eq _ _ _ _ _ E1) in H. cbn in H.
  change ((for_ (seq 0 (m_n_rep (w_obj w1))) (fun r => for_ (seq 0 nt) (fun t => fit_step C (stored_flag store) ext r t)) ;;; finish_fit C) w1 = (w', Ok tt)) in H.
  apply andthen_ok in H. destruct H as (w2 & [] & E2 & H).
  destruct (loop_inv _ _ _ _ _ W1 F1 Fr1 E2) as [L Ck]. split; [exact Ck|].
  rewrite finish_eq in H by (intros est Es; destruct (fs_sens _ _ _ (li_sh _ _ _ _ _ _ L) est Es) as (s & Em & _); eauto).
  rewrite construct_eq in H. destruct (mk_framework _) as [f|] eqn:Ef; [|discriminate].
  pose proof (fin_inv _ _ _ _ _ Hnt L Ef) as Sc. split; [exact Sc|]. exists w2. split; [exact L|].
  rewrite (fin_mk _ _ _ _ Hnt L Sc) in Ef. injection Ef as <-. apply pair_equal_spec in H. destruct H as [<- _]. reflexivity.
Qed.
Lemma fit_complete nj store ext sm w : (0 < nt)%nat -> wf C w ->
  fit_check w nj store ext sm -> calls_ok (w_obj w) ext -> sens_cond (w_obj w) ext -> exists w', fit C nj store ext sm w = (w', Ok tt).
Proof.
  intros Hnt W Hc Ck Sc. unfold fit. rewrite (andthen_eq _ _ w w tt).
  2: { unfold fit_check in Hc. unfold check_fit, lift in *. cbn [snd] in Hc. now rewrite Hc. }
  fold (stored_flag store). destruct (initialize_ok (stored_flag store) w W) as (w1 & E1 & W1 & F1 & Fr1). rewrite (andthen_eq _ _ _ _ _ E1).
  change (exists w', (for_ (seq 0 (m_n_rep (w_obj w1))) (fun r => for_ (seq 0 nt) (fun t => fit_step C (stored_flag store) ext r t)) ;;; finish_fit C) w1 = (w', Ok tt)).
  destruct (loop_progress _ _ _ _ W1 F1 Fr1 Ck) as [w2 E2]. rewrite (andthen_eq _ _ _ _ _ E2).
  destruct (loop_inv _ _ _ _ _ W1 F1 Fr1 E2) as [L _].
  rewrite finish_eq by (intros est Es; destruct (fs_sens _ _ _ (li_sh _ _ _ _ _ _ L) est Es) as (s & Em & _); eauto).
  rewrite construct_eq, (fin_mk _ _ _ _ Hnt L Sc). eauto.
Qed.
End Obj.

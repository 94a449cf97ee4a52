(** Lemmas on the framework constructor and operators. *)
From Verif Require Export S_Framework L_Order.
Local Open Scope R_scope.

Lemma shape_eqb_eq a b : shape_eqb a b = true <-> a = b.
Proof.
  revert b. induction a as [|x a IH]; intros [|y b]; cbn; split; intro H; try discriminate; try reflexivity.
  - apply andb_prop in H. destruct H as [H1 H2]. apply Nat.eqb_eq in H1. apply IH in H2. congruence.
  - inversion H; subst. rewrite Nat.eqb_refl. apply IH. reflexivity.
Qed.
Lemma shape_eqb_refl a : shape_eqb a a = true.
Proof. apply shape_eqb_eq. reflexivity. Qed.
Lemma in_indices s idx : In idx (indices s) <-> in_shape idx s.
Proof.
  revert idx. induction s as [|n s IH]; intros idx; cbn.
  - split; [intros [<-|[]]; exact I|]. destruct idx; [left; reflexivity|intros []].
  - rewrite in_flat_map. split.
    + intros [i [Hi Hm]]. apply in_seq in Hi. apply in_map_iff in Hm. destruct Hm as [k [<- Hk]].
      cbn. split; [lia|]. apply IH. exact Hk.
    + destruct idx as [|i idx]; cbn; [intros []|]. intros [Hi Hk]. exists i. split; [apply in_seq; lia|].
      apply in_map. apply IH. exact Hk.
Qed.
Lemma any_neg_false a : any_neg a = false <-> forall idx, in_shape idx (shape a) -> 0 <= at_ a idx.
Proof.
  unfold any_neg. split.
  - intros H idx Hi. apply in_indices in Hi.
    destruct (Rle_dec 0 (at_ a idx)) as [|Hn]; [assumption|].
    assert (He : existsb (fun i => rltb (at_ a i) 0) (indices (shape a)) = true).
    { apply existsb_exists. exists idx. split; [assumption|]. unfold rltb. destruct (Rlt_dec _ _); [reflexivity|lra]. }
    congruence.
  - intro H. destruct (existsb _ _) eqn:E; [|reflexivity]. apply existsb_exists in E.
    destruct E as [i [Hi Hb]]. apply in_indices in Hi. apply H in Hi. unfold rltb in Hb.
    destruct (Rlt_dec _ _); [lra|discriminate].
Qed.

Lemma require_ok {A} b e (k : result A) x : require b e k = Ok x -> b = true /\ k = Ok x.
Proof. unfold require. destruct b; [auto|discriminate]. Qed.
Lemma bind_ok {A B} (r : result A) (f : A -> result B) x : bind r f = Ok x -> exists a, r = Ok a /\ f a = Ok x.
Proof. destruct r; cbn; [eauto|discriminate]. Qed.

Ltac inv_ok :=
  repeat match goal with
  | H : require _ _ _ = Ok _ |- _ =>
      let H1 := fresh "Hreq" in let H2 := fresh "Hk" in destruct (require_ok _ _ _ _ H) as [H1 H2]; clear H
  | H : bind _ _ = Ok _ |- _ =>
      let x := fresh "x" in let H1 := fresh "Hb" in let H2 := fresh "Hk" in
      destruct (bind_ok _ _ _ H) as [x [H1 H2]]; clear H; cbv beta in H2
  | H : (let '(_, _) := ?p in _) = Ok _ |- _ => destruct p eqn:?
  | H : Ok _ = Ok _ |- _ => injection H; clear H; intros; subst
  | H : Err _ = Ok _ |- _ => discriminate H
  end.

Lemma check_shape_ok a s : check_shape a s = Ok tt <-> shape a = s.
Proof.
  unfold check_shape, require. destruct (shape_eqb (shape a) s) eqn:E.
  - apply shape_eqb_eq in E. tauto.
  - split; [discriminate|]. intro H. apply shape_eqb_eq in H. congruence.
Qed.
Lemma check_shape_ok' a s u : check_shape a s = Ok u -> shape a = s.
Proof. destruct u. apply check_shape_ok. Qed.
Lemma check_shape_of a s : shape a = s -> check_shape a s = Ok tt.
Proof. apply check_shape_ok. Qed.
Lemma need_shape_ok e s a : need_shape e s = Ok a <-> e = Val a /\ shape a = s.
Proof.
  unfold need_shape. destruct e as [| |b]; try (split; [discriminate|intros [H _]; discriminate]).
  unfold require. destruct (shape_eqb (shape b) s) eqn:E.
  - apply shape_eqb_eq in E. split; [intro H; inversion H; subst; auto|intros [H _]; congruence].
  - split; [discriminate|]. intros [H1 H2]. inversion H1; subst. rewrite shape_eqb_refl in E. discriminate.
Qed.

Definition sens_shapes_prop (n nt nr : nat) (s : option sens_elems) : Prop :=
  forall e, s = Some e ->
    shape (se_max_bias e) = [1%nat; nt; nr] /\ shape (se_psi_max_bias e) = [n; nt; nr] /\
    forall s2 n2, se_bench e = Some (s2, n2) -> shape s2 = [1%nat; nt; nr] /\ shape n2 = [1%nat; nt; nr].
Lemma check_sens_shapes_ok n nt nr s u : check_sens_shapes n nt nr s = Ok u <-> sens_shapes_prop n nt nr s.
Proof.
  destruct u. unfold check_sens_shapes, sens_shapes_prop. destruct s as [e|].
  - split.
    + intros H e' He. inversion He; subst e'. inv_ok. destruct x, x0.
      apply check_shape_ok' in Hb, Hb0. split; [assumption|]. split; [assumption|].
      intros s2 n2 Hs. rewrite Hs in Hk0. inv_ok. apply check_shape_ok' in Hb1, Hk. auto.
    + intro H. destruct (H e eq_refl) as (H1 & H2 & H3). rewrite (check_shape_of _ _ H1), (check_shape_of _ _ H2).
      cbn. destruct (se_bench e) as [[s2 n2]|]; [|reflexivity].
      destruct (H3 s2 n2 eq_refl) as [H4 H5]. rewrite (check_shape_of _ _ H4), (check_shape_of _ _ H5). reflexivity.
  - split; [intros _ e He; discriminate|reflexivity].
Qed.

Lemma all_some_ok {A} (l : list (option A)) k : all_some l = Some k <-> l = map Some k.
Proof.
  revert k. induction l as [|[x|] l IH]; intro k; cbn.
  - split; intro H; [inversion H; reflexivity|]. destruct k; [reflexivity|discriminate].
  - destruct (all_some l) as [y|] eqn:E.
    + split; intro H.
      * inversion H; subst. cbn. f_equal. apply IH. reflexivity.
      * destruct k; [discriminate|]. cbn in H. inversion H; subst. f_equal. f_equal.
        assert (Some y = Some k) by (apply IH; reflexivity). congruence.
    + split; intro H; [discriminate|]. destruct k; [discriminate|]. cbn in H. inversion H; subst.
      assert (None = Some k) by (apply IH; reflexivity). discriminate.
  - split; intro H; [discriminate|]. destruct k; discriminate.
Qed.

Definition fw_of (d : fw_dict) (f : framework) : Prop :=
  k_thetas d = Val (fw_thetas f) /\ k_ses d = Val (fw_ses f) /\ k_all_thetas d = Val (fw_all_thetas f) /\
  k_all_ses d = Val (fw_all_ses f) /\ k_vs d = Val (fw_vs f) /\ k_scaled_psi d = Val (fw_scaled_psi f) /\
  fw_n_obs f = dim 0 (fw_scaled_psi f) /\ fw_n_thetas f = dim 1 (fw_scaled_psi f) /\ fw_n_rep f = dim 2 (fw_scaled_psi f) /\
  check_cluster d = Ok (fw_cluster f) /\ check_sens d = Ok (fw_sens f) /\
  check_names (fw_n_thetas f) (k_names d) = Ok (fw_names f) /\
  fw_boot f = None /\ fw_sens_params f = None.

Lemma mk_fw_inv d f : mk_framework (Some d) = Ok f -> fw_wf f /\ fw_of d f.
Proof.
  unfold mk_framework. intro H. inv_ok.
  destruct (k_scaled_psi d) as [| |psi] eqn:Epsi; try discriminate. inv_ok.
  repeat match goal with H : need_shape _ _ = Ok _ |- _ => apply need_shape_ok in H; destruct H as [? ?] end.
  repeat match goal with H : check_shape _ _ = Ok _ |- _ => apply check_shape_ok' in H end.
  split.
  - constructor; cbn; try assumption.
    + intros s Hs. subst. match goal with H : check_sens_shapes _ _ _ _ = Ok _ |- _ => apply check_sens_shapes_ok in H; destruct (H s eq_refl) as (Hm & Hp & Hbn) end.
      split; [assumption|]. split; [assumption|]. intros s2 n2 Hsn. destruct (Hbn s2 n2 Hsn) as [Hs2 Hn2].
      split; [assumption|]. split; [assumption|].
      match goal with H : check_sens d = Ok (Some s) |- _ => rename H into Hsens end.
      unfold check_sens in Hsens. destruct (k_sens d); try discriminate. inv_ok. cbn in Hsn. subst.
      match goal with H : check_benchmark _ = Ok _ |- _ => unfold check_benchmark in H; destruct (_ && _) in H; [|discriminate] end.
      inv_ok. match goal with H : negb _ = true |- _ => apply negb_true_iff in H; apply orb_false_iff in H; destruct H as [Ha Hb'] end.
      rewrite any_neg_false in Ha, Hb'. auto.
    + intros l Hl. subst. match goal with H : check_names _ _ = Ok _ |- _ => unfold check_names in H; destruct (k_names d); try discriminate; destruct (all_some _); [|discriminate] end.
      inv_ok. match goal with H : Nat.eqb _ _ = true |- _ => apply Nat.eqb_eq in H; exact H end.
  - unfold fw_of. cbn. repeat split; assumption.
Qed.

Lemma mk_fw_ok d th ses ath ases vs psi n nt nr cl se nm :
  k_thetas d = Val th -> shape th = [nt] -> k_ses d = Val ses -> shape ses = [nt] ->
  k_all_thetas d = Val ath -> shape ath = [nt; nr] -> k_all_ses d = Val ases -> shape ases = [nt; nr] ->
  k_vs d = Val vs -> shape vs = [nt] -> k_scaled_psi d = Val psi -> shape psi = [n; nt; nr] ->
  check_cluster d = Ok cl -> check_sens d = Ok se -> sens_shapes_prop n nt nr se ->
  check_names nt (k_names d) = Ok nm ->
  mk_framework (Some d) = Ok {| fw_n_obs := n; fw_n_thetas := nt; fw_n_rep := nr;
            fw_thetas := th; fw_ses := ses; fw_all_thetas := ath; fw_all_ses := ases;
            fw_vs := vs; fw_scaled_psi := psi; fw_cluster := cl; fw_sens := se;
            fw_names := nm; fw_boot := None; fw_sens_params := None |}.
Proof.
  intros H1 S1 H2 S2 H3 S3 H4 S4 H5 S5 H6 S6 Hc Hs Hss Hn. unfold mk_framework.
  rewrite H1, H2, H3, H4, H5, H6. cbn [present andb require].
  unfold dim. rewrite S6. cbn [length Nat.leb require nth]. rewrite Hc, Hs. cbn [bind].
  unfold need_shape. rewrite S1, S2, S3, S4, S5, !shape_eqb_refl. cbn [require bind].
  rewrite (check_shape_of psi [n; nt; nr]) by assumption. cbn [bind].
  destruct (check_sens_shapes n nt nr se) as [u|e] eqn:E.
  - cbn [bind]. rewrite Hn. reflexivity.
  - apply check_sens_shapes_ok with (u := tt) in Hss. congruence.
Qed.

Lemma check_shapes_ok f u : check_framework_shapes f = Ok u <->
  (shape (fw_thetas f) = [fw_n_thetas f] /\ shape (fw_ses f) = [fw_n_thetas f] /\
   shape (fw_all_thetas f) = [fw_n_thetas f; fw_n_rep f] /\ shape (fw_all_ses f) = [fw_n_thetas f; fw_n_rep f] /\
   shape (fw_vs f) = [fw_n_thetas f] /\ shape (fw_scaled_psi f) = [fw_n_obs f; fw_n_thetas f; fw_n_rep f] /\
   sens_shapes_prop (fw_n_obs f) (fw_n_thetas f) (fw_n_rep f) (fw_sens f)).
Proof.
  destruct u. unfold check_framework_shapes. split.
  - intro H. inv_ok. repeat match goal with H : check_shape _ _ = Ok _ |- _ => apply check_shape_ok' in H end.
    match goal with H : check_sens_shapes _ _ _ _ = Ok _ |- _ => apply check_sens_shapes_ok in H end. tauto.
  - intros (H1 & H2 & H3 & H4 & H5 & H6 & H7).
    rewrite (check_shape_of _ _ H1), (check_shape_of _ _ H2), (check_shape_of _ _ H3), (check_shape_of _ _ H4),
      (check_shape_of _ _ H5), (check_shape_of _ _ H6). cbn [bind]. apply check_sens_shapes_ok. exact H7.
Qed.
Lemma wf_check f : fw_wf f -> check_framework_shapes f = Ok tt.
Proof.
  intro H. apply check_shapes_ok.
  split; [apply (wf_thetas f H)|]. split; [apply (wf_ses f H)|]. split; [apply (wf_all_thetas f H)|].
  split; [apply (wf_all_ses f H)|]. split; [apply (wf_vs f H)|]. split; [apply (wf_psi f H)|]. intros s Hs.
  destruct (wf_sens f H s Hs) as (A & B & C). split; [assumption|]. split; [assumption|].
  intros s2 n2 H'. destruct (C _ _ H') as (D & E & _). auto.
Qed.
Lemma compat_ok f g b u : check_compat f g b = Ok u <->
  fw_n_obs f = fw_n_obs g /\ fw_n_rep f = fw_n_rep g /\ (b = true -> fw_n_thetas f = fw_n_thetas g) /\
  is_some (fw_cluster f) = is_some (fw_cluster g).
Proof.
  destruct u. unfold check_compat. split.
  - intro H. inv_ok. apply Nat.eqb_eq in Hreq, Hreq0. apply Bool.eqb_prop in Hreq2.
    repeat split; try assumption. intros ->. apply Nat.eqb_eq. assumption.
  - intros (H1 & H2 & H3 & H4). unfold require. rewrite (proj2 (Nat.eqb_eq _ _) H1), (proj2 (Nat.eqb_eq _ _) H2), H4, Bool.eqb_reflx.
    destruct b; [rewrite (proj2 (Nat.eqb_eq _ _) (H3 eq_refl))|]; reflexivity.
Qed.

Lemma allclose_spec a b : allclose a b = true <->
  forall idx, in_shape idx (shape a) -> Rabs (at_ a idx - at_ b idx) <= 1 / 100000000 + 1 / 100000 * Rabs (at_ b idx).
Proof.
  unfold allclose. rewrite forallb_forall. split; intros H idx Hi.
  - apply in_indices in Hi. specialize (H idx Hi). unfold rleb in H. destruct (Rle_dec _ _); [assumption|discriminate].
  - apply in_indices in Hi. specialize (H idx Hi). unfold rleb. destruct (Rle_dec _ _); [reflexivity|contradiction].
Qed.
Lemma allclose_eq a b : (forall idx, in_shape idx (shape a) -> at_ a idx = at_ b idx) -> allclose a b = true.
Proof.
  intro H. apply allclose_spec. intros idx Hi. rewrite (H idx Hi), Rminus_diag_eq, Rabs_R0 by reflexivity.
  pose proof (Rabs_pos (at_ b idx)). lra.
Qed.

Lemma check_cluster_entry d c : k_is_cluster d = Val (is_some c) -> k_cluster d = cluster_entry c -> check_cluster d = Ok c.
Proof. intros H1 H2. unfold check_cluster. rewrite H1, H2. destruct c as [[]|]; reflexivity. Qed.

(** Sensitivity elements of a sum or difference. *)
Definition sens_add (a b : option sens_elems) : option sens_elems :=
  match a, b with
  | Some a, Some b => Some {| se_max_bias := nd_map2 Rplus (se_max_bias a) (se_max_bias b);
                              se_psi_max_bias := nd_map2 Rplus (se_psi_max_bias a) (se_psi_max_bias b);
                              se_bench := None |}
  | _, _ => None
  end.
Definition comb_ses (op : R -> R -> R) (f g : framework) : nd :=
  mk2 (fw_n_thetas f) (fw_n_rep f) (fun t r =>
    sqrt (meanf (fw_n_obs f) (fun i => (op (at_ (fw_scaled_psi f) [i; t; r]) (at_ (fw_scaled_psi g) [i; t; r]))^2) / at_ (fw_vs f) [t])).
Definition comb_result (op : R -> R -> R) (f g : framework) : framework :=
  let ath := nd_map2 op (fw_all_thetas f) (fw_all_thetas g) in
  {| fw_n_obs := fw_n_obs f; fw_n_thetas := fw_n_thetas f; fw_n_rep := fw_n_rep f;
     fw_thetas := fst (aggregate_coefs_and_ses ath (comb_ses op f g) (fw_vs f));
     fw_ses := snd (aggregate_coefs_and_ses ath (comb_ses op f g) (fw_vs f));
     fw_all_thetas := ath; fw_all_ses := comb_ses op f g; fw_vs := fw_vs f;
     fw_scaled_psi := nd_map2 op (fw_scaled_psi f) (fw_scaled_psi g);
     fw_cluster := fw_cluster f; fw_sens := sens_add (fw_sens f) (fw_sens g); fw_names := None;
     fw_boot := None; fw_sens_params := None |}.

Definition comb_ok (f g : framework) : Prop :=
  fw_n_obs f = fw_n_obs g /\ fw_n_rep f = fw_n_rep g /\ fw_n_thetas f = fw_n_thetas g /\
  is_some (fw_cluster f) = is_some (fw_cluster g) /\
  (forall t, (t < fw_n_thetas f)%nat -> Rabs (at_ (fw_vs f) [t] - at_ (fw_vs g) [t]) <= 1 / 100000000 + 1 / 100000 * Rabs (at_ (fw_vs g) [t])).

Lemma in_shape1 idx n : in_shape idx [n] <-> exists i, idx = [i] /\ (i < n)%nat.
Proof.
  split.
  - destruct idx as [|i [|j k]]; cbn; try tauto. intros [H _]. exists i. auto.
  - intros [i [-> H]]. cbn. auto.
Qed.
Lemma in_shape2 idx n m : in_shape idx [n; m] <-> exists i j, idx = [i; j] /\ (i < n)%nat /\ (j < m)%nat.
Proof.
  split.
  - destruct idx as [|i [|j [|k l]]]; cbn; try tauto. intros (H & H' & _). exists i, j. auto.
  - intros (i & j & -> & H). cbn. tauto.
Qed.
Lemma in_shape3 idx n m k : in_shape idx [n; m; k] <->
  exists i j l, idx = [i; j; l] /\ (i < n)%nat /\ (j < m)%nat /\ (l < k)%nat.
Proof.
  split.
  - destruct idx as [|i [|j [|l [|x y]]]]; cbn; try tauto. intros (H & H' & H'' & _). exists i, j, l. auto.
  - intros (i & j & l & -> & H). cbn. tauto.
Qed.

Lemma wf_dims f : fw_wf f -> dim 0 (fw_all_thetas f) = fw_n_thetas f /\ dim 1 (fw_all_thetas f) = fw_n_rep f /\
  dim 0 (fw_scaled_psi f) = fw_n_obs f /\ dim 1 (fw_scaled_psi f) = fw_n_thetas f /\ dim 2 (fw_scaled_psi f) = fw_n_rep f.
Proof. intro H. unfold dim. rewrite (wf_all_thetas f H), (wf_psi f H). cbn. auto. Qed.

Lemma combine_fw_ok op f g : fw_wf f -> fw_wf g -> comb_ok f g ->
  combine_fw op f (OpFw g) = Ok (comb_result op f g).
Proof.
  intros Hf Hg (Ho & Hr & Ht & Hc & Hv). unfold combine_fw.
  rewrite (wf_check f Hf), (wf_check g Hg). cbn [bind].
  rewrite (proj2 (compat_ok f g true tt)) by (repeat split; auto). cbn [bind].
  assert (Hac : allclose (fw_vs f) (fw_vs g) = true).
  { apply allclose_spec. rewrite (wf_vs f Hf). intros idx Hi. apply in_shape1 in Hi. destruct Hi as [t [-> Hlt]]. apply Hv; exact Hlt. }
  rewrite Hac. cbn [require].
  destruct (wf_dims f Hf) as (D1 & D2 & D3 & D4 & D5).
  change (dim 0 (nd_map2 op (fw_scaled_psi f) (fw_scaled_psi g))) with (dim 0 (fw_scaled_psi f)).
  change (dim 1 (nd_map2 op (fw_scaled_psi f) (fw_scaled_psi g))) with (dim 1 (fw_scaled_psi f)).
  change (dim 2 (nd_map2 op (fw_scaled_psi f) (fw_scaled_psi g))) with (dim 2 (fw_scaled_psi f)).
  rewrite D3, D4, D5. cbn [at_ nd_map2]. fold (comb_ses op f g).
  destruct (aggregate_coefs_and_ses (nd_map2 op (fw_all_thetas f) (fw_all_thetas g)) (comb_ses op f g) (fw_vs f)) as [th ses] eqn:Eagg.
  assert (Sh : shape th = [fw_n_thetas f] /\ shape ses = [fw_n_thetas f]).
  { unfold aggregate_coefs_and_ses in Eagg. injection Eagg as <- <-. unfold mk1. cbn [shape].
    change (dim 0 (nd_map2 op (fw_all_thetas f) (fw_all_thetas g))) with (dim 0 (fw_all_thetas f)). rewrite D1. auto. }
  unfold comb_result. rewrite Eagg. cbn [fst snd].
  eapply mk_fw_ok; cbn [k_thetas k_ses k_all_thetas k_all_ses k_vs k_scaled_psi k_is_cluster k_cluster k_sens k_names].
  all: try reflexivity.
  - apply Sh.
  - apply Sh.
  - cbn. apply wf_all_thetas, Hf.
  - apply wf_vs, Hf.
  - cbn. apply wf_psi, Hf.
  - apply check_cluster_entry; reflexivity.
  - unfold check_sens. cbn [k_sens]. destruct (fw_sens f), (fw_sens g); cbn; try reflexivity.
  - unfold sens_add. intros e He. destruct (fw_sens f) as [a|] eqn:Ea, (fw_sens g) as [b|] eqn:Eb; try discriminate.
    inversion He; subst. cbn. destruct (wf_sens f Hf a Ea) as (A & B & _). split; [assumption|]. split; [assumption|]. discriminate.
Qed.

Lemma combine_fw_inv op f o h : combine_fw op f o = Ok h ->
  exists g, o = OpFw g /\ check_framework_shapes f = Ok tt /\ check_framework_shapes g = Ok tt /\ comb_ok f g /\ h = comb_result op f g.
Proof.
  intro H. destruct o as [g|]; [|discriminate]. exists g. split; [reflexivity|].
  assert (Hdup := H). unfold combine_fw in H. apply bind_ok in H. destruct H as [[] [Hf H]].
  apply bind_ok in H. destruct H as [[] [Hg H]]. apply bind_ok in H. destruct H as [[] [Hcmp H]].
  apply require_ok in H. destruct H as [Hac H]. apply compat_ok in Hcmp. destruct Hcmp as (Ho & Hr & Ht & Hc).
  split; [assumption|]. split; [assumption|].
  assert (Hck : comb_ok f g).
  { repeat split; auto. intros t Hlt. rewrite allclose_spec in Hac. apply Hac.
    apply check_shapes_ok in Hf. destruct Hf as (_ & _ & _ & _ & Hvs & _). rewrite Hvs. cbn. auto. }
  split; [assumption|].
  (* recompute with the shape facts *)
  apply check_shapes_ok in Hf. destruct Hf as (S1 & S2 & S3 & S4 & S5 & S6 & S7).
  clear Hdup. cbv zeta in H.
  unfold dim in H. cbn [shape nd_map2] in H. rewrite S6 in H. cbn [nth at_ nd_map2] in H.
  fold (comb_ses op f g) in H.
  destruct (aggregate_coefs_and_ses (nd_map2 op (fw_all_thetas f) (fw_all_thetas g)) (comb_ses op f g) (fw_vs f)) as [th ses] eqn:Eagg.
  apply mk_fw_inv in H. destruct H as [Hwf Hof]. unfold fw_of in Hof. cbn [k_thetas k_ses k_all_thetas k_all_ses k_vs k_scaled_psi k_is_cluster k_cluster k_sens k_names fw_n_obs fw_n_thetas fw_n_rep fw_thetas fw_ses fw_all_thetas fw_all_ses fw_vs fw_scaled_psi fw_cluster fw_sens fw_names fw_boot fw_sens_params] in Hof.
  destruct Hof as (A1 & A2 & A3 & A4 & A5 & A6 & A7 & A8 & A9 & A10 & A11 & A12 & A13 & A14).
  unfold comb_result. rewrite Eagg. cbn [fst snd].
  destruct h as [no nt nr th' ses' ath ases vs psi cl se nm bt sp]. cbn [k_thetas k_ses k_all_thetas k_all_ses k_vs k_scaled_psi k_is_cluster k_cluster k_sens k_names fw_n_obs fw_n_thetas fw_n_rep fw_thetas fw_ses fw_all_thetas fw_all_ses fw_vs fw_scaled_psi fw_cluster fw_sens fw_names fw_boot fw_sens_params] in A1, A2, A3, A4, A5, A6, A7, A8, A9, A10, A11, A12, A13, A14. clear Hwf.
  injection A1 as <-. injection A2 as <-. injection A3 as <-. injection A4 as <-. injection A5 as <-. injection A6 as <-.
  unfold dim in A7, A8, A9. cbn in A7, A8, A9. rewrite S6 in A7, A8, A9. cbn in A7, A8, A9. subst.
  f_equal.
  - erewrite check_cluster_entry in A10; [injection A10 as <-; reflexivity|reflexivity|reflexivity].
  - unfold check_sens in A11. cbn [k_sens] in A11. destruct (fw_sens f) as [a|], (fw_sens g) as [b|]; cbn in A11; injection A11 as <-; reflexivity.
  - cbn in A12. congruence.
Qed.

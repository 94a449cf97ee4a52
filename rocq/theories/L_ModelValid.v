(** Sensitivity repair, valid splits, learner evaluation. *)
From Verif Require Export S_Valid L_ModelExamples L_Splitting L_Resampling L_ClusterSplit L_VarEst.
From Coq Require Import FunctionalExtensionality Lra Lia.
Local Open Scope R_scope.

Section Obj.
Context {P : Type}.
Variable C : ctx P.
Local Notation n := (c_n C).
Local Notation nt := (length (c_dcols C)).

(** C27 *)
Lemma bad_spec nr s t : bad_nu2 nr s t = true <-> exists r x, (r < nr)%nat /\ b_at (sb_nu2 s) [0%nat; r; t] = Some x /\ x <= 0.
Proof.
  unfold bad_nu2. rewrite existsb_exists. split.
  - intros (r & Hr & H). apply in_seq in Hr. destruct (b_at _ _) as [x|] eqn:E; [|discriminate]. exists r, x. split; [lia|]. split; [exact E|]. unfold rleb in H. destruct (Rle_dec x 0); [assumption|discriminate].
  - intros (r & x & Hr & E & Hx). exists r. split; [apply in_seq; lia|]. rewrite E. unfold rleb. destruct (Rle_dec x 0); [reflexivity|contradiction].
Qed.
Lemma nu2_repair w nj store ext sm w' est : c_dcols C <> [] -> reachable C w -> c_sens C = Some est -> fit C nj store ext sm w = (w', Ok tt) ->
  exists out f e, nuisance_results C w ext out /\ current_fw w' f /\ reports C w out f /\ fw_sens f = Some e /\
  forall t, (t < nt)%nat ->
    let so r := sens_of C est w out r t in
    (forall r, (r < m_n_rep (w_obj w))%nat -> exists v psi, reports_nu2 w' r t v psi /\ 0 <= v /\ 0 <= so_sigma2 (so r) /\
       at_ (se_max_bias e) [0%nat; t; r] = sqrt (so_sigma2 (so r) * v)) /\
    ((forall r, (r < m_n_rep (w_obj w))%nat -> 0 < so_nu2 (so r)) ->
       forall r, (r < m_n_rep (w_obj w))%nat -> reports_nu2 w' r t (so_nu2 (so r)) (so_psi_nu2 (so r))) /\
    ((exists r, (r < m_n_rep (w_obj w))%nat /\ so_nu2 (so r) <= 0) ->
       forall r, (r < m_n_rep (w_obj w))%nat -> reports_nu2 w' r t (meanf n (fun i => so_rr (so r) i ^ 2)) (fun i => so_rr (so r) i ^ 2)).
Proof.
  intros Hd Hr Es H. apply dcols_pos in Hd. apply reachable_wf in Hr. destruct (fit_inv _ _ _ _ _ _ _ Hd Hr H) as (_ & Ck & Sc & w2 & L & ->).
  pose proof (fs_sens _ _ _ (li_sh _ _ _ _ _ _ L) est Es) as (s & Em & _).
  set (out := out_of C (w_obj w) ext). set (s' := validate_sens C (m_n_rep (w_obj w2)) s).
  exists out, (fin_fw C w2 (fin_cluster C w2) (fin_se C w2)), (sens_elems_of C (m_n_rep (w_obj w2)) s').
  split; [apply calls_results; assumption|]. split; [apply fin_current; exact Hd|]. split; [eapply fin_reports; eassumption|].
  assert (En : m_n_rep (w_obj w2) = m_n_rep (w_obj w)) by exact (fr_n_rep _ _ _ (li_fr _ _ _ _ _ _ L)).
  assert (Efin : fin_sens C w2 = Some s') by (unfold fin_sens; rewrite Es, Em; reflexivity).
  split; [cbn [fw_sens fin_fw]; unfold fin_se; rewrite Es, Efin; reflexivity|].
  intros t Ht so.
  assert (K : forall r, (r < m_n_rep (w_obj w))%nat ->
     (forall i, b_at (sb_sigma2 s) [i; r; t] = Some (so_sigma2 (so r))) /\ (forall i, b_at (sb_nu2 s) [i; r; t] = Some (so_nu2 (so r))) /\
     (forall i, b_at (sb_psi_sigma2 s) [i; r; t] = Some (so_psi_sigma2 (so r) i)) /\ (forall i, b_at (sb_psi_nu2 s) [i; r; t] = Some (so_psi_nu2 (so r) i)) /\
     (forall i, b_at (sb_rr s) [i; r; t] = Some (so_rr (so r) i))).
  { intros r Hr'. destruct (L_ModelProps.cell C (stored_flag store) ext w w2 L r t Hr' Ht) as (s2 & v & _ & K). exact (cw_sens _ _ _ _ _ _ _ _ _ K est s Es Em). }
  assert (Sg : forall r, (r < m_n_rep (w_obj w))%nat -> 0 <= so_sigma2 (so r)).
  { intros r Hr'. destruct (li_cells _ _ _ _ _ _ L r t I Hr' Ht) as (no & cl & s2 & v & E & _). pose proof (Sc est Es r t no cl s2 v Hr' Ht E) as X.
    pose proof (out_call _ _ _ _ _ _ _ _ _ E : no = out r t) as Eno. apply step_fun_iff in E. destruct E as (_ & E1 & _). apply cluster_split in E1. subst cl. rewrite Eno in X. exact X. }
  destruct (validate_spec C (m_n_rep (w_obj w2)) s) as (V1 & V2 & V3 & V4 & V5 & V6 & V7).
  assert (Rp : forall r v psi, b_at (sb_nu2 s') [0%nat; r; t] = Some v -> (forall i, b_at (sb_psi_nu2 s') [i; r; t] = Some (psi i)) -> reports_nu2 (fit_result C w2) r t v psi).
  { intros r v psi A B. exists s'. split; [exact Efin|]. auto. }
  assert (Good : (forall r, (r < m_n_rep (w_obj w))%nat -> 0 < so_nu2 (so r)) -> forall r, (r < m_n_rep (w_obj w))%nat -> reports_nu2 (fit_result C w2) r t (so_nu2 (so r)) (so_psi_nu2 (so r))).
  { intros Hp r Hr'. assert (Eb : bad_nu2 (m_n_rep (w_obj w2)) s t = false).
    { destruct (bad_nu2 _ s t) eqn:Eb; [|reflexivity]. exfalso. apply bad_spec in Eb. destruct Eb as (r' & x & Hr2 & E & Hx). rewrite En in Hr2. destruct (K r' Hr2) as (_ & K2 & _). rewrite K2 in E. injection E as <-. specialize (Hp r' Hr2). lra. }
    destruct (K r Hr') as (_ & K2 & _ & K4 & _). apply Rp.
    - unfold s'. rewrite V6, Eb by exact Ht. apply K2.
    - intro i. unfold s'. rewrite V7, Eb by exact Ht. apply K4. }
  assert (Bad : (exists r, (r < m_n_rep (w_obj w))%nat /\ so_nu2 (so r) <= 0) -> forall r, (r < m_n_rep (w_obj w))%nat -> reports_nu2 (fit_result C w2) r t (meanf n (fun i => so_rr (so r) i ^ 2)) (fun i => so_rr (so r) i ^ 2)).
  { intros (r0 & Hr0 & H0) r Hr'. assert (Eb : bad_nu2 (m_n_rep (w_obj w2)) s t = true).
    { apply bad_spec. exists r0, (so_nu2 (so r0)). rewrite En. split; [exact Hr0|]. split; [|exact H0]. destruct (K r0 Hr0) as (_ & K2 & _). apply K2. }
    destruct (K r Hr') as (_ & _ & _ & _ & K5). assert (Ec : forall i, col_of (sb_rr s) r t i = so_rr (so r) i) by (intro i; unfold col_of; rewrite K5; reflexivity). apply Rp.
    - unfold s'. rewrite V6, Eb by exact Ht. f_equal. apply meanf_ext. intros i _. now rewrite Ec.
    - intro i. unfold s'. rewrite V7, Eb by exact Ht. now rewrite Ec. }
  split; [|split; assumption].
  intros r Hr'. assert (X : exists v psi, reports_nu2 (fit_result C w2) r t v psi /\ 0 <= v).
  { destruct (Classical_Prop.classic (exists r0, (r0 < m_n_rep (w_obj w))%nat /\ so_nu2 (so r0) <= 0)) as [B|B].
    - do 2 eexists. split; [apply Bad; assumption|]. unfold meanf. apply div_nonneg; [apply sumf_nonneg; intros; apply pow2_ge_0|apply pos_INR].
    - assert (Hp : forall r0, (r0 < m_n_rep (w_obj w))%nat -> 0 < so_nu2 (so r0)).
      { intros r0 Hr0. destruct (Rlt_le_dec 0 (so_nu2 (so r0))); [assumption|]. exfalso. apply B. eauto. }
      do 2 eexists. split; [apply Good; assumption|]. left. auto. }
  destruct X as (v & psi & X & Hv). exists v, psi. split; [exact X|]. split; [exact Hv|]. split; [apply Sg; exact Hr'|].
  destruct X as (s0 & E0 & E1 & _). assert (s0 = s') as -> by (cbn in E0; congruence). match goal with |- ?a = _ => change a with (sqrt (oget (b_at (sb_sigma2 s') [0%nat; r; t]) * oget (b_at (sb_nu2 s') [0%nat; r; t]))) end. rewrite E1.
  unfold s'. rewrite V1. destruct (K r Hr') as (K1 & _). rewrite K1. reflexivity.
Qed.

(** C56 *)
Lemma evaluate_last_fit w nj ext sm w' metric res : c_dcols C <> [] -> reachable C w -> fit C nj (PBool true) ext sm w = (w', Ok tt) ->
  forall ls, snd (evaluate_learners C ls metric w') = Ok res ->
  exists out, nuisance_results C w ext out /\ reports_losses C w' out /\ map fst res = match ls with None => c_learners C | Some l => l end /\
    forall l vals, In (l, vals) res -> length vals = m_n_rep (w_obj w) /\ forall r t, (r < m_n_rep (w_obj w))%nat -> (t < nt)%nat ->
      metric (no_preds (out r t) l) (target_of (out r t) l) = Some (nth t (nth r vals []) 0).
Proof.
  intros Hd Hr H ls E. destruct (fit_reports _ _ _ _ _ _ _ Hd Hr H) as (out & f & Nr & _ & _ & _ & Rl & St & _ & En). exists out. split; [exact Nr|]. split; [exact Rl|].
  destruct (St eq_refl) as (pr & tg & Ep & Et & Sv). unfold evaluate_learners, lift in E. cbn [snd] in E. apply require_ok in E. destruct E as [Hl E]. rewrite Ep, Et in E.
  set (lst := match ls with None => c_learners C | Some l => l end) in *. apply map_res_iff in E. split.
  - clear Hl. induction E as [|l p lst' res' E _ IH]; [reflexivity|]. cbn. f_equal; [|exact IH].
    match type of E with bind ?x _ = _ => destruct x; [|discriminate] end. cbn [bind] in E. injection E as <-. reflexivity.
  - intros l vals Hin. assert (X : exists l', In l' lst /\ bind (map_res (fun r => map_res (fun t =>
             match metric (fun i => b_at (pr l') [i; r; t]) (fun i => b_at (tg l') [i; r; t]) with
             | Some v => Ok v | None => Err ValueError end) (seq 0 nt)) (seq 0 (m_n_rep (w_obj w')))) (fun vals => Ok (l', vals)) = Ok (l, vals)).
    { clear Hl. revert Hin E. clear. intros Hin E. induction E as [|l0 p lst' res' E _ IH]; [contradiction|]. destruct Hin as [->|Hin]; [exists l0; split; [left; reflexivity|exact E]|]. destruct (IH Hin) as (l' & A & B). exists l'. split; [right; exact A|exact B]. }
    destruct X as (l' & Hin' & X). match type of X with bind ?x _ = _ => destruct x as [vv|] eqn:Ev; [|discriminate] end. cbn [bind] in X. injection X as -> ->.
    assert (Hlc : In l (c_learners C)). { rewrite forallb_forall in Hl. specialize (Hl l Hin'). unfold smem in Hl. apply existsb_exists in Hl. destruct Hl as (y & Hy & Ey). apply String.eqb_eq in Ey. congruence. }
    apply map_res_iff in Ev. pose proof (Forall2_len _ _ _ Ev) as Lv. rewrite seq_length, En in Lv. split; [auto|]. intros r t Hr' Ht. rewrite En in Ev.
    assert (Y : forall (T U : Type) (Q : T -> U -> Prop) (a : list T) (b : list U) k x d, Forall2 Q a b -> nth_error a k = Some x -> Q x (nth k b d)).
    { intros T U Q a b k x d F. revert k. induction F as [|y z a b Hyz F IH]; intros [|k] Hk; cbn in *; try discriminate; [congruence|auto]. }
    assert (Sq : forall m k, (k < m)%nat -> nth_error (seq 0 m) k = Some k).
    { intros m k Hk. rewrite (nth_error_nth' _ 0%nat) by (rewrite seq_length; exact Hk). rewrite seq_nth by exact Hk. reflexivity. }
    pose proof (Y _ _ _ _ _ r r [] Ev (Sq _ _ Hr')) as Z. cbv beta in Z. apply map_res_iff in Z. pose proof (Y _ _ _ _ _ t t 0 Z (Sq _ _ Ht)) as Z2. cbv beta in Z2.
    replace (fun i => b_at (pr l) [i; r; t]) with (no_preds (out r t) l) in Z2; [replace (fun i => b_at (tg l) [i; r; t]) with (target_of (out r t) l) in Z2|].
    + destruct (metric _ _); [|discriminate]. congruence.
    + apply functional_extensionality. intro i. symmetry. apply Sv; [exact Hlc|rewrite En; exact Hr'|exact Ht].
    + apply functional_extensionality. intro i. symmetry. apply Sv; [exact Hlc|rewrite En; exact Hr'|exact Ht].
Qed.

(** C58 *)
Definition split_ok (w : world P) : Prop := forall sm, m_smpls (w_obj w) = Some sm ->
  length sm = m_n_rep (w_obj w) /\ forall fs, In fs sm -> valid_rep n fs /\ (c_cluster C = None -> length fs = m_n_folds (w_obj w)).
Hypothesis Hcv : c_cluster C <> Some [].
Lemma drawn_ok g perm w w' : shuffles g -> perm_ok perm -> draw_sample_splitting C g perm w = (w', Ok tt) -> split_ok w'.
Proof.
  intros Hg Hp H. unfold draw_sample_splitting in H. rewrite (andthen_eq _ _ _ w w) in H by reflexivity. cbv zeta in H. destruct (c_cluster C) as [cv|] eqn:Ec; unfold andthen, lift in H.
  - destruct (cluster_resampling _ _ _ _ _) as [[sm sc]|e] eqn:E; [|discriminate]. unfold assign in H. apply pair_equal_spec in H. destruct H as [<- _]. intros sm' Es. cbn in Es. injection Es as <-.
    destruct (cluster_draws _ _ _ _ _ _ _ Hp E) as (L1 & L2 & F). split; [exact L1|]. intros fs Hfs. split; [|congruence].
    assert (X : exists gs, length fs = (m_nfpc (w_obj w) ^ length cv)%nat /\ Permutation (flat_map snd fs) (seq 0 n) /\ Forall2 (cell_ok n cv) fs gs).
    { revert F Hfs. clear. intros F Hfs. induction F as [|a b l l' Hab F IH]; [contradiction|]. destruct Hfs as [->|Hfs]; eauto. }
    destruct X as (gs & _ & Pm & F2). split; [exact Pm|]. right. intros f Hf.
    assert (Y : exists g0, cell_ok n cv f g0). { revert F2 Hf. clear. intros F Hf. induction F as [|a b l l' Hab F IH]; [contradiction|]. destruct Hf as [->|Hf]; eauto. }
    destruct Y as (g0 & A1 & A2 & A3 & A4 & A5 & A6 & _). split; [apply sorted_lt_nodup; exact A1|]. intros i Hi. split; [apply A3; apply in_or_app; auto|]. intro Hj.
    destruct cv as [|c cv]; [congruence|]. apply (A4 c i i); [left; reflexivity|assumption|assumption|reflexivity].
  - destruct (resampling _ _ _ _ _) as [sm|e] eqn:E; [|discriminate]. unfold assign in H. apply pair_equal_spec in H. destruct H as [<- _]. intros sm' Es. cbn in Es. injection Es as <-.
    destruct (draws _ _ _ _ _ _ Hg E) as (L1 & F). split; [exact L1|]. intros fs Hfs. destruct (F fs Hfs) as (A & (B1 & B2) & _). split; [|intros _; exact A].
    split; [exact B1|]. right. intros f Hf. destruct (B2 f Hf) as (S1 & S2 & S3). split; [apply sorted_lt_nodup; exact S1|]. intros i Hi. apply S3. exact Hi.
Qed.
Lemma nat_rows k : map Z.to_nat (all_rows k) = seq 0 k.
Proof. unfold all_rows. rewrite map_map. rewrite <- (map_id (seq 0 k)) at 2. apply map_ext. intro. apply Nat2Z.id. Qed.
Lemma flat_nf fs : flat_map snd (map nf fs) = map Z.to_nat (flat_map snd fs).
Proof. induction fs as [|f fs IH]; [reflexivity|]. cbn [map flat_map]. rewrite map_app, IH. reflexivity. Qed.
Lemma sorted_flat a b : Forall2 sorted_of a b -> Permutation (flat_map snd a) (flat_map snd b).
Proof. induction 1 as [|x y a b (A & B & _) F IH]; [constructor|]. cbn. now apply Permutation_app. Qed.
Lemma nf_inj l k : rows_ok k l -> NoDup (map Z.to_nat l).
Proof.
  intros [Nd B]. induction l as [|z l IH]; [constructor|]. inversion Nd as [|? ? Nz Nd']; subst. cbn. constructor; [|apply IH; [exact Nd'|intros; apply B; right; assumption]].
  intro H. apply in_map_iff in H. destruct H as (y & E & Hy). pose proof (B z (or_introl eq_refl)). pose proof (B y (or_intror Hy)). assert (y = z) by lia. congruence.
Qed.
Lemma accepted_ok s ck fs : check_sample_splitting n s = Ok ck -> In fs (map (map nf) (ck_smpls ck)) -> valid_rep n fs /\ length fs = ck_n_folds ck.
Proof.
  intros E Hfs. destruct (accept_sound _ _ _ E) as (reps & (_ & G) & F & L1 & L2).
  apply in_map_iff in Hfs. destruct Hfs as (zs & <- & Hz).
  assert (X : exists rp, In rp reps /\ Forall2 sorted_of rp zs).
  { clear - F Hz. induction F as [|a b l l' Hab F IH]; [contradiction|]. destruct Hz as [->|Hz]; [exists a; split; [left; reflexivity|exact Hab]|]. destruct (IH Hz) as (rp & A & B). exists rp. split; [right; exact A|exact B]. }
  destruct X as (rp & Hrp & Fz). split; [|rewrite map_length, <- (Forall2_len _ _ _ Fz); symmetry; apply L2; exact Hrp].
  destruct G as [(_ & tr & te & -> & P1 & P2)|(_ & _ & G)].
  - destruct Hrp as [<-|[]]. inversion Fz as [|x [tr' te'] ? ? (A & B & _) F0 E1]; subst. inversion F0; subst. cbn [fst snd] in A, B. split.
    + cbn. rewrite app_nil_r. rewrite <- nat_rows. apply Permutation_map. now rewrite <- B.
    + left. exists (map Z.to_nat tr'), (map Z.to_nat te'). split; [reflexivity|]. rewrite <- nat_rows. apply Permutation_map. now rewrite <- A.
  - destruct (G rp Hrp) as (_ & Pm & Pf). split.
    + rewrite flat_nf, <- nat_rows. apply Permutation_map. rewrite <- (sorted_flat _ _ Fz). exact Pm.
    + right. intros f Hf. apply in_map_iff in Hf. destruct Hf as (zf & <- & Hf).
      assert (Y : exists y, In y rp /\ sorted_of y zf). { clear - Fz Hf. induction Fz as [|a b l l' Hab F IH]; [contradiction|]. destruct Hf as [->|Hf]; [exists a; split; [left; reflexivity|exact Hab]|]. destruct (IH Hf) as (y & A & B). exists y. split; [right; exact A|exact B]. }
      destruct Y as (y & Hy & S1 & S2 & _). destruct (Pf y Hy) as (R1 & R2 & Ap). apply (rows_ok_perm _ _ _ S1) in R1. apply (rows_ok_perm _ _ _ S2) in R2.
      apply (apart_perm _ _ _ _ S1 S2) in Ap. cbn [nf fst snd]. split; [eapply nf_inj; exact R1|]. intros i Hi. apply in_map_iff in Hi. destruct Hi as (z & <- & Hz'). pose proof (proj2 R1 z Hz') as Bz. split; [lia|].
      intro Hj. apply in_map_iff in Hj. destruct Hj as (z' & Ez & Hz2). pose proof (proj2 R2 z' Hz2) as Bz'. assert (z' = z) by lia. subst z'. exact (Ap z Hz' Hz2).
Qed.
Lemma keep_split (w w' : world P) : m_smpls (w_obj w') = m_smpls (w_obj w) -> m_n_rep (w_obj w') = m_n_rep (w_obj w) -> m_n_folds (w_obj w') = m_n_folds (w_obj w) -> split_ok w -> split_ok w'.
Proof. unfold split_ok. intros -> -> ->. auto. Qed.
Lemma op_split o w : wf C w -> good_op o -> split_ok w -> split_ok (fst (run_op C o w)).
Proof.
  intros W Go So. destruct o as [nj st ext sm|g perm|s sc|l t v|wt mt nb|ppf mi a b c d e]; cbn [run_op].
  - destruct (fe_split _ _ _ _ (fit_ends C nj st ext sm w W)) as (A & B & _ & D & _). now apply (keep_split w).
  - destruct (draw_sample_splitting C g perm w) as [w' [[]|e]] eqn:E; [destruct Go; eapply drawn_ok; eassumption|].
    destruct (draw_inv C g perm w) as [(sm & sc & E1 & _)|(e1 & E1)]; rewrite E in E1; [discriminate|]. apply pair_equal_spec in E1. destruct E1 as [-> _]. exact So.
  - destruct (set_inv C s sc w) as [(ck & sc' & E1 & E2 & E)|(e & E)]; rewrite E; cbn [fst]; [|exact So].
    intros sm Es. cbn in Es. injection Es as <-. cbn [set_result fresh w_obj with_params with_arrays with_split m_n_rep m_n_folds]. destruct (accept_sound _ _ _ E1) as (reps & _ & F & L1 & L2).
    split; [rewrite map_length, L1; symmetry; exact (Forall2_len _ _ _ F)|]. intros fs Hfs. destruct (accepted_ok _ _ _ E1 Hfs). auto.
  - destruct (params_inv C l t v w) as [(ps & E & _)|(e & E & _)]; rewrite E; cbn [fst]; [|exact So]. now apply (keep_split w).
  - destruct (method_ev C (bootstrap_m wt mt nb) w (boot_keeps wt mt nb) W) as (_ & _ & Eo & _). unfold obj_bootstrap. apply (keep_split w); try exact So; now rewrite Eo.
  - destruct (method_ev C (sensitivity_analysis_m ppf mi a b c d e) w (sens_keeps ppf mi a b c d e) W) as (_ & _ & Eo & _). unfold obj_sensitivity. apply (keep_split w); try exact So; now rewrite Eo.
Qed.
Lemma splits_valid nf nr dr g perm w0 ops : shuffles g -> perm_ok perm -> new_object C nf nr dr g perm = Ok w0 -> (forall o, In o ops -> good_op o) -> split_ok (run C ops w0).
Proof.
  intros Hg Hp E Ho. assert (W0 : wf C w0 /\ split_ok w0).
  { split; [apply new_inv in E; apply E|]. unfold new_object in E.
    destruct (construct _ _ _ _ _ _ _) as [w1 [u|e]] eqn:Ec; [|discriminate]. injection E as ->. unfold construct in Ec.
    do 4 (apply andthen_ok in Ec; destruct Ec as (? & ? & E1 & Ec); unfold lift in E1; apply pair_equal_spec in E1; destruct E1 as [<- _]). cbv zeta in Ec.
    apply andthen_ok in Ec. destruct Ec as (w2 & [] & E2 & Ec). unfold assign in E2. apply pair_equal_spec in E2. destruct E2 as [E2 _].
    apply andthen_ok in Ec. destruct Ec as (w3 & [] & E3 & Ec). change ((initialize_arrays C;;; initialize_params) w3) with (init_both C w3) in Ec. rewrite init_both_eq in Ec.
    assert (w0 = fresh C w3) as -> by congruence. apply (keep_split w3); try reflexivity.
    assert (D : (w3 = w2) \/ draw_sample_splitting C g perm w2 = (w3, Ok tt)).
    { destruct dr as [| |[|]| | | |]; try (left; unfold ret in E3; congruence); right; exact E3. }
    destruct D as [->|D]; [|eapply drawn_ok; eassumption]. intros sm Es. rewrite <- E2 in Es. discriminate. }
  clear E. destruct W0 as [W S0]. revert w0 W S0. induction ops as [|o ops IH]; intros w0 W S0; [exact S0|]. cbn [run]. apply IH.
  - intros o' H'. apply Ho. right. exact H'.
  - apply op_step. exact W.
  - apply op_split; auto. apply Ho. left. reflexivity.
Qed.
End Obj.

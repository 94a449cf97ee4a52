(** Constructor characterisation and closure of framework expressions. *)
From Verif Require Export L_FwConcat.
Local Open Scope R_scope.

Lemma check_cluster_iff d : is_ok (check_cluster d) = true <-> cluster_consistent d.
Proof.
  unfold check_cluster, cluster_consistent. destruct (k_is_cluster d) as [| |[|]]; cbn.
  - split; auto.
  - split; [discriminate|]. intros [H|[H|[H _]]]; discriminate.
  - destruct (k_cluster d) as [| |c]; cbn.
    + split; [discriminate|]. intros [H|[H|[_ [c [H _]]]]]; discriminate.
    + split; [discriminate|]. intros [H|[H|[_ [c [H _]]]]]; discriminate.
    + destruct c as [a b v k]; cbn. split.
      * intro H. right. right. split; [reflexivity|]. exists {| ci_smpls := a; ci_smpls_cluster := b; ci_vars := v; ci_n_folds_per_cluster := k |}. cbn.
        destruct a, b, v, k; cbn in H; try discriminate. repeat split; congruence.
      * intros [H|[H|[_ [c [H C]]]]]; try discriminate. injection H as <-. cbn in C. destruct C as (C1 & C2 & C3 & C4).
        destruct a, b, v, k; cbn; congruence.
  - split; auto.
Qed.
Lemma check_sens_consistent d n nt nr se : check_sens d = Ok se -> sens_shapes_prop n nt nr se -> sens_consistent n nt nr (k_sens d).
Proof.
  unfold check_sens, sens_consistent. destruct (k_sens d) as [| |s]; intros H Hs; [left; reflexivity|discriminate|].
  right. exists s. split; [reflexivity|]. inv_ok.
  destruct (si_max_bias s) as [| |mb]; try discriminate. destruct (si_psi_max_bias s) as [| |pmb]; try discriminate.
  cbn [need_array] in *. inv_ok. subst. destruct (Hs _ eq_refl) as (S1 & S2 & S3). cbn [se_max_bias se_psi_max_bias se_bench] in *.
  split; [eexists; split; [reflexivity|]; congruence|]. split; [eexists; split; [reflexivity|]; congruence|].
  match goal with H : check_benchmark _ = _ |- _ => unfold check_benchmark in H end.
  destruct (si_sigma2 s) as [| |s2]; cbn [present andb] in *; [left; reflexivity| |];
    destruct (si_nu2 s) as [| |n2]; cbn [present andb need_array bind] in *; try discriminate; try (right; left; reflexivity).
  inv_ok. subst. destruct (S3 _ _ eq_refl) as [T1 T2].
  match goal with H : negb _ = true |- _ => apply negb_true_iff in H; apply orb_false_iff in H; destruct H as [Ha Hb] end.
  rewrite any_neg_false in Ha, Hb. right. right. repeat split; eexists; split; try reflexivity; assumption.
Qed.
Lemma sens_consistent_check d n nt nr : sens_consistent n nt nr (k_sens d) ->
  exists se, check_sens d = Ok se /\ sens_shapes_prop n nt nr se.
Proof.
  unfold sens_consistent, check_sens. intros [E|(s & E & (mb & E1 & S1) & (pmb & E2 & S2) & Hb)]; rewrite E.
  - exists None. split; [reflexivity|]. intros e He; discriminate.
  - rewrite E1, E2. cbn [present andb require need_array bind]. unfold check_benchmark.
    destruct Hb as [B|[B|((s2 & B1 & T1) & (n2 & B2 & T2) & (s2' & B1' & P1) & (n2' & B2' & P2))]].
    + rewrite B. cbn. eexists. split; [reflexivity|]. intros e He. injection He as <-. cbn. repeat split; auto; discriminate.
    + rewrite B. rewrite andb_false_r. cbn. eexists. split; [reflexivity|]. intros e He. injection He as <-. cbn. repeat split; auto; discriminate.
    + rewrite B1 in B1'. injection B1' as <-. rewrite B2 in B2'. injection B2' as <-. rewrite B1, B2. cbn [present andb need_array bind].
      rewrite (proj2 (any_neg_false s2) P1), (proj2 (any_neg_false n2) P2). cbn.
      eexists. split; [reflexivity|]. intros e He. injection He as <-. cbn. split; [assumption|]. split; [assumption|].
      intros a b Hab. injection Hab as <- <-. auto.
Qed.

Lemma constructor_iff d : is_ok (mk_framework (Some d)) = true <-> consistent_dict d.
Proof.
  split.
  - destruct (mk_framework (Some d)) as [f|] eqn:E; [|discriminate]. intros _.
    destruct (mk_fw_inv d f E) as [W (F1 & F2 & F3 & F4 & F5 & F6 & _ & _ & _ & F7 & F8 & F9 & _)].
    exists (fw_n_obs f), (fw_n_thetas f), (fw_n_rep f).
    split; [eexists; split; [exact F1|apply (wf_thetas f W)]|].
    split; [eexists; split; [exact F2|apply (wf_ses f W)]|].
    split; [eexists; split; [exact F3|apply (wf_all_thetas f W)]|].
    split; [eexists; split; [exact F4|apply (wf_all_ses f W)]|].
    split; [eexists; split; [exact F5|apply (wf_vs f W)]|].
    split; [eexists; split; [exact F6|apply (wf_psi f W)]|].
    split; [apply check_cluster_iff; rewrite F7; reflexivity|]. split.
    + eapply check_sens_consistent; [exact F8|]. intros e He. destruct (wf_sens f W e He) as (A & B & C).
      split; [exact A|]. split; [exact B|]. intros s2 n2 H. destruct (C s2 n2 H) as (P & Q & _). auto.
    + unfold names_consistent. unfold check_names in F9. destruct (k_names d) as [| |l]; [left; reflexivity|discriminate|].
      right. destruct (all_some l) as [names|] eqn:El; [|discriminate]. apply all_some_ok in El. inv_ok.
      exists names. split; [congruence|]. match goal with H : Nat.eqb _ _ = true |- _ => apply Nat.eqb_eq in H; exact H end.
  - intros (n & nt & nr & (th & E1 & S1) & (ses & E2 & S2) & (ath & E3 & S3) & (ases & E4 & S4) & (vs & E5 & S5) & (psi & E6 & S6) & Hc & Hs & Hn).
    destruct (check_cluster d) as [cl|] eqn:Ec.
    2:{ apply check_cluster_iff in Hc. rewrite Ec in Hc. discriminate. }
    destruct (sens_consistent_check d n nt nr Hs) as (se & Es & Ss).
    assert (En : exists nm, check_names nt (k_names d) = Ok nm).
    { unfold check_names. destruct Hn as [->|(l & -> & Hl)]; [eexists; reflexivity|].
      rewrite (proj2 (all_some_ok (map Some l) l) eq_refl). rewrite Hl, Nat.eqb_refl. eexists; reflexivity. }
    destruct En as [nm En].
    rewrite (mk_fw_ok d th ses ath ases vs psi n nt nr cl se nm); auto.
Qed.

(** ** Closure of expressions *)
Lemma comb_inv op env n nr v w a b fa fb : expr_inv env n nr v w a fa -> expr_inv env n nr v w b fb ->
  exists h, combine_fw op fa (OpFw fb) = Ok h /\ fw_wf h /\ fw_cluster h = None /\ fw_n_obs h = n /\ fw_n_rep h = nr /\ fw_n_thetas h = w /\
    (forall t, (t < w)%nat -> at_ (fw_vs h) [t] = v) /\
    (forall t r, at_ (fw_all_thetas h) [t; r] = op (at_ (fw_all_thetas fa) [t; r]) (at_ (fw_all_thetas fb) [t; r])) /\
    (forall i t r, at_ (fw_scaled_psi h) [i; t; r] = op (at_ (fw_scaled_psi fa) [i; t; r]) (at_ (fw_scaled_psi fb) [i; t; r])).
Proof.
  intros (W1 & C1 & O1 & R1 & T1 & V1 & _) (W2 & C2 & O2 & R2 & T2 & V2 & _).
  exists (comb_result op fa fb). split.
  - apply combine_fw_ok; auto. split; [congruence|]. split; [congruence|]. split; [congruence|]. split; [congruence|].
    intros t Ht. apply vs_equal_close; [|exact Ht]. intros s Hs. rewrite V1, V2 by lia. reflexivity.
  - split; [apply comb_wf; exact W1|]. repeat split; auto.
Qed.
Lemma comb_width_err op fa fb : fw_wf fa -> fw_wf fb -> fw_n_obs fa = fw_n_obs fb -> fw_n_rep fa = fw_n_rep fb ->
  fw_n_thetas fa <> fw_n_thetas fb -> combine_fw op fa (OpFw fb) = Err ValueError.
Proof.
  intros W1 W2 O R T. unfold combine_fw. rewrite (wf_check _ W1), (wf_check _ W2). cbn [bind].
  unfold check_compat. rewrite O, R, !Nat.eqb_refl. cbn [require]. apply Nat.eqb_neq in T. rewrite T. reflexivity.
Qed.

Lemma expr_closed env n nr v : same_sample env n nr v -> forall e,
  match width (fun k => fw_n_thetas (env k)) e with
  | Some w => exists h, run_expr env e = Ok h /\ expr_inv env n nr v w e h
  | None => run_expr env e = Err ValueError
  end.
Proof.
  intro Henv. set (wd := fun k => fw_n_thetas (env k)).
  induction e as [k|a IHa b IHb|a IHa b IHb|c a IHa|a IHa b IHb]; cbn [width].
  - destruct (Henv k) as (W & C & O & R0 & V). exists (env k). split; [reflexivity|].
    unfold expr_inv. refine (conj W (conj C (conj O (conj R0 (conj eq_refl (conj V (conj _ _))))))); intros; reflexivity.
  - destruct (width wd a) as [wa|]; [|cbn; rewrite IHa; reflexivity]. destruct IHa as (fa & Ea & Ia).
    destruct (width wd b) as [wb|]; [|cbn; rewrite Ea; cbn; rewrite IHb; reflexivity]. destruct IHb as (fb & Eb & Ib).
    cbn [run_expr]. rewrite Ea, Eb. cbn [bind]. destruct (Nat.eqb_spec wa wb) as [->|Hne].
    + destruct (comb_inv Rplus env n nr v wb a b fa fb Ia Ib) as (h & Eh & W & C & O & R0 & T & V & P & Q).
      exists h. split; [exact Eh|]. unfold expr_inv. repeat (split; [assumption|]).
      destruct Ia as (_ & _ & _ & _ & _ & _ & Pa & Qa), Ib as (_ & _ & _ & _ & _ & _ & Pb & Qb).
      split; intros; cbn [denote]; [rewrite P, Pa, Pb by assumption|rewrite Q, Qa, Qb by assumption]; reflexivity.
    + destruct Ia as (Wa & _ & Oa & Ra & Ta & _), Ib as (Wb & _ & Ob & Rb & Tb & _). apply comb_width_err; congruence.
  - destruct (width wd a) as [wa|]; [|cbn; rewrite IHa; reflexivity]. destruct IHa as (fa & Ea & Ia).
    destruct (width wd b) as [wb|]; [|cbn; rewrite Ea; cbn; rewrite IHb; reflexivity]. destruct IHb as (fb & Eb & Ib).
    cbn [run_expr]. rewrite Ea, Eb. cbn [bind]. destruct (Nat.eqb_spec wa wb) as [->|Hne].
    + destruct (comb_inv Rminus env n nr v wb a b fa fb Ia Ib) as (h & Eh & W & C & O & R0 & T & V & P & Q).
      exists h. split; [exact Eh|]. unfold expr_inv. repeat (split; [assumption|]).
      destruct Ia as (_ & _ & _ & _ & _ & _ & Pa & Qa), Ib as (_ & _ & _ & _ & _ & _ & Pb & Qb).
      split; intros; cbn [denote]; [rewrite P, Pa, Pb by assumption|rewrite Q, Qa, Qb by assumption]; reflexivity.
    + destruct Ia as (Wa & _ & Oa & Ra & Ta & _), Ib as (Wb & _ & Ob & Rb & Tb & _). apply comb_width_err; congruence.
  - destruct (width wd a) as [wa|]; [|cbn; rewrite IHa; reflexivity]. destruct IHa as (fa & Ea & Ia).
    destruct Ia as (Wa & Ca & Oa & Ra & Ta & Va & Pa & Qa).
    exists (mul_result c fa). cbn [run_expr]. rewrite Ea. cbn [bind]. split; [apply fw_mul_ok; auto|].
    unfold expr_inv. split; [apply mul_wf; exact Wa|]. cbn [mul_result fw_cluster fw_n_obs fw_n_rep fw_n_thetas fw_vs].
    repeat (split; [assumption|]).
    split; intros; cbn [denote mul_result fw_all_thetas fw_scaled_psi nd_map at_]; [rewrite Pa by assumption|rewrite Qa by assumption]; reflexivity.
  - destruct (width wd a) as [wa|] eqn:Ewa; [|cbn; rewrite IHa; reflexivity]. destruct IHa as (fa & Ea & Ia).
    destruct (width wd b) as [wb|] eqn:Ewb; [|cbn; rewrite Ea; cbn; rewrite IHb; reflexivity]. destruct IHb as (fb & Eb & Ib).
    destruct Ia as (Wa & Ca & Oa & Ra & Ta & Va & Pa & Qa), Ib as (Wb & Cb & Ob & Rb & Tb & Vb & Pb & Qb).
    cbn [run_expr]. rewrite Ea, Eb. cbn [bind].
    destruct (concat_ok [fa; fb]) as (h & Eh & W & C).
    { discriminate. }
    { intros g [<-|[<-|[]]]; auto. }
    { intros x y [<-|[<-|[]]] [<-|[<-|[]]]; split; congruence. }
    exists h. split; [exact Eh|].
    destruct (co_dims _ _ C fa (or_introl eq_refl)) as [D1 D2].
    assert (T : fw_n_thetas h = (wa + wb)%nat) by (rewrite (co_n_thetas _ _ C); cbn; lia).
    assert (X : forall t, (t < wa)%nat -> _) by (intros t Ht; exact (co_vals _ _ C 0%nat fa t eq_refl ltac:(lia))).
    assert (Y : forall t, (t < wb)%nat -> _) by (intros t Ht; exact (co_vals _ _ C 1%nat fb t eq_refl ltac:(lia))).
    assert (B1 : block [fa; fb] 1 = wa) by (unfold block; cbn; lia).
    unfold expr_inv. split; [exact W|]. split; [apply (co_cluster _ _ C)|]. split; [congruence|]. split; [congruence|]. split; [exact T|].
    assert (Z : forall t, (t < wa + wb)%nat -> (t < wa)%nat \/ exists s, t = (wa + s)%nat /\ (s < wb)%nat).
    { intros t Ht. destruct (Nat.lt_ge_cases t wa); [auto|]. right. exists (t - wa)%nat. lia. }
    split; [|split].
    + intros t Ht. destruct (Z t Ht) as [H|(s & -> & H)].
      * destruct (X t H) as (_ & _ & E & _). cbn [block firstn map list_sum fold_right Nat.add] in E. rewrite E. apply Va; exact H.
      * destruct (Y s H) as (_ & _ & E & _). rewrite B1 in E. rewrite E. apply Vb; exact H.
    + intros t r Ht. cbn [denote]. fold wd. rewrite Ewa. destruct (Z t Ht) as [H|(s & -> & H)].
      * destruct (X t H) as (_ & _ & _ & E & _). unfold block in E. cbn in E. rewrite E. rewrite (proj2 (Nat.ltb_lt t wa) H). apply Pa; exact H.
      * destruct (Y s H) as (_ & _ & _ & E & _). rewrite B1 in E. rewrite E.
        destruct (Nat.ltb_spec (wa + s) wa); [lia|]. replace (wa + s - wa)%nat with s by lia. apply Pb; exact H.
    + intros i t r Ht. cbn [denote]. fold wd. rewrite Ewa. destruct (Z t Ht) as [H|(s & -> & H)].
      * destruct (X t H) as (_ & _ & _ & _ & _ & E). unfold block in E. cbn in E. rewrite E. rewrite (proj2 (Nat.ltb_lt t wa) H). apply Qa; exact H.
      * destruct (Y s H) as (_ & _ & _ & _ & _ & E). rewrite B1 in E. rewrite E.
        destruct (Nat.ltb_spec (wa + s) wa); [lia|]. replace (wa + s - wa)%nat with s by lia. apply Qb; exact H.
Qed.

(** Incompatible operands raise. *)
Lemma combine_incompatible op f o : (forall g, o = OpFw g -> fw_n_obs f <> fw_n_obs g \/ fw_n_rep f <> fw_n_rep g \/
    fw_n_thetas f <> fw_n_thetas g \/ is_some (fw_cluster f) <> is_some (fw_cluster g)) ->
  is_ok (combine_fw op f o) = false.
Proof.
  intro H. destruct (combine_fw op f o) as [h|] eqn:E; [|reflexivity].
  apply combine_fw_inv in E. destruct E as (g & -> & _ & _ & (A & B & C & D & _) & _).
  destruct (H g eq_refl) as [X|[X|[X|X]]]; congruence.
Qed.
Lemma concat_incompatible objs : (objs = [] \/ In OpOther objs \/
   (exists f g, In (OpFw f) objs /\ In (OpFw g) objs /\ (fw_n_obs f <> fw_n_obs g \/ fw_n_rep f <> fw_n_rep g)) \/
   (exists f, In (OpFw f) objs /\ fw_cluster f <> None)) -> is_ok (fw_concat objs) = false.
Proof.
  intro H. destruct (fw_concat objs) as [h|] eqn:E; [|reflexivity]. exfalso.
  apply concat_inv in E. destruct E as (fs & -> & Hn & Hc & Hcl).
  assert (I : forall f, In (OpFw f) (map OpFw fs) -> In f fs).
  { intros f Hf. apply in_map_iff in Hf. destruct Hf as (x & Ex & Hx). injection Ex as ->. exact Hx. }
  destruct H as [H|[H|[(f & g & Hf & Hg & H)|(f & Hf & H)]]].
  - destruct fs; [congruence|discriminate].
  - apply in_map_iff in H. destruct H as (x & Ex & _). discriminate.
  - destruct (Hc f g (I f Hf) (I g Hg)). destruct H; congruence.
  - apply H, (Hcl f (I f Hf)).
Qed.

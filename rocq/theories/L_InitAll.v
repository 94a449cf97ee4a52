(** Constructor calls on data with or without cluster variables: the
    sample-splitting arguments, the drawn split and the errors. *)
From Verif Require Import L_DataProps L_ClusterSplit.
From Verif Require Export S_InitSplit L_InitSplit.
From Coq Require Import Lia Lra Permutation.
Local Open Scope R_scope.
Local Open Scope res_scope.
Local Open Scope string_scope.

Lemma nodup_map_in {A B} (g : A -> B) l : (forall a b, In a l -> In b l -> g a = g b -> a = b) -> NoDup l -> NoDup (map g l).
Proof.
  intros Inj N. induction N as [|a l Ha N IH]; cbn; constructor.
  - intro H. apply in_map_iff in H as (b & Eb & Hb). apply Ha. rewrite (Inj a b); [exact Hb|left; reflexivity|right; exact Hb|congruence].
  - apply IH. intros; apply Inj; auto; right; assumption.
Qed.
Lemma codes_distinct n v : length (np_unique (map (value_codes v) (seq 0 n))) = distinct_values n v.
Proof.
  unfold distinct_values. set (g := fun z => v (Z.to_nat z)). assert (G : forall i, g (value_codes v i) = v i).
  { intro i. unfold g, value_codes. rewrite Nat2Z.id. apply (first_row_spec v (v i) i 0 eq_refl). }
  assert (I : forall z, In z (np_unique (map (value_codes v) (seq 0 n))) -> exists i, In i (seq 0 n) /\ z = value_codes v i) by (intros z H; apply np_unique_in, in_map_iff in H as (i & <- & H); eauto).
  rewrite <- (map_length g). apply Permutation_length, NoDup_Permutation.
  - apply nodup_map_in; [|apply np_unique_nodup]. intros a b Ha Hb. apply I in Ha as (i & _ & ->). apply I in Hb as (j & _ & ->). rewrite !G. intro H. apply value_codes_eq, H.
  - apply NoDup_nodup.
  - intro x. rewrite nodup_In, !in_map_iff. split.
    + intros (z & <- & H). apply I in H as (i & Hi & ->). exists i. rewrite G. auto.
    + intros (i & <- & Hi). exists (value_codes v i). split; [apply G|]. apply np_unique_in, in_map, Hi.
Qed.

Section Splits.
Context {P : Type}.
Variable rd : randomness.
Variable f : M_Data.frame.
Variable s : M_Data.ddata.
Let n := M_Data.frows f.
Section Clustered.
Variable cs : list string.
Hypothesis Cl : M_Data.c_cl s = Some cs.
Let codes := map (fun c => value_codes (col f c)) cs.

Lemma base_cluster : c_cluster (@base_ctx P f s) = Some codes /\ c_n (@base_ctx P f s) = n.
Proof. unfold base_ctx, with_clusters. rewrite Cl. cbn [option_map]. split; reflexivity. Qed.
Lemma strata_cluster v : c_cluster (@strata_ctx P f s v) = Some codes /\ c_n (@strata_ctx P f s v) = n.
Proof. unfold strata_ctx, with_clusters. rewrite Cl. cbn [option_map]. split; reflexivity. Qed.
Lemma codes_defined nf nr perm : (1 <= nr)%nat -> (exists p, cluster_resampling nf nr n codes perm = Ok p) <-> forall c, In c cs -> (2 <= nf <= distinct_values n (col f c))%nat.
Proof.
  intro Hr. rewrite (cluster_defined nf nr n codes perm ltac:(lia)). unfold codes. split; intros H c Hc.
  - rewrite <- codes_distinct. apply H, in_map_iff. exists c. auto.
  - apply in_map_iff in Hc as (c' & <- & Hc). rewrite codes_distinct. apply H, Hc.
Qed.
(** A successful construction, step by step. *)
Lemma base_cl_inv nf nr dr w : @base_new P rd f s nf nr dr = Ok w ->
  is_int nf = true /\ (1 <= int_val nf)%Z /\ is_int nr = true /\ (1 <= int_val nr)%Z /\ (length cs <= 2)%nat /\
  exists b, dr = PBool b /\ m_n_rep (w_obj w) = Z.to_nat (int_val nr) /\ m_nfpc (w_obj w) = Z.to_nat (int_val nf) /\
  (b = true -> exists sm sc, cluster_resampling (Z.to_nat (int_val nf)) (Z.to_nat (int_val nr)) n codes (rd_perm0 rd) = Ok (sm, sc) /\ m_smpls (w_obj w) = Some sm /\ m_smpls_cluster (w_obj w) = Some sc).
Proof.
  unfold base_new, new_object. match goal with |- context [construct _ _ _ _ _ _ ?x] => set (w0 := x) end.
  destruct (construct _ nf nr dr _ _ w0) as [w1 [u|e]] eqn:Ec; [|discriminate]. intro H. apply ok_inj in H. subst w1. destruct base_cluster as (Bc & Bn).
  unfold construct in Ec. rewrite Bc in Ec.
  apply andthen_ok in Ec. destruct Ec as (w1 & [] & E1 & Ec). unfold lift in E1. apply pair_equal_spec in E1 as (<- & Q1). apply require_ok in Q1 as (Q1 & _). apply Nat.leb_le in Q1. unfold codes in Q1. rewrite map_length in Q1.
  apply andthen_ok in Ec. destruct Ec as (w1 & [] & E1 & Ec). unfold lift in E1. apply pair_equal_spec in E1 as (<- & Q2). apply require_ok in Q2 as (Q2 & Q3). apply require_ok in Q3 as (Q3 & _). apply Z.leb_le in Q3.
  apply andthen_ok in Ec. destruct Ec as (w1 & [] & E1 & Ec). unfold lift in E1. apply pair_equal_spec in E1 as (<- & Q4). apply require_ok in Q4 as (Q4 & Q5). apply require_ok in Q5 as (Q5 & _). apply Z.leb_le in Q5.
  apply andthen_ok in Ec. destruct Ec as (w1 & [] & E1 & Ec). unfold lift in E1. apply pair_equal_spec in E1 as (<- & Q6). apply require_ok in Q6 as (Q6 & _).
  cbv zeta in Ec. apply andthen_ok in Ec. destruct Ec as (w2 & [] & E2 & Ec). unfold assign in E2. apply pair_equal_spec in E2. destruct E2 as [E2 _].
  apply andthen_ok in Ec. destruct Ec as (w3 & [] & E3 & Ec).
  assert (Q7 : w = fresh (@base_ctx P f s) w3) by (pose proof (init_both_eq (@base_ctx P f s) w3) as I; unfold init_both in I; rewrite Ec in I; apply pair_equal_spec in I as [-> _]; reflexivity).
  do 5 (split; [assumption|]). destruct dr as [| |b| | | |]; try discriminate. exists b. split; [reflexivity|].
  assert (M2 : m_n_rep (w_obj w2) = Z.to_nat (int_val nr) /\ m_nfpc (w_obj w2) = Z.to_nat (int_val nf)) by (rewrite <- E2; split; reflexivity). destruct M2 as (M2 & M2').
  destruct b.
  - unfold draw_sample_splitting in E3. rewrite Bc, Bn in E3. unfold andthen at 1, lift at 1 in E3. unfold andthen, lift in E3. cbv zeta in E3. rewrite M2, M2' in E3.
    destruct (cluster_resampling _ _ n codes (rd_perm0 rd)) as [[sm sc]|e] eqn:D; [|discriminate]. unfold assign in E3. apply pair_equal_spec in E3 as [E3 _]. rewrite Q7, <- E3.
    split; [exact M2|]. split; [exact M2'|]. intros _. exists sm, sc. split; [reflexivity|]. split; reflexivity.
  - unfold ret in E3. apply pair_equal_spec in E3 as [<- _]. rewrite Q7. split; [exact M2|]. split; [exact M2'|discriminate].
Qed.
Lemma base_cl_args nf nr dr : succeeds (@base_new P rd f s nf nr dr) <-> clustered_split_args f cs nf nr dr.
Proof.
  split.
  - intros (w & H). destruct (base_cl_inv _ _ _ _ H) as (A1 & A2 & A3 & A4 & A5 & b & Eb & _ & _ & D). do 5 (split; [assumption|]). exists b. split; [exact Eb|]. intro Q. destruct (D Q) as (sm & sc & D' & _).
    apply (proj1 (codes_defined _ (Z.to_nat (int_val nr)) (rd_perm0 rd) ltac:(lia))). eauto.
  - intros (A1 & A2 & A3 & A4 & A5 & b & -> & D). unfold succeeds, base_new, new_object, construct. destruct base_cluster as (Bc & Bn). rewrite Bc, A1, A3.
    assert (K : Nat.leb (length codes) 2 = true) by (apply Nat.leb_le; unfold codes; rewrite map_length; exact A5). rewrite K.
    replace (1 <=? int_val nf)%Z with true by (symmetry; apply Z.leb_le, A2). replace (1 <=? int_val nr)%Z with true by (symmetry; apply Z.leb_le, A4). cbn [require is_bool].
    do 4 (unfold andthen at 1, lift at 1). cbv zeta. unfold andthen at 1, assign at 1. unfold andthen at 1. destruct b.
    + destruct (proj2 (codes_defined _ (Z.to_nat (int_val nr)) (rd_perm0 rd) ltac:(lia)) (D eq_refl)) as ((sm & sc) & D'). unfold draw_sample_splitting. rewrite Bc, Bn. unfold andthen at 1, lift at 1. unfold andthen at 1, lift at 1. cbn [w_obj m_nfpc m_n_rep with_spec]. rewrite D'.
      unfold assign. match goal with |- context [(_ ;;; _) ?w] => pose proof (init_both_eq (@base_ctx P f s) w) as I; unfold init_both in I; rewrite I end. eexists; reflexivity.
    + unfold ret. match goal with |- context [(_ ;;; _) ?w] => pose proof (init_both_eq (@base_ctx P f s) w) as I; unfold init_both in I; rewrite I end. eexists; reflexivity.
Qed.
Lemma redraw_cl nf nr dr w v : @base_new P rd f s nf nr dr = Ok w ->
  exists w', redraw rd f s v dr w = Ok w' /\ m_n_rep (w_obj w') = Z.to_nat (int_val nr) /\
  (dr = PBool true -> exists sm sc, cluster_resampling (Z.to_nat (int_val nf)) (Z.to_nat (int_val nr)) n codes (rd_perm rd) = Ok (sm, sc) /\ m_smpls (w_obj w') = Some sm /\ m_smpls_cluster (w_obj w') = Some sc).
Proof.
  intro B. destruct (base_cl_inv _ _ _ _ B) as (A1 & A2 & A3 & A4 & A5 & b & -> & Mr & Mf & D). unfold redraw. rewrite Cl. cbn [option_map require]. destruct b.
  - destruct (D eq_refl) as (sm0 & sc0 & D0 & _). assert (Q := proj1 (codes_defined _ (Z.to_nat (int_val nr)) (rd_perm0 rd) ltac:(lia)) (ex_intro _ _ D0)).
    destruct (proj2 (codes_defined _ (Z.to_nat (int_val nr)) (rd_perm rd) ltac:(lia)) Q) as ((sm & sc) & D'). destruct (strata_cluster v) as (Sc & Sn).
    unfold draw_sample_splitting. rewrite Sc, Sn. unfold andthen at 1, lift at 1. unfold andthen, lift. cbv zeta. rewrite Mr, Mf, D'. unfold assign. eexists. split; [reflexivity|]. split; [exact Mr|]. intros _. exists sm, sc. split; [reflexivity|split; reflexivity].
  - exists w. split; [reflexivity|]. split; [exact Mr|discriminate].
Qed.
Lemma codes_split nf nr perm sm sc w : perm_ok perm -> cluster_resampling (Z.to_nat (int_val nf)) (Z.to_nat (int_val nr)) n codes perm = Ok (sm, sc) ->
  m_smpls (w_obj w) = Some sm -> m_smpls_cluster (w_obj w) = Some sc -> @cluster_split_drawn P f cs nf nr w.
Proof.
  intros Pp D Es Ec. destruct (cluster_draws _ _ _ _ _ _ _ Pp D) as (L1 & L2 & F). exists sm, sc. do 4 (split; [assumption|]). clear - F.
  induction F as [|fs gs sm sc H F IH]; constructor; [|exact IH]. clear IH F. destruct H as (H1 & H2 & H3). unfold codes in H1. rewrite map_length in H1. split; [exact H1|]. split; [exact H2|]. split; [exact H3|].
  clear H1 H2. intros h i j c Hh Hi Hj Hc. induction H3 as [|h' g fs gs H H3 IH]; [destruct Hh|]. destruct Hh as [->|Hh]; [|exact (IH Hh)]. destruct H as (_ & _ & _ & Nc & _). intro Q.
  apply (Nc (value_codes (col f c)) i j); [apply in_map_iff; exists c; auto|exact Hi|exact Hj|apply value_codes_eq, Q].
Qed.
End Clustered.

Hypothesis Ar : M_Data.c_cl s = M_Data.r_cl (M_Data.dd_roles s).
Lemma base_all nf nr dr : succeeds (@base_new P rd f s nf nr dr) <-> data_split f s nf nr dr None.
Proof.
  unfold data_split. destruct (M_Data.r_cl (M_Data.dd_roles s)) as [cs|] eqn:Q; [apply base_cl_args; exact Ar|]. rewrite (@base_new_args P rd f s Ar). tauto.
Qed.
Lemma drawn_all nf nr draw v : data_split f s nf nr draw (Some v) ->
  exists w w', @base_new P rd f s nf nr draw = Ok w /\ redraw rd f s v draw w = Ok w' /\ m_n_rep (w_obj w') = Z.to_nat (int_val nr).
Proof.
  unfold data_split. destruct (M_Data.r_cl (M_Data.dd_roles s)) as [cs|] eqn:Q.
  - intro H. apply (base_cl_args cs Ar) in H as (w & B). destruct (redraw_cl cs Ar _ _ _ _ v B) as (w' & R1 & R2 & _). exists w, w'. auto.
  - intros (Sp & W). destruct (proj2 (@base_new_args P rd f s Ar nf nr draw) (split_args_base _ _ _ _ _ Sp)) as (w & B). destruct (redraw_args rd f s Ar nf nr draw w v B) as (R1 & R2).
    destruct (proj2 R1 (conj W Sp)) as (w' & Rw). exists w, w'. split; [exact B|]. split; [exact Rw|]. apply R2, Rw.
Qed.
Lemma started_all nf nr draw v w w' : @base_new P rd f s nf nr draw = Ok w -> redraw rd f s v draw w = Ok w' ->
  data_split f s nf nr draw (Some v) /\ m_n_rep (w_obj w') = Z.to_nat (int_val nr).
Proof.
  intros B Rw. unfold data_split. destruct (M_Data.r_cl (M_Data.dd_roles s)) as [cs|] eqn:Q.
  - split; [apply (base_cl_args cs Ar); exists w; exact B|]. destruct (redraw_cl cs Ar _ _ _ _ v B) as (w2 & R1 & R2 & _). rewrite Rw in R1. apply ok_inj in R1. subst w2. exact R2.
  - destruct (redraw_args rd f s Ar nf nr draw w v B) as (R1 & R2). destruct (proj1 R1 (ex_intro _ _ Rw)) as (W & Sp). split; [split; [exact Sp|exact W]|apply R2, Rw].
Qed.
End Splits.

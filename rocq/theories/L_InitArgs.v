(** Argument checks of the constructors. *)
From Verif Require Import L_DataProps.
From Verif Require Export L_Init.
From Coq Require Import Lia Lra.
Local Open Scope R_scope.
Local Open Scope res_scope.
Local Open Scope string_scope.

Lemma first_row_spec v x : forall k i, v (i + k)%nat = x -> let r := first_row v x k i in v r = x /\ (i <= r <= i + k)%nat /\ forall j, (i <= j < r)%nat -> v j <> x.
Proof.
  induction k as [|k IH]; intros i H; cbn [first_row].
  - rewrite Nat.add_0_r in H. split; [exact H|]. split; [lia|]. intros j Hj. lia.
  - destruct (Req_EM_T (v i) x) as [E|E]; [split; [exact E|]; split; [lia|intros j Hj; lia]|].
    destruct (IH (S i)) as (A & B & D); [rewrite <- H; f_equal; lia|]. split; [exact A|]. split; [lia|]. intros j Hj. destruct (Nat.eq_dec j i) as [->|N]; [exact E|]. apply D. lia.
Qed.
Lemma value_codes_eq v i j : value_codes v i = value_codes v j <-> v i = v j.
Proof.
  unfold value_codes. destruct (first_row_spec v (v i) i 0 eq_refl) as (A & B & D). destruct (first_row_spec v (v j) j 0 eq_refl) as (A' & B' & D').
  split; intro H.
  - apply Nat2Z.inj in H. rewrite <- A, H, A'. reflexivity.
  - f_equal. destruct (Nat.lt_trichotomy (first_row v (v i) i 0) (first_row v (v j) j 0)) as [L|[L|L]]; [|exact L|].
    + exfalso. apply (D' (first_row v (v i) i 0)); [lia|congruence].
    + exfalso. apply (D (first_row v (v j) j 0)); [lia|congruence].
Qed.
Lemma code_counts v i l : label_count (value_codes v) (value_codes v i) l = value_count v (v i) l.
Proof.
  unfold label_count, value_count. f_equal. apply filter_ext. intro j. destruct (Req_EM_T (v j) (v i)) as [E|E].
  - apply Z.eqb_eq, value_codes_eq, E.
  - apply Z.eqb_neq. intro H. apply E, value_codes_eq, H.
Qed.
Lemma code_count n v i : label_count (value_codes v) (value_codes v i) (seq 0 n) = rows_with n v (v i).
Proof.
  unfold label_count, rows_with. f_equal. apply filter_ext. intro j. destruct (Req_EM_T (v j) (v i)) as [E|E].
  - apply Z.eqb_eq, value_codes_eq, E.
  - apply Z.eqb_neq. intro H. apply E, value_codes_eq, H.
Qed.
Lemma whole_iff n v : all_whole n v = true <-> whole_numbers n v.
Proof.
  unfold all_whole, whole_numbers, M_Init.whole. rewrite forallb_forall. split; intros H i Hi.
  - specialize (H i ltac:(apply in_seq; lia)). destruct (Req_EM_T _ _); [eauto|discriminate].
  - apply in_seq in Hi. destruct (H i ltac:(lia)) as (z & E). rewrite E. destruct (Req_EM_T _ _) as [_|N]; [reflexivity|]. exfalso. apply N. f_equal.
    rewrite <- (up_tech (IZR z) z); [lia|lra|]. rewrite plus_IZR. lra.
Qed.

Lemma learner_value {E} (l : pylearner E) c : check_learner l true false = Ok c <-> predicts_values l /\ c = false.
Proof.
  unfold check_learner, predicts_values, estimator, require. destruct (ly_is_class l), (ly_fit l), (ly_set l), (ly_get l), (ly_predict l); cbn;
  split; try discriminate; try (intros ((( ? & ? & ? & ?) & ?) & ?); congruence). intro H. injection H as <-. repeat split.
Qed.
Lemma learner_proba {E} (l : pylearner E) c : check_learner l false true = Ok c <-> predicts_probabilities l /\ c = true.
Proof.
  unfold check_learner, predicts_probabilities, estimator, require. destruct (ly_is_class l), (ly_fit l), (ly_set l), (ly_get l), (ly_proba l); cbn;
  split; try discriminate; try (intros ((( ? & ? & ? & ?) & ?) & ?); congruence). intro H. injection H as <-. repeat split.
Qed.
Lemma learner_either {E} (l : pylearner E) c : check_learner l true true = Ok c <-> predicts_either l /\ c = ly_classifier l.
Proof.
  unfold check_learner, predicts_either, predicts_probabilities, predicts_values, estimator, require. cbn.
  destruct (ly_is_class l), (ly_fit l), (ly_set l), (ly_get l), (ly_classifier l), (ly_predict l), (ly_proba l); cbn;
  split; try discriminate; try (intros ((( ? & ? & ? & ?) & ?) & ?); congruence); intro H; injection H as <-; repeat split.
Qed.
Lemma score_iff v valid sc : check_score v valid = Ok sc <-> v = PStr sc /\ In sc valid.
Proof.
  unfold check_score, require. split.
  - destruct v as [| | |str| | |]; try discriminate. destruct (smem str valid) eqn:M; [|discriminate]. intro H. injection H as <-. split; [reflexivity|].
    apply existsb_exists in M as (z & Z & Q). apply String.eqb_eq in Q. now subst z.
  - intros (-> & M). assert (Q : smem sc valid = true) by (apply existsb_exists; exists sc; split; [exact M|apply String.eqb_refl]). rewrite Q. reflexivity.
Qed.
Lemma bool_iff v b : check_bool v = Ok b <-> v = PBool b.
Proof. destruct v; cbn; split; intro H; try discriminate; injection H as <-; reflexivity. Qed.
Lemma trimming_iff rule thr t : trimming_arg rule thr = Ok t <-> rule = PStr "truncate" /\ thr = PFloat t /\ 0 < t < 1 / 2.
Proof.
  unfold trimming_arg. split.
  - intro H. destruct (check_trimming _ thr) as [[]|e] eqn:C; cbn [bind] in H; [|discriminate]. apply check_trimming_iff in C as (A & u & -> & B). injection H as <-.
    split; [|split; [reflexivity|exact B]]. destruct rule; try discriminate. apply String.eqb_eq in A. now subst.
  - intros (-> & -> & B). replace (check_trimming _ (PFloat t)) with (@Ok unit tt); [reflexivity|]. symmetry. apply check_trimming_iff. split; [reflexivity|eauto].
Qed.
Lemma zero_one_iff f c : zero_one_col f c = true <-> S_Data.zero_one_column f c.
Proof.
  unfold zero_one_col, M_Data.col_all, S_Data.zero_one_column. rewrite forallb_forall. split; intros H i Hi.
  - specialize (H i ltac:(apply in_seq; lia)). unfold M_Data.zero_one in H. destruct (M_Data.fcell f c i) as [r| |]; try discriminate.
    destruct (Req_EM_T _ _) as [E|]; [|discriminate]. assert (Q : r * (r - 1) = 0) by lra. apply Rmult_integral in Q as [Q|Q]; [left|right]; f_equal; lra.
  - apply in_seq in Hi. unfold M_Data.zero_one. destruct (H i ltac:(lia)) as [-> | ->]; (destruct (Req_EM_T _ _) as [|N]; [reflexivity|exfalso; apply N; ring]).
Qed.
Lemma zero_one_col_binary f c : S_Data.zero_one_column f c -> binary (M_Data.frows f) (col f c).
Proof. intros H i Hi. unfold col. destruct (H i Hi) as [-> | ->]; auto. Qed.
Lemma zero_one_whole f c : S_Data.zero_one_column f c -> whole_numbers (M_Data.frows f) (col f c).
Proof. intros H i Hi. destruct (zero_one_col_binary f c H i Hi) as [-> | ->]; [now exists 0%Z|now exists 1%Z]. Qed.
Lemma sum_whole n u v : whole_numbers n u -> whole_numbers n v -> whole_numbers n (fun i => u i + 2 * v i).
Proof. intros A B i Hi. destruct (A i Hi) as (a & ->), (B i Hi) as (b & ->). exists (a + 2 * b)%Z. rewrite plus_IZR, mult_IZR. reflexivity. Qed.

Section Splits.
Context {P : Type}.
Variable rd : randomness.
Variable f : M_Data.frame.
Variable s : M_Data.ddata.
Hypothesis Cl : M_Data.c_cl s = None.
Let n := M_Data.frows f.

Lemma base_new_args nf nr dr : succeeds (@base_new P rd f s nf nr dr) <-> split_args n nf nr dr None.
Proof.
  unfold base_new, base_ctx, with_clusters. rewrite Cl. cbn [option_map]. unfold new_object, construct, succeeds, split_args. cbn [c_cluster c_n c_strata].
  unfold andthen at 1, lift at 1. cbn [require]. unfold andthen at 1, lift at 1. destruct (is_int nf) eqn:If; cbn [require]; [|split; [intros (o & H); discriminate|intros (Q & _); discriminate]].
  destruct (Z.leb_spec 1 (int_val nf)) as [Lf|Lf]; cbn [require]; [|split; [intros (o & H); discriminate|intros (_ & Q & _); lia]].
  unfold andthen at 1, lift at 1. destruct (is_int nr) eqn:Ir; cbn [require]; [|split; [intros (o & H); discriminate|intros (_ & _ & Q & _); discriminate]].
  destruct (Z.leb_spec 1 (int_val nr)) as [Lr|Lr]; cbn [require]; [|split; [intros (o & H); discriminate|intros (_ & _ & _ & Q & _); lia]].
  unfold andthen at 1, lift at 1. destruct (is_bool dr) eqn:Ib; cbn [require]; [|split; [intros (o & H); discriminate|intros (_ & _ & _ & _ & b & -> & _); discriminate]].
  destruct dr as [| |b| | | |]; try discriminate. cbv zeta. destruct b.
  - unfold andthen at 1, assign at 1. unfold andthen at 1. unfold draw_sample_splitting. cbn [c_cluster c_strata c_n]. unfold andthen at 1, lift at 1. unfold andthen at 1, lift at 1. cbn [w_obj m_n_folds m_n_rep with_spec].
    destruct (resampling (Z.to_nat (int_val nf)) (Z.to_nat (int_val nr)) (M_Data.frows f) None (rd_g0 rd)) as [sm|e] eqn:R.
    + split; [intros _|intros _; cbn; eauto]. split; [reflexivity|]. split; [exact Lf|]. split; [reflexivity|]. split; [exact Lr|]. exists true. split; [reflexivity|]. intros _.
      apply (resampling_defined (Z.to_nat (int_val nf)) (Z.to_nat (int_val nr)) n None (rd_g0 rd)); [lia|eauto].
    + split; [intros (o & H); discriminate|]. intros (_ & _ & _ & _ & b & Q & H). injection Q as <-. exfalso. specialize (H eq_refl).
      apply (resampling_defined (Z.to_nat (int_val nf)) (Z.to_nat (int_val nr)) n None (rd_g0 rd)) in H as (sm & H); [unfold n in H; congruence|lia].
  - split; [intros _|intros _; cbn; eauto]. split; [reflexivity|]. split; [exact Lf|]. split; [reflexivity|]. split; [exact Lr|]. exists false. split; [reflexivity|discriminate].
Qed.
Lemma base_reps nf nr dr w : @base_new P rd f s nf nr dr = Ok w -> m_n_rep (w_obj w) = Z.to_nat (int_val nr) /\ m_n_folds (w_obj w) = Z.to_nat (int_val nf).
Proof.
  unfold base_new, new_object. match goal with |- context [construct _ _ _ _ _ _ ?x] => set (w0 := x) end.
  destruct (construct _ nf nr dr _ _ w0) as [w1 [u|e]] eqn:E; [|discriminate]. intro H. apply ok_inj in H. subst w1.
  unfold construct in E. do 4 (apply andthen_ok in E; destruct E as (? & ? & E1 & E); unfold lift in E1; apply pair_equal_spec in E1; destruct E1 as [<- _]). cbv zeta in E.
  apply andthen_ok in E. destruct E as (w2 & [] & E2 & E). unfold assign in E2. apply pair_equal_spec in E2. destruct E2 as [E2 _].
  apply andthen_ok in E. destruct E as (w3 & [] & E3 & E).
  assert (Q : m_n_rep (w_obj w2) = Z.to_nat (int_val nr) /\ m_n_folds (w_obj w2) = Z.to_nat (int_val nf)).
  { rewrite <- E2. cbn. split; [reflexivity|]. unfold base_ctx, with_clusters. rewrite Cl. reflexivity. }
  assert (Q3 : m_n_rep (w_obj w3) = m_n_rep (w_obj w2) /\ m_n_folds (w_obj w3) = m_n_folds (w_obj w2)).
  { destruct dr as [| |[]| | | |]; try (unfold ret in E3; apply pair_equal_spec in E3 as [<- _]; auto).
    destruct (draw_inv (@base_ctx P f s) (rd_g0 rd) (rd_perm0 rd) w2) as [(sm & sc & D & _)|(e & D)]; rewrite D in E3; [|discriminate]. apply pair_equal_spec in E3 as [<- _]. auto. }
  assert (Q4 : w = fresh (@base_ctx P f s) w3) by (pose proof (init_both_eq (@base_ctx P f s) w3) as I; unfold init_both in I; rewrite E in I; apply pair_equal_spec in I as [-> _]; reflexivity).
  rewrite Q4. cbn. destruct Q, Q3. split; congruence.
Qed.
Lemma redraw_args nf nr dr w v : @base_new P rd f s nf nr dr = Ok w ->
  (succeeds (redraw rd f s v dr w) <-> (dr = PBool true -> whole_numbers n v) /\ split_args n nf nr dr (Some v)) /\
  forall w', redraw rd f s v dr w = Ok w' -> m_n_rep (w_obj w') = Z.to_nat (int_val nr).
Proof.
  intro B. destruct (base_reps _ _ _ _ B) as (Br & Bf). assert (A : split_args n nf nr dr None) by (apply base_new_args; exists w; exact B).
  destruct A as (A1 & A2 & A3 & A4 & b & -> & A5). unfold redraw, succeeds, split_args. destruct b.
  - rewrite Cl. cbn [option_map]. destruct (all_whole (M_Data.frows f) v) eqn:W; cbn [require].
    + apply whole_iff in W. unfold strata_ctx, with_clusters. rewrite Cl. cbn [option_map]. unfold draw_sample_splitting. cbn [c_cluster c_strata c_n]. unfold andthen at 1, lift at 1. unfold andthen, lift.
      assert (Sd := resampling_defined (m_n_folds (w_obj w)) (m_n_rep (w_obj w)) n (Some (value_codes v)) (rd_g rd) ltac:(lia)). cbn in Sd. unfold n in Sd.
      destruct (resampling (m_n_folds (w_obj w)) (m_n_rep (w_obj w)) (M_Data.frows f) (Some (value_codes v)) (rd_g rd)) as [sm|e].
      * split; [|intros w' H; apply ok_inj in H; subst w'; exact Br]. split; [intros _|intros _; eexists; reflexivity]. split; [intros _; exact W|]. do 4 (split; [assumption|]). exists true. split; [reflexivity|]. intros _.
        destruct (proj1 Sd (ex_intro _ sm eq_refl)) as (K & i & Hi & Hk). rewrite <- Bf. split; [exact K|]. exists i. split; [exact Hi|]. rewrite <- code_count. exact Hk.
      * split; [|intros w' H; discriminate]. split; [intros (o & H); discriminate|]. intros (_ & _ & _ & _ & _ & b & Q & H). injection Q as <-. specialize (H eq_refl). cbv zeta in H. destruct H as (K & i & Hi & Hk).
        exfalso. destruct (proj2 Sd) as (sm & Q); [|discriminate]. rewrite Bf. split; [exact K|]. exists i. split; [exact Hi|]. rewrite code_count. exact Hk.
    + split; [|intros w' H; discriminate]. split; [intros (o & H); discriminate|]. intros (H & _). specialize (H eq_refl). apply whole_iff in H. unfold n in H. congruence.
  - split; [|intros w' H; apply ok_inj in H; subst w'; exact Br]. split; [intros _|intros _; eexists; reflexivity]. split; [discriminate|]. do 4 (split; [assumption|]). exists false. split; [reflexivity|discriminate].
Qed.
End Splits.
Lemma split_args_base n nf nr dr v : split_args n nf nr dr v -> split_args n nf nr dr None.
Proof. intros (A & B & C & D & b & E & F). do 4 (split; [assumption|]). exists b. split; [exact E|]. intro Q. specialize (F Q). cbv zeta in *. tauto. Qed.

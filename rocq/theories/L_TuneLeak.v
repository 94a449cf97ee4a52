(** Which rows fold-wise tuning looks at. *)
From Verif Require Export L_Tune L_CrossProps L_QNested.
From Coq Require Import Lia Lra.
Local Open Scope R_scope.
Local Open Scope res_scope.

Section Leak.
Context {X P S : Type}.
Variable search : string -> nat -> list (X * R) -> result S.
Variable best : S -> P.
Variable spred : S -> X -> R.
Variable n : nat.

Lemma dml_tune_nth l x y tr res : dml_tune search l x y tr = Ok res -> length res = length tr /\
  forall k t, nth_error tr k = Some t -> exists s, nth_error res k = Some s /\ search l k (map (fun i => (x i, y i)) t) = Ok s.
Proof.
  unfold dml_tune. intro H. apply map_res_nth_error in H as (L & G). rewrite seq_length in L. split; [exact L|]. intros k t Hk. assert (Hk' : (k < length tr)%nat) by (apply nth_error_Some; congruence).
  destruct (G k k) as (s & S1 & S2). { rewrite (nth_error_nth' _ 0%nat) by (rewrite seq_length; exact Hk'). now rewrite seq_nth. } exists s. split; [exact S1|]. now rewrite (nth_error_nth tr k [] Hk) in S2.
Qed.
(** Two searches on training sets whose k-th entries carry the same data. *)
Lemma dml_tune_same l x x' y y' tr tr' res res' k t t' : dml_tune search l x y tr = Ok res -> dml_tune search l x' y' tr' = Ok res' ->
  nth_error tr k = Some t -> nth_error tr' k = Some t' -> map (fun i => (x i, y i)) t = map (fun i => (x' i, y' i)) t' -> nth_error (map best res) k = nth_error (map best res') k.
Proof.
  intros H H' T T' E. apply dml_tune_nth in H as (_ & H). apply dml_tune_nth in H' as (_ & H'). destruct (H k t T) as (s & S1 & S2). destruct (H' k t' T') as (s' & S1' & S2').
  rewrite !nth_error_map, S1, S1'. rewrite E in S2. congruence.
Qed.
Lemma map_same (x x' : nat -> X) (y y' : nat -> R) t : (forall i, In i t -> x i = x' i /\ y i = y' i) -> map (fun i => (x i, y i)) t = map (fun i => (x' i, y' i)) t.
Proof. intro H. apply map_ext_in. intros i Hi. destruct (H i Hi) as [-> ->]. reflexivity. Qed.
Lemma intersect_same (c c' : nat -> bool) t : (forall i, In i t -> c i = c' i) -> intersect_where n c t = intersect_where n c' t.
Proof.
  intro H. unfold intersect_where. apply filter_ext_in. intros i _. destruct (nmem i t) eqn:E; [|now rewrite !andb_false_r]. unfold nmem in E. apply existsb_exists in E as (j & Hj & E).
  apply Nat.eqb_eq in E. subst j. now rewrite (H i Hj).
Qed.
Lemma intersect_in c t i : In i (intersect_where n c t) -> In i t.
Proof.
  unfold intersect_where. rewrite filter_In. intros (_ & E). apply andb_true_iff in E as (_ & E). unfold nmem in E. apply existsb_exists in E as (j & Hj & E). apply Nat.eqb_eq in E. now subst.
Qed.
Lemma cond_nth c smpls k f : nth_error smpls k = Some f -> nth_error (map fst (cond_smpls n c smpls)) k = Some (intersect_where n c (fst f)).
Proof. intro H. unfold cond_smpls. rewrite map_map, nth_error_map, H. reflexivity. Qed.
Lemma dml_len l x y tr res : dml_tune search l x y tr = Ok res -> length (map best res) = length tr.
Proof. intro H. rewrite map_length. apply (dml_tune_nth l x y tr res H). Qed.

Ltac names l := repeat match goal with |- context [String.eqb l ?s] => destruct (String.eqb l s) end; try discriminate.

Lemma plr_no_leak cy cd x x' y y' d d' smpls k f a b : plr_tuning search best spred n false cy cd x y d smpls = Ok a -> plr_tuning search best spred n false cy cd x' y' d' smpls = Ok b ->
  nth_error smpls k = Some f -> agree_on (fst f) x x' y y' d d' -> same_fold_params k a b /\ per_fold (length smpls) a.
Proof.
  unfold plr_tuning. intros H H' Hk Ag. assert (Hm : nth_error (map fst smpls) k = Some (fst f)) by (apply (map_nth_error fst); exact Hk).
  destruct (dml_tune search "ml_l" x y _) as [lr|] eqn:E1; [|discriminate]. cbn in H. destruct (dml_tune search "ml_m" x d _) as [mr|] eqn:E2; [|discriminate]. cbn in H. injection H as <-.
  destruct (dml_tune search "ml_l" x' y' _) as [lr'|] eqn:E1'; [|discriminate]. cbn in H'. destruct (dml_tune search "ml_m" x' d' _) as [mr'|] eqn:E2'; [|discriminate]. cbn in H'. injection H' as <-.
  split.
  - split; [reflexivity|]. cbn [to_params dict_get]. intros l u v. names l; intros E E'; injection E as <-; injection E' as <-.
    + eapply dml_tune_same; [exact E1|exact E1'|exact Hm|exact Hm|]. apply map_same. intros i Hi. destruct (Ag i Hi) as (A1 & A2 & A3). auto.
    + eapply dml_tune_same; [exact E2|exact E2'|exact Hm|exact Hm|]. apply map_same. intros i Hi. destruct (Ag i Hi) as (A1 & A2 & A3). auto.
  - intros l u. cbn [to_params dict_get]. names l; intro E; injection E as <-; (transitivity (length (map fst smpls)); [eapply dml_len; eassumption|apply map_length]).
Qed.
Lemma irm_no_leak x x' y y' d d' smpls k f a b : irm_tuning search best n x y d smpls = Ok a -> irm_tuning search best n x' y' d' smpls = Ok b ->
  nth_error smpls k = Some f -> agree_on (fst f) x x' y y' d d' -> same_fold_params k a b /\ per_fold (length smpls) a.
Proof.
  unfold irm_tuning. intros H H' Hk Ag. assert (Hm : nth_error (map fst smpls) k = Some (fst f)) by (apply (map_nth_error fst); exact Hk).
  destruct (dml_tune search "ml_g0" x y _) as [g0|] eqn:E0; [|discriminate]. cbn [bind] in H. destruct (dml_tune search "ml_g1" x y _) as [g1|] eqn:E1; [|discriminate]. cbn [bind] in H.
  destruct (dml_tune search "ml_m" x d _) as [mr|] eqn:E2; [|discriminate]. cbn [bind] in H. injection H as <-.
  destruct (dml_tune search "ml_g0" x' y' _) as [g0'|] eqn:E0'; [|discriminate]. cbn [bind] in H'. destruct (dml_tune search "ml_g1" x' y' _) as [g1'|] eqn:E1'; [|discriminate]. cbn [bind] in H'.
  destruct (dml_tune search "ml_m" x' d' _) as [mr'|] eqn:E2'; [|discriminate]. cbn [bind] in H'. injection H' as <-.
  assert (Hc : forall v, intersect_where n (fun i => reqb (d i) v) (fst f) = intersect_where n (fun i => reqb (d' i) v) (fst f)).
  { intro v. apply intersect_same. intros i Hi. destruct (Ag i Hi) as (_ & _ & ->). reflexivity. }
  split.
  - split; [reflexivity|]. cbn [to_params dict_get]. intros l u v. names l; intros E E'; injection E as <-; injection E' as <-.
    + eapply dml_tune_same; [exact E0|exact E0'|apply cond_nth; exact Hk|apply cond_nth; exact Hk|]. rewrite Hc. apply map_same. intros i Hi. apply intersect_in in Hi. destruct (Ag i Hi) as (A1 & A2 & A3). auto.
    + eapply dml_tune_same; [exact E1|exact E1'|apply cond_nth; exact Hk|apply cond_nth; exact Hk|]. rewrite Hc. apply map_same. intros i Hi. apply intersect_in in Hi. destruct (Ag i Hi) as (A1 & A2 & A3). auto.
    + eapply dml_tune_same; [exact E2|exact E2'|exact Hm|exact Hm|]. apply map_same. intros i Hi. destruct (Ag i Hi) as (A1 & A2 & A3). auto.
  - intros l u. cbn [to_params dict_get]. assert (Lc : forall c, length smpls = length (map fst (cond_smpls n c smpls))) by (intro c; unfold cond_smpls; now rewrite !map_length).
    names l; intro E; injection E as <-;
      [rewrite (Lc (fun i => reqb (d i) 0)); eapply dml_len; eassumption|rewrite (Lc (fun i => reqb (d i) 1)); eapply dml_len; eassumption|transitivity (length (map fst smpls)); [eapply dml_len; eassumption|apply map_length]].
Qed.

(** Tuning, then cross-fitting with the parameters found. *)
Lemma tuned_cv E (L : learner E X P) f g l order order' est x x' y y' smpls smpls' s s' wt wm wt' wm' r r' i k h : row_wise L f g -> clone_ok L ->
  partition_of n smpls -> partition_of n smpls' -> schedule order (length smpls) -> schedule order' (length smpls') ->
  dml_tune search l x y (map fst smpls) = Ok s -> dml_tune search l x' y' (map fst smpls') = Ok s' ->
  cv_predict L order est n x (YVec y) smpls (FoldDicts (map best s)) false wt wm = Ok r ->
  cv_predict L order' est n x' (YVec y') smpls' (FoldDicts (map best s')) false wt' wm' = Ok r' ->
  (i < n)%nat -> tested_in smpls i k h -> tested_in smpls' i k h -> (forall j, In j (fst h) -> x j = x' j /\ y j = y' j) -> x i = x' i -> cv_preds r i = cv_preds r' i.
Proof.
  intros Rw Cl Hp Hp' Hs Hs' T T' H H' Hi Ti Ti' Ag Hx.
  destruct (own_fold L f g Rw Cl _ _ _ _ _ _ _ _ _ _ Hp Hs H i Hi) as (k1 & h1 & p & data & m & A1 & A2 & A3 & A4 & A5).
  destruct (own_fold L f g Rw Cl _ _ _ _ _ _ _ _ _ _ Hp' Hs' H' i Hi) as (k2 & h2 & p' & data' & m' & B1 & B2 & B3 & B4 & B5).
  assert (Uq : forall sm a b c e, tested_in sm i a b -> tested_in sm i c e -> a = c /\ b = e).
  { intros sm a b c e (Q1 & Q2 & Q3) (Q4 & Q5 & Q6). assert (a = c) by (exact (Q6 a b Q1 Q2)). subst c. split; [reflexivity|congruence]. }
  destruct (Uq _ _ _ _ _ A1 Ti) as [-> ->]. destruct (Uq _ _ _ _ _ B1 Ti') as [-> ->].
  assert (M : map (fun i => (x i, y i)) (fst h) = map (fun i => (x' i, y' i)) (fst h)) by (apply map_same; exact Ag).
  destruct Ti as (N & _). destruct Ti' as (N' & _).
  assert (En : nth_error (map best s) k = nth_error (map best s') k).
  { eapply dml_tune_same; [exact T|exact T'|apply (map_nth_error fst); exact N|apply (map_nth_error fst); exact N'|exact M]. }
  cbn in A2, B2, A3, B3. destruct A2 as (q & Q1 & ->). destruct B2 as (q' & Q1' & ->). rewrite En in Q1. rewrite Q1 in Q1'. injection Q1' as <-.
  unfold train_rows in *. subst data data'. cbn in A4, B4. destruct A4 as (e & F1 & F2). destruct B4 as (e' & F1' & F2'). rewrite F1 in F1'. injection F1' as <-. rewrite M in F2. rewrite F2 in F2'. injection F2' as <-.
  rewrite A5, B5, Hx. reflexivity.
Qed.
End Leak.

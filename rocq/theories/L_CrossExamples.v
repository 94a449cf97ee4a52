(** A concrete learner and the cases where the two code paths differ. *)
From Verif Require Export L_CrossProps.
From Coq Require Import Lia Lra.
Local Open Scope res_scope.

(** Estimators remember their train data; rows are real numbers.  Regression:
    the row plus the sum of the train targets.  Classification: shares. *)
Definition memo := list (R * R).
Definition m_bound (d : memo) : nat := fold_right Nat.max 0 (map (fun p : R * R => Z.to_nat (up (snd p))) d).
Definition m_classes (d : memo) : list nat := filter (fun c => existsb (fun p : R * R => reqb (snd p) (INR c)) d) (seq 0 (m_bound d)).
Definition m_predict (d : memo) (x : R) : R := (x + Rsum (map snd d))%R.
Definition m_proba (d : memo) (x : R) : list R := map (fun c => (INR (length (filter (fun p : R * R => reqb (snd p) (INR c)) d)) / INR (length d))%R) (m_classes d).
Definition m_learner : learner memo R unit := {|
  ln_clone := fun _ => [];
  ln_set := fun e _ => Ok e;
  ln_fit := fun _ d => match d with [] => Err ValueError | _ => Ok d end;
  ln_predict := fun d xs => map (m_predict d) xs;
  ln_proba := fun d xs => map (m_proba d) xs;
  ln_classes := m_classes |}.
Lemma m_row : row_wise m_learner m_predict m_proba.
Proof. intros e xs. split; reflexivity. Qed.
Lemma m_clone : clone_ok m_learner.
Proof. split; [reflexivity|]. cbn. intros e p e' H. congruence. Qed.
Lemma m_bound_lt d p : In p d -> Z.to_nat (up (snd p)) <= m_bound d.
Proof. unfold m_bound. induction d as [|q d IH]; intros []; cbn; [subst; lia|]. apply IH in H. lia. Qed.
Lemma up_INR c : Z.to_nat (up (INR c)) = S c.
Proof. rewrite <- (tech_up (INR c) (Z.of_nat (S c))); [lia| |]; rewrite <- INR_IZR_INZ, S_INR; lra. Qed.
Lemma m_classifier : classifier_ok m_learner m_proba.
Proof.
  intros e data m H. cbn in *. assert (m = data) by (destruct data; [discriminate|congruence]). subst m. split; [apply filter_sorted, seq_sorted|]. split; [|intro x; unfold m_proba; apply map_length].
  intro c. unfold m_classes. rewrite filter_In, in_seq, existsb_exists. split.
  - intros (_ & [a b] & Hp & E). apply reqb_spec in E. cbn in E. subst b. eauto.
  - intros (x & Hx). split; [|exists (x, INR c); split; [exact Hx|apply reqb_spec; reflexivity]]. pose proof (m_bound_lt data _ Hx) as Hb. cbn [snd] in Hb. rewrite up_INR in Hb. lia.
Qed.

Definition ex_x (i : nat) : R := INR i.
Lemma m_fits y (smpls : list fold) k : k < length smpls -> fst (nth k smpls ([], [])) <> [] -> exists m, fits m_learner [] ex_x smpls NoParams (YVec y) k m.
Proof.
  intros Hk Hne. exists (train_rows ex_x y (nth k smpls ([], []))). exists None. eexists. split; [reflexivity|]. split; [reflexivity|]. cbn [fitted m_learner ln_fit ln_clone].
  unfold train_rows. destruct (fst (nth k smpls ([], []))); [congruence|reflexivity].
Qed.

(** Four rows, two folds, labels 1 and 2. *)
Definition ex_smpls : list fold := [([2; 3], [0; 1]); ([0; 1], [3; 2])].
Definition ex_y (i : nat) : R := INR (nth i [1; 2; 1; 2] 1).
Lemma ex_part : partition_of 4 ex_smpls.
Proof. unfold partition_of. cbn. apply NoDup_Permutation; [repeat constructor; cbn; intuition lia|repeat constructor; cbn; intuition lia|]. intro i. cbn. tauto. Qed.
Lemma ex_labels : labels_in_train 4 ex_y ex_smpls.
Proof.
  intros f i Hf Hi. destruct Hf as [<- | [<- | []]]; cbn [fst].
  - destruct i as [|[|[|[|]]]]; try lia; [exists 2|exists 3|exists 2|exists 3]; split; cbn; auto.
  - destruct i as [|[|[|[|]]]]; try lia; [exists 0|exists 1|exists 0|exists 1]; split; cbn; auto.
Qed.
Lemma ex_range : train_in_range 4 ex_smpls.
Proof. intros f i Hf Hi. destruct Hf as [<- | [<- | []]]; cbn in Hi; lia. Qed.
Lemma ex_lab : labels 4 ex_y = [1%R; 2%R].
Proof.
  destruct (labels_spec 4 ex_y) as [S M]. apply ssorted_Rlt_eq; [exact S|repeat constructor; lra|]. intro z. rewrite M. cbn. split.
  - intros (i & Hi & <-). unfold ex_y. destruct i as [|[|[|[|]]]]; try lia; cbn; lra.
  - intros [<- | [<- | []]]; [exists 0|exists 1]; split; try lia; unfold ex_y; cbn; lra.
Qed.
Lemma ex_sched : schedule [1; 0] 2.
Proof. apply perm_swap. Qed.
Lemma ex_fast_proba : exists r, cv_predict m_learner [1; 0] [] 4 ex_x (YVec ex_y) ex_smpls NoParams true false false = Ok r.
Proof.
  rewrite (cv_cases m_learner [1; 0] [] 4 ex_x (YVec ex_y) ex_smpls NoParams true false false ex_part) by discriminate. cbn [is_fast is_list_params is_fold_target orb negb].
  apply (fast_def m_learner m_predict m_proba m_row m_clone [] 4 ex_x ex_smpls NoParams ex_part [1; 0] ex_y true ex_sched eq_refl); [cbn; lia| |].
  - intros k Hk. apply (m_fits (encode 4 ex_y)); [exact Hk|]. destruct k as [|[|]]; cbn in *; try discriminate; lia.
  - intros _ k m xi Hk Hm. destruct (classes_full m_learner m_proba [] 4 ex_x ex_smpls NoParams ex_y k m m_classifier ex_labels ex_range Hk Hm) as [Q1 Q2].
    unfold eorow. rewrite Q1, seq_length, Nat.eqb_refl, Q2, ex_lab. cbn. lia.
Qed.
Lemma ex_predict (wt wm : bool) : exists r, cv_predict m_learner [1; 0] [] 4 ex_x (YVec ex_y) ex_smpls NoParams false wt wm = Ok r.
Proof.
  assert (H : exists r, cv_predict m_learner [1; 0] [] 4 ex_x (YVec ex_y) ex_smpls NoParams false false false = Ok r).
  { rewrite (cv_cases m_learner [1; 0] [] 4 ex_x (YVec ex_y) ex_smpls NoParams false false false ex_part) by discriminate. cbn [is_fast is_list_params is_fold_target orb negb].
    apply (fast_def m_learner m_predict m_proba m_row m_clone [] 4 ex_x ex_smpls NoParams ex_part [1; 0] ex_y false ex_sched eq_refl); [cbn; lia| |discriminate].
    intros k Hk. apply (m_fits ex_y); [exact Hk|]. destruct k as [|[|]]; cbn in *; try discriminate; lia. }
  destruct H as [r H]. destruct (paths_agree m_learner m_predict m_proba m_row m_clone [1; 0] [1; 0] [] 4 ex_x (YVec ex_y) ex_smpls NoParams false false false wt wm r) as (r' & Hr' & _); eauto using ex_part, ex_sched; try lia; discriminate.
Qed.

(** The targets returned with predict_proba are the labels on one path and the codes on the other. *)
Lemma targets_differ : exists r r', 
  cv_predict m_learner [1; 0] [] 4 ex_x (YVec ex_y) ex_smpls NoParams true false false = Ok r /\
  cv_predict m_learner [1; 0] [] 4 ex_x (YVec ex_y) ex_smpls NoParams true false true = Ok r' /\
  exists t t', cv_targets r = Some t /\ cv_targets r' = Some t' /\ t 0 = Some 1%R /\ t' 0 = Some 0%R.
Proof.
  destruct ex_fast_proba as [r Hr]. destruct (paths_agree m_learner m_predict m_proba m_row m_clone [1; 0] [1; 0] [] 4 ex_x (YVec ex_y) ex_smpls NoParams true false false false true r) as (r' & Hr' & _); try exact ex_sched; try exact ex_part; try exact Hr; try lia; try discriminate.
  { intros _. exists ex_y. split; [reflexivity|]. split; [exact m_classifier|]. split; [exact ex_labels|exact ex_range]. }
  exists r, r'. split; [exact Hr|]. split; [exact Hr'|].
  rewrite (cv_cases m_learner [1; 0] [] 4 ex_x (YVec ex_y) ex_smpls NoParams true false false ex_part) in Hr by discriminate. cbn [is_fast is_list_params is_fold_target orb negb] in Hr.
  rewrite (cv_cases m_learner [1; 0] [] 4 ex_x (YVec ex_y) ex_smpls NoParams true false true ex_part) in Hr' by discriminate. cbn [is_fast is_list_params is_fold_target orb negb] in Hr'.
  destruct (fast_inv m_learner m_predict m_proba m_row m_clone [] 4 ex_x ex_smpls NoParams ex_part _ _ _ _ ex_sched Hr) as (_ & _ & _ & t & T1 & T2).
  destruct (manual_inv m_learner m_predict m_proba m_row [] 4 ex_x ex_smpls NoParams ex_part _ _ _ _ _ _ ex_sched Hr') as (_ & _ & _ & t' & T1' & T2').
  exists t, t'. split; [exact T1|]. split; [exact T1'|]. split; [rewrite T2 by lia; reflexivity|]. rewrite T2' by lia. unfold encode. rewrite ex_lab. unfold ex_y. cbn [nth rindex INR]. unfold reqb. destruct (Req_EM_T 1 1); [reflexivity|congruence].
Qed.

(** A train part without one of the labels. *)
Definition ex_smpls1 : list fold := [([1; 2], [0]); ([0; 1], [2]); ([0; 2], [1])].
Definition ex_y1 (i : nat) : R := INR (nth i [0; 1; 1] 0).
Lemma ex_part1 : partition_of 3 ex_smpls1.
Proof. unfold partition_of. cbn. apply NoDup_Permutation; [repeat constructor; cbn; intuition lia|repeat constructor; cbn; intuition lia|]. intro i. cbn. tauto. Qed.
Lemma ex_lab1 : labels 3 ex_y1 = [0%R; 1%R].
Proof.
  destruct (labels_spec 3 ex_y1) as [S M]. apply ssorted_Rlt_eq; [exact S|repeat constructor; lra|]. intro z. rewrite M. cbn. split.
  - intros (i & Hi & <-). unfold ex_y1. destruct i as [|[|[|]]]; try lia; cbn; lra.
  - intros [<- | [<- | []]]; [exists 0|exists 1]; split; try lia; unfold ex_y1; cbn; lra.
Qed.
Lemma ex_sched1 : schedule [0; 1; 2] 3.
Proof. apply Permutation_refl. Qed.
Lemma missing_label_fast : exists r, cv_predict m_learner [0; 1; 2] [] 3 ex_x (YVec ex_y1) ex_smpls1 NoParams true false false = Ok r.
Proof.
  rewrite (cv_cases m_learner [0; 1; 2] [] 3 ex_x (YVec ex_y1) ex_smpls1 NoParams true false false ex_part1) by discriminate. cbn [is_fast is_list_params is_fold_target orb negb].
  apply (fast_def m_learner m_predict m_proba m_row m_clone [] 3 ex_x ex_smpls1 NoParams ex_part1 [0; 1; 2] ex_y1 true ex_sched1 eq_refl); [cbn; lia| |].
  - intros k Hk. apply (m_fits (encode 3 ex_y1)); [exact Hk|]. destruct k as [|[|[|]]]; cbn in *; try discriminate; lia.
  - intros _ k m xi Hk Hm. unfold eorow. rewrite ex_lab1. cbn [length]. destruct (Nat.eqb_spec 2 (length (ln_classes m_learner m))) as [E|E]; [|rewrite map_length, seq_length; lia].
    cbn [m_learner ln_classes] in E. unfold m_proba. rewrite map_length, <- E. lia.
Qed.
Lemma missing_label_manual r : cv_predict m_learner [0; 1; 2] [] 3 ex_x (YVec ex_y1) ex_smpls1 NoParams true false true <> Ok r.
Proof.
  rewrite (cv_cases m_learner [0; 1; 2] [] 3 ex_x (YVec ex_y1) ex_smpls1 NoParams true false true ex_part1) by discriminate. cbn [is_fast is_list_params is_fold_target orb negb]. intro H.
  destruct (manual_inv m_learner m_predict m_proba m_row [] 3 ex_x ex_smpls1 NoParams ex_part1 _ _ _ _ _ _ ex_sched1 H) as (_ & B & _).
  destruct (B 0 ([1; 2], [0]) 0 eq_refl (or_introl eq_refl)) as (m & v & (p & data & F1 & F2 & F3) & _ & V). cbn in F1. subst p. cbn [used train_data nth ex_smpls1] in F2. subst data. cbn [fitted] in F3.
  destruct (m_classifier _ _ _ F3) as (S & M & Lg). assert (Q : m_classes m = [1]).
  { apply sorted_lt_eq; [exact S|repeat constructor|]. intro c. cbn [m_learner ln_classes] in M. rewrite M.
    assert (C1 : encode 3 ex_y1 1 = INR 1 /\ encode 3 ex_y1 2 = INR 1).
    { unfold encode. rewrite ex_lab1. unfold ex_y1. cbn [nth rindex INR]. unfold reqb. destruct (Req_EM_T 1 0); [lra|]. destruct (Req_EM_T 1 1); [|congruence]. split; reflexivity. }
    destruct C1 as [C1 C2]. unfold train_rows. cbn [map fst]. rewrite C1, C2. split.
    - intros (xi & [Hx | [Hx | []]]); injection Hx as _ Hx; left; apply INR_eq; rewrite <- Hx; reflexivity.
    - intros [<- | []]. exists (ex_x 1). left. reflexivity. }
  unfold pred_value in V. pose proof (Lg (ex_x 0)) as Hl. cbn [m_learner ln_classes] in Hl. rewrite Q in Hl. destruct (m_proba m (ex_x 0)) as [|a [|b ?]]; cbn in Hl, V; discriminate.
Qed.
Lemma missing_label_paths : exists E X P (L : learner E X P) f g order est n x y smpls ps,
  row_wise L f g /\ clone_ok L /\ classifier_ok L g /\ partition_of n smpls /\ schedule order (length smpls) /\
  (exists r, cv_predict L order est n x (YVec y) smpls ps true false false = Ok r) /\
  (forall r, cv_predict L order est n x (YVec y) smpls ps true false true <> Ok r).
Proof.
  exists memo, R, unit, m_learner, m_predict, m_proba, [0; 1; 2], [], 3, ex_x, ex_y1, ex_smpls1, NoParams.
  split; [exact m_row|]. split; [exact m_clone|]. split; [exact m_classifier|]. split; [exact ex_part1|]. split; [exact ex_sched1|]. split; [exact missing_label_fast|exact missing_label_manual].
Qed.
Lemma targets_paths : exists E X P (L : learner E X P) order est n x y smpls ps r r',
  cv_predict L order est n x (YVec y) smpls ps true false false = Ok r /\
  cv_predict L order est n x (YVec y) smpls ps true false true = Ok r' /\ 0 < n /\
  exists t t', cv_targets r = Some t /\ cv_targets r' = Some t' /\ t 0 = Some 1%R /\ t' 0 = Some 0%R.
Proof.
  destruct targets_differ as (r & r' & A & B & C). exists memo, R, unit, m_learner, [1; 0], [], 4, ex_x, ex_y, ex_smpls, NoParams, r, r'.
  split; [exact A|]. split; [exact B|]. split; [lia|exact C].
Qed.

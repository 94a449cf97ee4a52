(** Properties of the cross-fitting engine. *)
From Verif Require Export L_CrossPath.
From Coq Require Import Lia Lra.
Local Open Scope res_scope.

Section Props.
Context {E X P : Type}.
Variable L : learner E X P.
Variables (f : E -> X -> R) (g : E -> X -> list R).
Hypothesis Hrow : row_wise L f g.
Hypothesis Hclone : clone_ok L.

Definition is_fast (ps : params P) (y : target) (wt wm : bool) : bool := negb (wt || is_list_params ps || wm || is_fold_target y).
Lemma cv_cases order est n x y smpls ps proba wt wm : partition_of n smpls -> smpls <> [] ->
  cv_predict L order est n x y smpls ps proba wt wm =
  match y with
  | YVec v => if is_fast ps y wt wm then cv_fast L order est n x v smpls ps proba else cv_manual L order est n x y smpls ps proba wt wm true
  | YFolds _ => cv_manual L order est n x y smpls ps proba wt wm true
  end.
Proof.
  intros Hp Hne. unfold cv_predict. rewrite (part_check n smpls Hne Hp). cbn [bind negb orb]. destruct y as [v|l]; [|reflexivity].
  unfold is_fast. cbn [is_fold_target]. rewrite orb_false_r. reflexivity.
Qed.
Lemma cv_nonempty order est n x y smpls ps proba wt wm r : cv_predict L order est n x y smpls ps proba wt wm = Ok r -> smpls <> [].
Proof. intros H ->. unfold cv_predict in H. cbn in H. discriminate. Qed.

(** Everything known about a successful run. *)
Definition val_of (n : nat) (ps : params P) (y : target) (wt wm proba : bool) : E -> X -> R -> Prop :=
  match y with
  | YVec v => if is_fast ps y wt wm then fast_value L f g n proba v else pred_value f g proba
  | YFolds _ => pred_value f g proba
  end.
Lemma cv_inv order est n x y smpls ps proba wt wm res : partition_of n smpls -> schedule order (length smpls) ->
  cv_predict L order est n x y smpls ps proba wt wm = Ok res ->
  (forall k, k < length smpls -> exists m, fits L est x smpls ps (used n proba y) k m) /\
  preds_by L est n x smpls ps proba y (val_of n ps y wt wm proba) res.
Proof.
  intros Hp Hs H. rewrite cv_cases in H by (try assumption; apply (cv_nonempty _ _ _ _ _ _ _ _ _ _ _ H)). unfold val_of. destruct y as [v|l].
  - destruct (is_fast ps (YVec v) wt wm).
    + apply (fast_inv L f g Hrow Hclone) in H; [|assumption|assumption]. destruct H as (_ & A & B & _). split; assumption.
    + apply (manual_inv L f g Hrow) in H; [|assumption|assumption]. destruct H as (A & B & _). split; assumption.
  - apply (manual_inv L f g Hrow) in H; [|assumption|assumption]. destruct H as (A & B & _). split; assumption.
Qed.
Lemma tested_exists n smpls i : partition_of n smpls -> i < n -> exists k h, tested_in smpls i k h.
Proof.
  intros Hp Hi. destruct (row_tested n smpls Hp i Hi) as (k & h & Hk & _ & Hin). exists k, h. split; [exact Hk|]. split; [exact Hin|].
  intros k' f' Hk' Hin'. apply (nodup_unique_fold smpls (Hnodup n smpls Hp) k' f' k h i); assumption.
Qed.
Lemma used_predict n y : used n false y = y.
Proof. destruct y; reflexivity. Qed.

Lemma own_fold order est n x y smpls ps wt wm res : partition_of n smpls -> schedule order (length smpls) ->
  cv_predict L order est n x y smpls ps false wt wm = Ok res ->
  forall i, i < n -> exists k h p data m, tested_in smpls i k h /\ param_of ps k p /\ train_data x y k h data /\
    fitted L est p data m /\ cv_preds res i = Some (f m (x i)).
Proof.
  intros Hp Hs H i Hi. destruct (cv_inv _ _ _ _ _ _ _ _ _ _ _ Hp Hs H) as [_ B]. destruct (tested_exists n smpls i Hp Hi) as (k & h & T). destruct T as (T1 & T2 & T3).
  destruct (B k h i T1 T2) as (m & v & (p & data & F1 & F2 & F3) & Hv & Hval). rewrite used_predict in F2. rewrite (nth_error_nth _ _ _ T1) in F2.
  exists k, h, p, data, m. split; [split; [exact T1|split; assumption]|]. split; [exact F1|]. split; [exact F2|]. split; [exact F3|]. rewrite Hv. f_equal.
  unfold val_of in Hval. destruct y as [v'|l]; [destruct (is_fast _ _ _ _)|]; exact Hval.
Qed.
Lemma own_fold_proba order est n x y smpls ps wt wm res : partition_of n smpls -> schedule order (length smpls) ->
  classifier_ok L g -> labels_in_train n y smpls -> train_in_range n smpls ->
  cv_predict L order est n x (YVec y) smpls ps true wt wm = Ok res ->
  exists c, codes n y c /\ forall i, i < n -> exists k h p m v, tested_in smpls i k h /\ param_of ps k p /\
    fitted L est p (train_rows x c h) m /\ cv_preds res i = Some v /\ nth_error (g m (x i)) 1 = Some v.
Proof.
  intros Hp Hs Hc Hl Hr H. exists (encode n y). split; [apply encode_codes|]. intros i Hi. destruct (cv_inv _ _ _ _ _ _ _ _ _ _ _ Hp Hs H) as [_ B]. destruct (tested_exists n smpls i Hp Hi) as (k & h & T). destruct T as (T1 & T2 & T3).
  destruct (B k h i T1 T2) as (m & v & Hfit & Hv & Hval). pose proof Hfit as (p & data & F1 & F2 & F3). cbn in F2. rewrite (nth_error_nth _ _ _ T1) in F2. subst data.
  exists k, h, p, m, v. split; [split; [exact T1|split; assumption]|]. split; [exact F1|]. split; [exact F3|]. split; [exact Hv|].
  unfold val_of in Hval. destruct (is_fast _ _ _ _); [|exact Hval]. apply (fast_is_manual L f g est n x smpls ps y k m (x i) v true) in Hval; auto. apply (fold_idx smpls k h T1).
Qed.

(** Non-interference. *)
Lemma no_leak order order' est n x x' y y' smpls ps wt wm wt' wm' r r' i k h :
  partition_of n smpls -> schedule order (length smpls) -> schedule order' (length smpls) ->
  cv_predict L order est n x (YVec y) smpls ps false wt wm = Ok r ->
  cv_predict L order' est n x' (YVec y') smpls ps false wt' wm' = Ok r' ->
  tested_in smpls i k h -> (forall j, In j (fst h) -> x j = x' j /\ y j = y' j) -> x i = x' i -> cv_preds r i = cv_preds r' i.
Proof.
  intros Hp Hs Hs' H H' (T1 & T2 & T3) Ha Hx. destruct (cv_inv _ _ _ _ _ _ _ _ _ _ _ Hp Hs H) as [_ B]. destruct (cv_inv _ _ _ _ _ _ _ _ _ _ _ Hp Hs' H') as [_ B'].
  destruct (B k h i T1 T2) as (m & v & F & Hv & Hval). destruct (B' k h i T1 T2) as (m' & v' & F' & Hv' & Hval').
  assert (m = m').
  { apply (fits_fun L est x smpls ps (YVec y) k); [exact F|]. destruct F' as (p & data & F1 & F2 & F3). exists p, data. split; [exact F1|]. split; [|exact F3].
    cbn in *. rewrite F2. rewrite (nth_error_nth _ _ _ T1). unfold train_rows. apply map_ext_in. intros j Hj. destruct (Ha j Hj) as [-> ->]. reflexivity. }
  subst m'. rewrite Hv, Hv'. f_equal. unfold val_of, fast_value, pred_value in *.
  assert (v = f m (x i)) by (destruct (is_fast _ _ _ _) in Hval; exact Hval). assert (v' = f m (x' i)) by (destruct (is_fast _ _ _ _) in Hval'; exact Hval'). congruence.
Qed.
Lemma no_leak_proba order order' est n x x' y y' smpls ps wt wm r r' i k h :
  partition_of n smpls -> schedule order (length smpls) -> schedule order' (length smpls) -> same_labels n y y' ->
  cv_predict L order est n x (YVec y) smpls ps true wt wm = Ok r ->
  cv_predict L order' est n x' (YVec y') smpls ps true wt wm = Ok r' ->
  tested_in smpls i k h -> (forall j, In j (fst h) -> x j = x' j /\ y j = y' j) -> x i = x' i -> cv_preds r i = cv_preds r' i.
Proof.
  intros Hp Hs Hs' Hl H H' (T1 & T2 & T3) Ha Hx. destruct (cv_inv _ _ _ _ _ _ _ _ _ _ _ Hp Hs H) as [_ B]. destruct (cv_inv _ _ _ _ _ _ _ _ _ _ _ Hp Hs' H') as [_ B'].
  destruct (B k h i T1 T2) as (m & v & F & Hv & Hval). destruct (B' k h i T1 T2) as (m' & v' & F' & Hv' & Hval').
  pose proof (same_labels_eq n y y' Hl) as El. assert (m = m').
  { apply (fits_fun L est x smpls ps (used n true (YVec y)) k); [exact F|]. destruct F' as (p & data & F1 & F2 & F3). exists p, data. split; [exact F1|]. split; [|exact F3].
    cbn in *. rewrite F2. rewrite (nth_error_nth _ _ _ T1). unfold train_rows. apply map_ext_in. intros j Hj. destruct (Ha j Hj) as [-> Ey]. unfold encode. rewrite El, Ey. reflexivity. }
  subst m'. rewrite Hv, Hv'. f_equal. unfold val_of in *. change (is_fast ps (YVec y') wt wm) with (is_fast ps (YVec y) wt wm) in Hval'.
  unfold fast_value, pred_value in *. rewrite El, Hx in Hval. destruct (is_fast _ _ _ _); congruence.
Qed.

(** Independence of path and schedule. *)
Lemma paths_agree order order' est n x y smpls ps (proba wt wm wt' wm' : bool) r :
  0 < n -> partition_of n smpls -> schedule order (length smpls) -> schedule order' (length smpls) ->
  (proba = true -> exists v, y = YVec v /\ classifier_ok L g /\ labels_in_train n v smpls /\ train_in_range n smpls) ->
  (wt' = true -> exists v, y = YVec v) ->
  cv_predict L order est n x y smpls ps proba wt wm = Ok r ->
  exists r', cv_predict L order' est n x y smpls ps proba wt' wm' = Ok r' /\ (forall i, i < n -> cv_preds r' i = cv_preds r i).
Proof.
  intros Hn Hp Hs Hs' Hpr Hw H. assert (Hne : smpls <> []) by apply (cv_nonempty _ _ _ _ _ _ _ _ _ _ _ H).
  destruct (cv_inv _ _ _ _ _ _ _ _ _ _ _ Hp Hs H) as [A B].
  assert (Hlen : match ps with FoldDicts l => length l = length smpls | _ => True end).
  { rewrite cv_cases in H by assumption. assert (M : is_list_params ps = true -> cv_manual L order est n x y smpls ps proba wt wm true = Ok r).
    { intro Hl. destruct y as [v|l]; [|exact H]. unfold is_fast in H. rewrite Hl, orb_true_r in H. exact H. }
    destruct ps as [|q|l]; [exact I|exact I|]. specialize (M eq_refl). unfold cv_manual in M. cbn [orb require] in M. destruct (negb (proba && is_fold_target y)); [|discriminate]. cbn [require] in M.
    match type of M with bind ?m _ = _ => destruct m end; [|discriminate]. cbn [bind] in M. destruct (Nat.eqb_spec (length l) (length smpls)); [assumption|discriminate]. }
  assert (Hval : forall k m xi v, k < length smpls -> fits L est x smpls ps (used n proba y) k m -> (val_of n ps y wt wm proba m xi v <-> pred_value f g proba m xi v) /\ (val_of n ps y wt' wm' proba m xi v <-> pred_value f g proba m xi v)).
  { intros k m xi v Hk Hm. unfold val_of. destruct y as [yv|l]; [|split; reflexivity].
    assert (Q : fast_value L f g n proba yv m xi v <-> pred_value f g proba m xi v).
    { apply (fast_is_manual L f g est n x smpls ps yv k); try assumption. intro Ep. destruct (Hpr Ep) as (v' & E1 & E2 & E3 & E4). injection E1 as ->. auto. }
    split; destruct (is_fast _ _ _ _); try exact Q; reflexivity. }
  (* two columns *)
  assert (H2 : proba = true -> forall k m xi, k < length smpls -> fits L est x smpls ps (used n proba y) k m -> 2 <= length (g m xi) /\ exists v, y = YVec v /\ ln_classes L m = seq 0 (length (labels n v)) /\ length (g m xi) = length (labels n v)).
  { intros Ep k m xi Hk Hm. subst proba. destruct (Hpr eq_refl) as (v & -> & C1 & C2 & C3). destruct (classes_full L g est n x smpls ps v k m C1 C2 C3 Hk Hm) as [Q1 Q2].
    assert (2 <= length (labels n v)).
    { destruct (tested_exists n smpls 0 Hp Hn) as (k0 & h0 & T1 & T2 & _). destruct (B k0 h0 0 T1 T2) as (m0 & v0 & F0 & _ & V0). pose proof (fold_idx smpls k0 h0 T1) as Lk0. apply (Hval k0 m0 (x 0) v0 Lk0 F0) in V0.
      cbn in V0. destruct (classes_full L g est n x smpls ps v k0 m0 C1 C2 C3 Lk0 F0) as [_ Q2']. rewrite <- (Q2' (x 0)). destruct (g m0 (x 0)) as [|a [|b ?]]; cbn in V0 |- *; try discriminate; lia. }
    rewrite Q2. split; [assumption|]. exists v. auto. }
  assert (Hr' : exists r', cv_predict L order' est n x y smpls ps proba wt' wm' = Ok r').
  { rewrite cv_cases by assumption.
    assert (Hman : exists r', cv_manual L order' est n x y smpls ps proba wt' wm' true = Ok r').
    { apply (manual_def L f g Hrow); try assumption.
      - intro Ep. destruct (Hpr Ep) as (v & -> & _). eauto.
      - intros Ep k m xi Hk Hm. apply (H2 Ep k m xi Hk Hm). }
    destruct y as [v|l]; [|exact Hman]. destruct (is_fast ps (YVec v) wt' wm') eqn:Ef; [|exact Hman].
    apply (fast_def L f g Hrow Hclone); try assumption.
    - unfold is_fast in Ef. destruct (is_list_params ps); [rewrite orb_true_r in Ef; discriminate|reflexivity].
    - destruct smpls; [congruence|cbn; lia].
    - intros Ep k m xi Hk Hm. destruct (H2 Ep k m xi Hk Hm) as (G1 & v' & Ev & G2 & G3). injection Ev as <-. unfold eorow. rewrite G2, seq_length, Nat.eqb_refl. exact G1. }
  destruct Hr' as [r' H']. exists r'. split; [exact H'|]. intros i Hi. destruct (cv_inv _ _ _ _ _ _ _ _ _ _ _ Hp Hs' H') as [_ B'].
  destruct (tested_exists n smpls i Hp Hi) as (k & h & T1 & T2 & _). pose proof (fold_idx smpls k h T1) as Lk.
  destruct (B k h i T1 T2) as (m & v & F & Hv & V). destruct (B' k h i T1 T2) as (m' & v' & F' & Hv' & V').
  assert (m' = m) by (apply (fits_fun L est x smpls ps (used n proba y) k); assumption). subst m'.
  apply (Hval k m (x i) v Lk F) in V. apply (Hval k m (x i) v' Lk F) in V'. rewrite Hv, Hv'. f_equal. unfold pred_value in *. destruct proba; congruence.
Qed.
Lemma targets_predict order est n x y smpls ps wt wm r : partition_of n smpls -> schedule order (length smpls) ->
  cv_predict L order est n x (YVec y) smpls ps false wt wm = Ok r -> exists t, cv_targets r = Some t /\ forall i, i < n -> t i = Some (y i).
Proof.
  intros Hp Hs H. rewrite cv_cases in H by (try assumption; apply (cv_nonempty _ _ _ _ _ _ _ _ _ _ _ H)). destruct (is_fast _ _ _ _).
  - apply (fast_inv L f g Hrow Hclone) in H; [|assumption|assumption]. tauto.
  - apply (manual_inv L f g Hrow) in H; [|assumption|assumption]. destruct H as (_ & _ & _ & H). exact H.
Qed.
Lemma models_exported order est n x y smpls ps proba wt r : partition_of n smpls -> schedule order (length smpls) ->
  cv_predict L order est n x y smpls ps proba wt true = Ok r ->
  exists ms, cv_models r = Some ms /\ length ms = length smpls /\
    forall i k h v, tested_in smpls i k h -> cv_preds r i = Some v -> exists m, nth_error ms k = Some m /\ if proba then nth_error (g m (x i)) 1 = Some v else v = f m (x i).
Proof.
  intros Hp Hs H. rewrite cv_cases in H by (try assumption; apply (cv_nonempty _ _ _ _ _ _ _ _ _ _ _ H)).
  assert (M : cv_manual L order est n x y smpls ps proba wt true true = Ok r).
  { destruct y; [|exact H]. unfold is_fast in H. rewrite orb_true_r in H. exact H. }
  apply (manual_inv L f g Hrow) in M; [|assumption|assumption]. destruct M as (_ & B & M & _). destruct (M eq_refl) as (ms & M1 & M2 & M3). exists ms. split; [exact M1|]. split; [exact M2|].
  intros i k h v (T1 & T2 & _) Hv. destruct (B k h i T1 T2) as (m & v' & F & Hv' & V). assert (Hk : k < length ms) by (rewrite M2; apply (fold_idx smpls k h T1)).
  destruct (nth_error ms k) as [m'|] eqn:Em; [|apply nth_error_None in Em; lia]. exists m'. split; [reflexivity|]. assert (m' = m) by (apply (fits_fun L est x smpls ps (used n proba y) k); [apply M3; exact Em|exact F]). subst m'.
  unfold pred_value in V. assert (v' = v) by congruence. subst v'. exact V.
Qed.
End Props.

(** The two code paths of the cross-fitting engine. *)
From Verif Require Export L_CrossFit L_Order.
From Coq Require Import Lia Lra.
Local Open Scope res_scope.

(** ** Label codes *)
Lemma reqb_spec a b : reqb a b = true <-> a = b.
Proof. unfold reqb. destruct (Req_EM_T a b); split; congruence. Qed.
Lemma runiq_in z l : In z (runiq l) <-> In z l.
Proof.
  induction l as [|x l IH]; cbn; [tauto|]. destruct (existsb (reqb x) l) eqn:E; cbn; rewrite ?IH; [|tauto].
  split; [tauto|]. intros [-> | H]; [|exact H]. apply existsb_exists in E. destruct E as (w & Hw & E). apply reqb_spec in E. congruence.
Qed.
Lemma runiq_nodup l : NoDup (runiq l).
Proof.
  induction l as [|x l IH]; cbn; [constructor|]. destruct (existsb (reqb x) l) eqn:E; [exact IH|]. constructor; [|exact IH].
  rewrite runiq_in. intro H. assert (existsb (reqb x) l = true) by (apply existsb_exists; exists x; split; [exact H|apply reqb_spec; reflexivity]). congruence.
Qed.
Lemma labels_spec n y : label_list n y (labels n y).
Proof.
  unfold labels. set (u := runiq (map y (seq 0 n))). split.
  - pose proof (rsort_sorted u) as Hs. assert (Hn : NoDup (rsort u)) by (apply (Permutation_NoDup (Permutation_sym (rsort_perm u))), runiq_nodup).
    induction Hs as [|x l Hs IH Hf]; constructor; inversion Hn as [|? ? Hx Hn']; subst; [auto|]. rewrite Forall_forall in *. intros z Hz. specialize (Hf z Hz).
    destruct Hf as [Hf|Hf]; [exact Hf|]. subst. contradiction.
  - intro z. rewrite (Permutation_in' (eq_refl z) (rsort_perm u)). unfold u. rewrite runiq_in, in_map_iff. split; intros (i & A & B); exists i; [apply in_seq in B; split; [lia|exact A]|split; [exact B|apply in_seq; lia]].
Qed.
Lemma ssorted_Rlt_eq a : forall b, StronglySorted Rlt a -> StronglySorted Rlt b -> (forall z, In z a <-> In z b) -> a = b.
Proof.
  induction a as [|x a IH]; intros b Ha Hb H.
  - destruct b as [|y b]; [reflexivity|]. exfalso. apply (proj2 (H y)). left; reflexivity.
  - destruct b as [|y b]; [exfalso; apply (proj1 (H x)); left; reflexivity|]. inversion Ha as [|? ? Ha' Fa]; subst. inversion Hb as [|? ? Hb' Fb]; subst. rewrite Forall_forall in Fa, Fb.
    assert (x = y). { destruct (proj1 (H x) (or_introl eq_refl)) as [E|E]; [congruence|]. destruct (proj2 (H y) (or_introl eq_refl)) as [E'|E']; [congruence|]. specialize (Fa y E'). specialize (Fb x E). lra. }
    subst y. f_equal. apply IH; try assumption. intro z. split; intro Hz.
    + destruct (proj1 (H z) (or_intror Hz)) as [<- | ?]; [specialize (Fa x Hz); lra|assumption].
    + destruct (proj2 (H z) (or_intror Hz)) as [<- | ?]; [specialize (Fb x Hz); lra|assumption].
Qed.
Lemma rindex_spec z l : In z l -> nth_error l (rindex z l) = Some z /\ rindex z l < length l.
Proof.
  induction l as [|w l IH]; [intros []|]. cbn. unfold reqb. destruct (Req_EM_T z w) as [->|Hne]; [intros _; split; [reflexivity|lia]|].
  intros [H|H]; [congruence|]. destruct (IH H). split; [assumption|lia].
Qed.
Lemma encode_codes n y : codes n y (encode n y).
Proof.
  exists (labels n y). split; [apply labels_spec|]. intros i Hi. exists (rindex (y i) (labels n y)). split; [|reflexivity].
  apply rindex_spec. apply (proj2 (labels_spec n y)). eauto.
Qed.
Lemma same_labels_eq n y y' : same_labels n y y' -> labels n y = labels n y'.
Proof.
  intro H. destruct (labels_spec n y) as [A B], (labels_spec n y') as [A' B']. apply ssorted_Rlt_eq; try assumption. intro z. rewrite B, B'. apply H.
Qed.
Lemma encode_lt n y i : i < n -> exists p, encode n y i = INR p /\ p < length (labels n y).
Proof. intro Hi. eexists. split; [reflexivity|]. apply rindex_spec, (proj2 (labels_spec n y)). eauto. Qed.
Lemma code_inverse n y p : p < length (labels n y) -> exists i, i < n /\ forall j, y j = y i -> encode n y j = INR p.
Proof.
  intro Hp. destruct (labels_spec n y) as [S M]. set (z := nth p (labels n y) 0%R). assert (Hz : In z (labels n y)) by (apply nth_In; exact Hp).
  destruct (proj1 (M z) Hz) as (i & Hi & Ei). exists i. split; [exact Hi|]. intros j Ej. unfold encode. rewrite Ej, Ei. f_equal.
  destruct (rindex_spec z _ Hz) as [N1 N2]. assert (Nd : NoDup (labels n y)).
  { clear - S. induction S as [|x l S IH F]; constructor; [|exact IH]. rewrite Forall_forall in F. intro H. specialize (F x H). lra. }
  apply (proj1 (NoDup_nth_error (labels n y)) Nd); [exact N2|]. rewrite N1. symmetry. apply nth_error_nth'. exact Hp.
Qed.
Lemma sorted_lt_eq a : forall b, Sorted lt a -> Sorted lt b -> (forall z, In z a <-> In z b) -> a = b.
Proof.
  intros b Ha Hb. apply Sorted_StronglySorted in Ha; [|intros x y z; lia]. apply Sorted_StronglySorted in Hb; [|intros x y z; lia]. revert b Ha Hb.
  induction a as [|x a IH]; intros b Ha Hb H.
  - destruct b as [|y b]; [reflexivity|]. exfalso. apply (proj2 (H y)). left; reflexivity.
  - destruct b as [|y b]; [exfalso; apply (proj1 (H x)); left; reflexivity|]. inversion Ha as [|? ? Ha' Fa]; subst. inversion Hb as [|? ? Hb' Fb]; subst. rewrite Forall_forall in Fa, Fb.
    assert (x = y). { destruct (proj1 (H x) (or_introl eq_refl)) as [E|E]; [congruence|]. destruct (proj2 (H y) (or_introl eq_refl)) as [E'|E']; [congruence|]. specialize (Fa y E'). specialize (Fb x E). lia. }
    subst y. f_equal. apply IH; try assumption. intro z. split; intro Hz.
    + destruct (proj1 (H z) (or_intror Hz)) as [<- | ?]; [specialize (Fa x Hz); lia|assumption].
    + destruct (proj2 (H z) (or_intror Hz)) as [<- | ?]; [specialize (Fb x Hz); lia|assumption].
Qed.

Section Paths.
Context {E X P : Type}.
Variable L : learner E X P.
Variables (f : E -> X -> R) (g : E -> X -> list R).
Hypothesis Hrow : row_wise L f g.
Hypothesis Hclone : clone_ok L.
Variables (est : E) (n : nat) (x : nat -> X) (smpls : list fold) (ps : params P).
Hypothesis Hpart : partition_of n smpls.

Definition used (proba : bool) (y : target) : target := match y with YVec v => if proba then YVec (encode n v) else YVec v | YFolds l => YFolds l end.
Definition fits (y : target) (k : nat) (m : E) : Prop :=
  exists p data, param_of ps k p /\ train_data x y k (nth k smpls ([], [])) data /\ fitted L est p data m.
Lemma fits_fun y k m m' : fits y k m -> fits y k m' -> m = m'.
Proof.
  intros (p & d & A & B & C) (p' & d' & A' & B' & C'). assert (p = p').
  { destruct ps; cbn in *; [congruence|congruence|]. destruct A as (q & Q & ->), A' as (q' & Q' & ->). congruence. }
  assert (d = d').
  { destruct y; cbn in *; [congruence|]. destruct B as (v & V & _ & ->), B' as (v' & V' & _ & ->). congruence. }
  subst. destruct p' as [q|]; cbn in *; [|congruence]. destruct C as (e & E1 & E2), C' as (e' & E1' & E2'). congruence.
Qed.
Lemma Hnodup : NoDup (flat_map snd smpls).
Proof. apply (Permutation_NoDup (Permutation_sym Hpart)), seq_NoDup. Qed.
Lemma fold_idx k h : nth_error smpls k = Some h -> k < length smpls.
Proof. intro H. apply nth_error_Some. rewrite H. discriminate. Qed.
Lemma row_tested i : i < n -> exists k h, nth_error smpls k = Some h /\ k < length smpls /\ In i (snd h).
Proof.
  intro Hi. assert (H : In i (flat_map snd smpls)) by (apply (Permutation_in _ (Permutation_sym Hpart)), in_seq; lia). apply in_flat_map in H. destruct H as (h & Hh & H).
  apply In_nth_error in Hh. destruct Hh as (k & Hk). change (@nth_error fold smpls k = Some h) in Hk. exists k, h. split; [exact Hk|]. split; [apply (fold_idx k h Hk)|exact H].
Qed.

Lemma task_fits y y_list k : k < length smpls -> nth_error y_list k = (match fold_targets y k (nth k smpls ([], [])) with Ok v => Some v | Err _ => None end) -> 
  is_ok (fold_targets y k (nth k smpls ([], []))) = true -> forall m,
  ((let! p := fold_params ps k in let! e := prepare L est p in
    ln_fit L e (combine (map x (fst (nth k smpls ([], [])))) (nth k y_list []))) = Ok m <-> fits y k m).
Proof.
  intros Hk Hy Hok m. set (h := nth k smpls ([], [])) in *.
  assert (D : forall data, train_data x y k h data <-> data = combine (map x (fst h)) (nth k y_list [])).
  { intro data. destruct y as [v|l]; cbn [fold_targets train_data] in *.
    - rewrite (nth_error_nth _ _ _ Hy). unfold train_rows. assert (Q : map (fun i => (x i, v i)) (fst h) = combine (map x (fst h)) (map v (fst h))) by (clear; induction (fst h); cbn; congruence). rewrite Q. reflexivity.
    - destruct (nth_error l k) as [w|] eqn:El; [|discriminate]. destruct (Nat.eqb_spec (length w) (length (fst h))) as [Hw|Hw]; cbn [require] in *; [|discriminate].
      rewrite (nth_error_nth _ _ _ Hy). split; [intros (w' & A & _ & B); congruence|]. intros ->. exists w. auto. }
  unfold fits. fold h. split.
  - intro H. destruct (fold_params ps k) as [p|e] eqn:Ep; [|discriminate]. cbn [bind] in H. exists p, (combine (map x (fst h)) (nth k y_list [])).
    split; [destruct ps; cbn in *; [congruence|congruence|]; destruct (nth_error l k); [|discriminate]; eexists; split; [reflexivity|congruence]|].
    split; [apply D; reflexivity|]. destruct p as [q|]; cbn [prepare bind fitted] in *; [|exact H]. destruct (ln_set L (ln_clone L est) q) as [e|] eqn:Es; [|discriminate]. exists e. auto.
  - intros (p & data & Hp & Hd & Hf). apply D in Hd. subst data.
    assert (Ep : fold_params ps k = Ok p) by (destruct ps; cbn in *; [congruence|congruence|]; destruct Hp as (q & -> & ->); reflexivity).
    rewrite Ep. cbn [bind]. destruct p as [q|]; cbn [prepare bind fitted] in *; [|exact Hf]. destruct Hf as (e & -> & Hf). exact Hf.
Qed.

(** *** Manual path *)
Definition preds_by (proba : bool) (y : target) (val : E -> X -> R -> Prop) (res : cvres E) : Prop :=
  forall k h i, nth_error smpls k = Some h -> In i (snd h) -> exists m v, fits (used proba y) k m /\ cv_preds res i = Some v /\ val m (x i) v.
Lemma manual_inv order y proba wt wm res : schedule order (length smpls) ->
  cv_manual L order est n x y smpls ps proba wt wm true = Ok res ->
  (forall k, k < length smpls -> exists m, fits (used proba y) k m) /\
  preds_by proba y (pred_value f g proba) res /\
  (wm = true -> exists models, cv_models res = Some models /\ length models = length smpls /\ forall k m, nth_error models k = Some m -> fits (used proba y) k m) /\
  match used proba y with YVec v => exists t, cv_targets res = Some t /\ forall i, i < n -> t i = Some (v i) | YFolds _ => cv_targets res = None end.
Proof.
  intros Hs H. unfold cv_manual in H. cbn [orb] in H. do 2 (cbn [require] in H).
  destruct (negb (proba && is_fold_target y)); cbn [require] in H; [|discriminate]. fold (used proba y) in H. set (u := used proba y) in *.
  destruct (map_res (fun k => fold_targets u k (nth k smpls ([], []))) (seq 0 (length smpls))) as [y_list|e] eqn:Ey; [|discriminate]. cbn [bind] in H.
  destruct (match ps with FoldDicts l => Nat.eqb (length l) (length smpls) | _ => true end); cbn [require] in H; [|discriminate].
  match type of H with bind ?m _ = _ => destruct m as [models|e] eqn:Em end; [|discriminate]. cbn [bind] in H.
  apply parallel_iff in Em; [|exact Hs]. apply map_res_nth in Em. destruct Em as [Lm Em]. apply map_res_nth in Ey. destruct Ey as [Ly Ey].
  match type of H with bind ?m _ = _ => destruct m as [[[[p' t'] tr'] tgs']|e] eqn:El end; [|discriminate]. cbn [bind] in H. injection H as <-. cbn [cv_preds cv_models cv_targets].
  assert (Fit : forall k, k < length smpls -> exists m, nth_error models k = Some m /\ fits u k m).
  { intros k Hk. destruct (Em k Hk) as (m & M1 & M2). exists m. split; [exact M1|]. destruct (Ey k Hk) as (v & V1 & V2).
    apply (task_fits u y_list k Hk) in M2; [exact M2| |]; rewrite V2; [exact V1|reflexivity]. }
  apply (loop_spec L f g Hrow) in El; [|exact Hnodup]. destruct El as [_ B].
  split; [intros k Hk; destruct (Fit k Hk) as (m & _ & Hm); eauto|]. split; [|split].
  - intros k h i Hk Hi. destruct (B k h i Hk Hi) as (m & v & M & V & PV & _). exists m, v. split; [|split; assumption].
    assert (Lk : k < length smpls) by (apply (fold_idx k h Hk)). destruct (Fit k Lk) as (m' & M' & Fm). change (0 + k) with k in M. replace m with m' by congruence. exact Fm.
  - intros ->. exists models. split; [reflexivity|]. split; [exact Lm|]. intros k m Hm. assert (Lk : k < length models) by (apply nth_error_Some; congruence). rewrite Lm in Lk. destruct (Fit k Lk) as (m' & M' & Fm). replace m with m' by congruence. exact Fm.
  - destruct u as [v|l]; cbn [is_fold_target]; [|reflexivity]. exists t'. split; [reflexivity|]. intros i Hi. destruct (row_tested i Hi) as (k & h & Hk & _ & Hin). destruct (B k h i Hk Hin) as (m & w & _ & _ & _ & T). exact T.
Qed.
Lemma manual_def order y proba wt wm : schedule order (length smpls) ->
  (proba = true -> exists v, y = YVec v) -> (wt = true -> exists v, y = YVec v) ->
  (match ps with FoldDicts l => length l = length smpls | _ => True end) ->
  (forall k, k < length smpls -> exists m, fits (used proba y) k m) ->
  (proba = true -> forall k m xi, k < length smpls -> fits (used proba y) k m -> 2 <= length (g m xi)) ->
  exists res, cv_manual L order est n x y smpls ps proba wt wm true = Ok res.
Proof.
  intros Hs Hp Hw Hps Hf Hg. unfold cv_manual. cbn [orb require]. replace (negb (proba && is_fold_target y)) with true; [|destruct proba; [destruct (Hp eq_refl) as [v ->]|]; reflexivity].
  cbn [require]. fold (used proba y). set (u := used proba y) in *.
  assert (Hft : forall k, k < length smpls -> exists v, fold_targets u k (nth k smpls ([], [])) = Ok v).
  { intros k Hk. destruct (Hf k Hk) as (m & p & data & _ & Hd & _). destruct u as [v|l]; cbn in *; [eauto|]. destruct Hd as (v & -> & Hl & _). rewrite Hl, Nat.eqb_refl. cbn. eauto. }
  destruct (proj2 (map_res_ok_all (fun k => fold_targets u k (nth k smpls ([], []))) (seq 0 (length smpls)))) as [y_list Ey]; [intros k Hk; apply Hft; apply in_seq in Hk; lia|].
  rewrite Ey. cbn [bind]. replace (match ps with FoldDicts l => Nat.eqb (length l) (length smpls) | _ => true end) with true; [|destruct ps; try reflexivity; rewrite Hps, Nat.eqb_refl; reflexivity]. cbn [require].
  apply map_res_nth in Ey. destruct Ey as [Ly Ey].
  match goal with |- exists res, bind (parallel order ?K ?t) _ = _ => set (task := t) end.
  assert (T : forall k, k < length smpls -> forall m, task k = Ok m <-> fits u k m).
  { intros k Hk m. destruct (Ey k Hk) as (v & V1 & V2). apply (task_fits u y_list k Hk); rewrite V2; [exact V1|reflexivity]. }
  destruct (proj2 (map_res_ok_all task (seq 0 (length smpls)))) as [models Em]; [intros k Hk; apply in_seq in Hk; destruct (Hf k ltac:(lia)) as [m Hm]; exists m; apply T; [lia|exact Hm]|].
  rewrite (proj2 (parallel_iff order (length smpls) task models Hs) Em). cbn [bind]. apply map_res_nth in Em. destruct Em as [Lm Em].
  destruct (loop_def L f g Hrow x u proba wt models smpls) with (k := 0) (preds := fun _ : nat => @None R) (targets := fun _ : nat => @None R) (tr := @nil (list (list R))) (tgs := @nil (list R)) as [r Hr].
  - destruct wt; [|left; reflexivity]. right. destruct (Hw eq_refl) as [v Hv]. unfold u. rewrite Hv. cbn. destruct proba; eauto.
  - intros Hpr m xi Hm. apply In_nth_error in Hm. destruct Hm as (k & Hk). assert (Lk : k < length models) by (apply nth_error_Some; congruence). rewrite Lm in Lk.
    destruct (Em k Lk) as (m' & M1 & M2). apply (Hg Hpr k); [exact Lk|]. apply T; [exact Lk|]. replace m with m' by congruence. exact M2.
  - lia.
  - rewrite Hr. cbn [bind]. destruct r as [[[p' t'] tr'] tgs']. eauto.
Qed.

(** *** Fast path *)
Definition eorow (nc : nat) (classes : list nat) (r : list R) : list R :=
  if Nat.eqb nc (length classes) then r
  else map (fun c => match find (fun p : nat * R => Nat.eqb (fst p) c) (combine classes r) with Some p => snd p | None => 0%R end) (seq 0 nc).
Lemma enforce_rows nc cl rows : enforce_order nc cl rows = map (eorow nc cl) rows.
Proof. unfold enforce_order, eorow. destruct (Nat.eqb nc (length cl)); [symmetry; apply map_id|reflexivity]. Qed.
Definition fast_value (proba : bool) (y : nat -> R) (m : E) (xi : X) (v : R) : Prop :=
  if proba then nth_error (eorow (length (labels n y)) (ln_classes L m) (g m xi)) 1 = Some v else v = f m xi.
Definition fast_row (proba : bool) (y : nat -> R) (m : E) (xi : X) : list R :=
  if proba then eorow (length (labels n y)) (ln_classes L m) (g m xi) else [f m xi].
Lemma fast_task (proba : bool) y k : is_list_params ps = false ->
  forall e, (match ps with NoParams => Ok (ln_clone L est) | OneDict p => ln_set L (ln_clone L est) p | FoldDicts _ => Err AssertionError end) = Ok e ->
  forall r, ((let h := nth k smpls ([], []) in
     let! m := ln_fit L (ln_clone L e) (map (fun i => (x i, (if proba then encode n y else y) i)) (fst h)) in
     Ok (if proba then enforce_order (length (labels n y)) (ln_classes L m) (ln_proba L m (map x (snd h)))
         else map (fun v => [v]) (ln_predict L m (map x (snd h))))) = Ok r <->
    exists m, fits (used proba (YVec y)) k m /\ r = map (fun i => fast_row proba y m (x i)) (snd (nth k smpls ([], [])))).
Proof.
  intros Hl e He r. set (h := nth k smpls ([], [])). cbv zeta.
  assert (F : forall m, ln_fit L (ln_clone L e) (map (fun i => (x i, (if proba then encode n y else y) i)) (fst h)) = Ok m <-> fits (used proba (YVec y)) k m).
  { intro m. unfold fits. fold h. assert (D : forall data, train_data x (used proba (YVec y)) k h data <-> data = map (fun i => (x i, (if proba then encode n y else y) i)) (fst h)) by (intro; destruct proba; reflexivity).
    destruct Hclone as [C1 C2]. destruct ps as [|q|l]; [| |discriminate].
    - injection He as <-. rewrite C1. split; [intro H; exists None; eexists; split; [reflexivity|]; split; [apply D; reflexivity|exact H]|]. intros (p & data & Hp & Hd & Hf). apply D in Hd. cbn in Hp. subst. exact Hf.
    - rewrite (C2 _ _ _ He). split; [intro H; exists (Some q); eexists; split; [reflexivity|]; split; [apply D; reflexivity|exists e; auto]|]. intros (p & data & Hp & Hd & Hf). apply D in Hd. cbn in Hp. subst. destruct Hf as (e' & E1 & E2). congruence. }
  assert (Rw : forall m, (if proba then enforce_order (length (labels n y)) (ln_classes L m) (ln_proba L m (map x (snd h))) else map (fun v => [v]) (ln_predict L m (map x (snd h)))) = map (fun i => fast_row proba y m (x i)) (snd h)).
  { intro m. destruct (Hrow m (map x (snd h))) as [H1 H2]. unfold fast_row. destruct proba; [rewrite enforce_rows, H2, !map_map; reflexivity|rewrite H1, !map_map; reflexivity]. }
  split.
  - intro H. destruct (ln_fit L _ _) as [m|] eqn:Ef; [|discriminate]. cbn [bind] in H. injection H as <-. exists m. split; [apply F; reflexivity|apply Rw].
  - intros (m & Hm & ->). apply F in Hm. rewrite Hm. cbn [bind]. f_equal. apply Rw.
Qed.
Lemma fast_rows order y proba e rows : schedule order (length smpls) -> is_list_params ps = false ->
  (match ps with NoParams => Ok (ln_clone L est) | OneDict p => ln_set L (ln_clone L est) p | FoldDicts _ => Err AssertionError end) = Ok e ->
  cross_val_predict L order e n x y smpls proba = Ok rows ->
  length rows = n /\ (forall k, k < length smpls -> exists m, fits (used proba (YVec y)) k m) /\
  forall k h i, nth_error smpls k = Some h -> In i (snd h) -> exists m, fits (used proba (YVec y)) k m /\ nth_error rows i = Some (fast_row proba y m (x i)).
Proof.
  intros Hs Hl He H. unfold cross_val_predict in H. match type of H with bind ?m _ = _ => destruct m as [per|e'] eqn:Ep end; [|discriminate]. cbn [bind] in H. injection H as <-.
  apply parallel_iff in Ep; [|exact Hs]. apply map_res_nth in Ep. destruct Ep as [Lp Ep].
  assert (Q : forall k, k < length smpls -> exists r m, nth_error per k = Some r /\ fits (used proba (YVec y)) k m /\ r = map (fun i => fast_row proba y m (x i)) (snd (nth k smpls ([], [])))).
  { intros k Hk. destruct (Ep k Hk) as (r & R1 & R2). apply (fast_task proba y k Hl e He) in R2. destruct R2 as (m & M1 & M2). exists r, m. auto. }
  split; [rewrite map_length, seq_length; reflexivity|]. split; [intros k Hk; destruct (Q k Hk) as (r & m & _ & Hm & _); eauto|].
  intros k h i Hk Hi. assert (Lk : k < length smpls) by (apply (fold_idx k h Hk)). destruct (Q k Lk) as (r & m & R1 & Hm & R2). exists m. split; [exact Hm|].
  assert (Li : i < n).
  { assert (In i (flat_map snd smpls)) by (apply in_flat_map; exists h; split; [apply (nth_error_In _ _ Hk)|exact Hi]). apply (Permutation_in _ Hpart), in_seq in H. lia. }
  rewrite nth_error_map. replace (nth_error (seq 0 n) i) with (Some i) by (symmetry; rewrite (nth_error_nth' _ 0) by (rewrite seq_length; exact Li); rewrite seq_nth by exact Li; reflexivity). cbn [option_map]. f_equal.
  rewrite (concat_nth smpls per k h i []); [|exact Hnodup| |exact Hk|exact Hi].
  - rewrite (nth_error_nth _ _ _ R1), R2. rewrite (nth_error_nth _ _ _ Hk).
    assert (N : nth_error (map (fun i => fast_row proba y m (x i)) (snd h)) (position i (snd h)) = Some (fast_row proba y m (x i))) by (rewrite nth_error_map, nth_error_position by exact Hi; reflexivity).
    apply (nth_error_nth _ _ _ N).
  - assert (G : forall (sm : list fold) (pr : list (list (list R))), length pr = length sm -> (forall k, k < length sm -> exists r, nth_error pr k = Some r /\ length r = length (snd (nth k sm ([], [])))) -> Forall2 (fun f r => length r = length (snd f)) sm pr).
    { clear. induction sm as [|h sm IH]; intros [|r pr] HL HH; cbn in HL; try discriminate; constructor; [destruct (HH 0) as (r0 & A & B); [cbn; lia|]; cbn in A; injection A as <-; exact B|].
      apply IH; [lia|]. intros k Hk. destruct (HH (S k)) as (r0 & A & B); [cbn; lia|]. exists r0. auto. }
    apply G; [exact Lp|]. intros k0 Hk0. destruct (Q k0 Hk0) as (r0 & m0 & A & _ & B). exists r0. split; [exact A|]. rewrite B, map_length. reflexivity.
Qed.
Lemma fast_inv order y proba res : schedule order (length smpls) -> cv_fast L order est n x y smpls ps proba = Ok res ->
  is_list_params ps = false /\ (forall k, k < length smpls -> exists m, fits (used proba (YVec y)) k m) /\
  preds_by proba (YVec y) (fast_value proba y) res /\ exists t, cv_targets res = Some t /\ forall i, i < n -> t i = Some (y i).
Proof.
  intros Hs H. unfold cv_fast in H. match type of H with bind ?m _ = _ => destruct m as [e|e'] eqn:Ee end; [|discriminate]. cbn [bind] in H.
  assert (Hl : is_list_params ps = false) by (destruct ps; [reflexivity|reflexivity|discriminate]).
  match type of H with bind ?m _ = _ => destruct m as [rows|e'] eqn:Er end; [|discriminate]. cbn [bind] in H.
  destruct (fast_rows order y proba e rows Hs Hl Ee Er) as (Lr & Q1 & Q2).
  match type of H with bind ?m _ = _ => destruct m as [preds|e'] eqn:Epr end; [|discriminate]. cbn [bind] in H. injection H as <-.
  split; [exact Hl|]. split; [exact Q1|]. split.
  - intros k h i Hk Hi. destruct (Q2 k h i Hk Hi) as (m & Hm & Hr). exists m. unfold cv_preds, fast_value, fast_row in *. destruct proba.
    + apply col1_ok in Epr. destruct Epr as [_ C]. destruct (C i _ Hr) as (v & V1 & V2). exists v. auto.
    + injection Epr as <-. exists (f m (x i)). split; [exact Hm|]. split; [rewrite nth_error_map, Hr; reflexivity|reflexivity].
  - eexists. split; [reflexivity|]. intros i Hi. cbn beta. rewrite (proj2 (Nat.ltb_lt i n) Hi). reflexivity.
Qed.
Lemma fast_def order y (proba : bool) : schedule order (length smpls) -> is_list_params ps = false -> 0 < length smpls ->
  (forall k, k < length smpls -> exists m, fits (used proba (YVec y)) k m) ->
  (proba = true -> forall k m xi, k < length smpls -> fits (used proba (YVec y)) k m -> 2 <= length (eorow (length (labels n y)) (ln_classes L m) (g m xi))) ->
  exists res, cv_fast L order est n x y smpls ps proba = Ok res.
Proof.
  intros Hs Hl HK Hf Hg. unfold cv_fast.
  assert (He : exists e, (match ps with NoParams => Ok (ln_clone L est) | OneDict p => ln_set L (ln_clone L est) p | FoldDicts _ => Err AssertionError end) = Ok e).
  { destruct (Hf 0 HK) as (m & p & data & Hp & _ & Hm). destruct ps as [|q|l]; [eauto| |discriminate]. cbn in Hp. subst p. destruct Hm as (e & -> & _). eauto. }
  destruct He as [e He]. rewrite He. cbn [bind].
  assert (Hr : exists rows, cross_val_predict L order e n x y smpls proba = Ok rows).
  { unfold cross_val_predict. match goal with |- exists r, bind (parallel order ?K ?t) _ = _ => set (task := t) end.
    destruct (proj2 (map_res_ok_all task (seq 0 (length smpls)))) as [per Ep].
    - intros k Hk. apply in_seq in Hk. destruct (Hf k ltac:(lia)) as [m Hm]. eexists. apply (fast_task proba y k Hl e He). exists m. split; [exact Hm|reflexivity].
    - rewrite (proj2 (parallel_iff order (length smpls) task per Hs) Ep). cbn [bind]. eauto. }
  destruct Hr as [rows Hr]. rewrite Hr. cbn [bind]. destruct (fast_rows order y proba e rows Hs Hl He Hr) as (Lr & _ & Q).
  destruct proba; [|cbn [bind]; eexists; reflexivity].
  assert (C : exists v, col1 rows = Ok v).
  { unfold col1. apply map_res_ok_all. intros r Hr0. apply In_nth_error in Hr0. destruct Hr0 as (i & Hi). assert (Li : i < n) by (rewrite <- Lr; apply nth_error_Some; congruence).
    destruct (row_tested i Li) as (k & h & Hk & Lk & Hin). destruct (Q k h i Hk Hin) as (m & Hm & Hrow'). assert (r = fast_row true y m (x i)) by congruence. subst r.
    specialize (Hg eq_refl k m (x i) Lk Hm). cbn [fast_row]. destruct (nth_error _ 1) eqn:E1; [eauto|]. apply nth_error_None in E1. lia. }
  destruct C as [v ->]. cbn [bind]. eexists. reflexivity.
Qed.

(** With all labels in every train part, both paths read the same column. *)
Lemma classes_full y k m : classifier_ok L g -> labels_in_train n y smpls -> train_in_range n smpls -> k < length smpls ->
  fits (used true (YVec y)) k m -> ln_classes L m = seq 0 (length (labels n y)) /\ forall xi, length (g m xi) = length (labels n y).
Proof.
  intros Hc Hlab Hr Hk (p & data & _ & Hd & Hf). cbn in Hd. subst data.
  assert (Hfit : exists e, ln_fit L e (train_rows x (encode n y) (nth k smpls ([], []))) = Ok m) by (destruct p as [q|]; cbn in Hf; [destruct Hf as (e & _ & Hf)|]; eauto).
  destruct Hfit as [e Hfit]. destruct (Hc e _ m Hfit) as (S & M & Lg).
  assert (Q : ln_classes L m = seq 0 (length (labels n y))).
  { apply sorted_lt_eq; [exact S|apply seq_sorted|]. intro c. rewrite M, in_seq. assert (Hin : In (nth k smpls ([], [])) smpls) by (apply nth_In; exact Hk). split.
    - intros (xi & H). apply in_map_iff in H. destruct H as (i & Ei & Hi). injection Ei as _ Ei. specialize (Hr _ i Hin Hi). destruct (encode_lt n y i Hr) as (q & Q1 & Q2). assert (q = c) by (apply INR_eq; congruence). lia.
    - intros [_ H]. cbn in H. destruct (code_inverse n y c H) as (i & Hi & Hj). destruct (Hlab _ i Hin Hi) as (j & J1 & J2). exists (x j). apply in_map_iff. exists j. split; [rewrite (Hj j J2); reflexivity|exact J1]. }
  split; [exact Q|]. intro xi. rewrite Lg, Q. apply seq_length.
Qed.
Lemma fast_is_manual y k m xi v (proba : bool) : (proba = true -> classifier_ok L g /\ labels_in_train n y smpls /\ train_in_range n smpls) -> k < length smpls ->
  fits (used proba (YVec y)) k m -> (fast_value proba y m xi v <-> pred_value f g proba m xi v).
Proof.
  intros Hc Hk Hm. unfold fast_value, pred_value. destruct proba; [|reflexivity]. destruct (Hc eq_refl) as (C1 & C2 & C3). destruct (classes_full y k m C1 C2 C3 Hk Hm) as [Q _].
  unfold eorow. rewrite Q, seq_length, Nat.eqb_refl. reflexivity.
Qed.
End Paths.

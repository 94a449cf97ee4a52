(** Nuisance estimation of the model classes. *)
From Verif Require Export S_Nuis L_CrossProps L_TuneLeak L_ClusterSplit.
From Coq Require Import Lia Lra.
Local Open Scope R_scope.
Local Open Scope res_scope.

(** ** Codes of 0/1 labels *)
Lemma codes_zero_one n y c : binary n y -> some_row n (fun i => y i = 0) -> codes n y c -> forall i, (i < n)%nat -> c i = y i.
Proof.
  intros Hb (i0 & Hi0 & Hz) (lab & (Hs & Hl) & Hc) i Hi. destruct (Hc i Hi) as (p & Hp & ->).
  assert (Hin : forall z, In z lab -> z = 0 \/ z = 1). { intros z Hz'. apply Hl in Hz' as (j & Hj & <-). now apply Hb. }
  destruct lab as [|a lab]; [destruct p; discriminate|]. assert (Ha : a = 0).
  { inversion Hs as [|? ? Hs' Hf]; subst. rewrite Forall_forall in Hf. assert (I0 : In 0 (a :: lab)) by (apply Hl; eauto). destruct I0 as [E|E]; [exact E|]. specialize (Hf 0 E).
    destruct (Hin a (or_introl eq_refl)); lra. }
  subst a. destruct p as [|p]; cbn in Hp; [injection Hp as <-; reflexivity|]. inversion Hs as [|? ? Hs' Hf]; subst. rewrite Forall_forall in Hf.
  assert (Hy : y i = 1). { apply nth_error_In in Hp. specialize (Hf _ Hp). destruct (Hin _ (or_intror Hp)); lra. }
  destruct p as [|p]; [rewrite Hy; reflexivity|]. exfalso. destruct lab as [|b lab]; [destruct p; discriminate|]. cbn in Hp. inversion Hs' as [|? ? Hs2 Hf2]; subst. rewrite Forall_forall in Hf2.
  apply nth_error_In in Hp. specialize (Hf2 _ Hp). specialize (Hf b (or_introl eq_refl)). destruct (Hin b (or_intror (or_introl eq_refl))); lra.
Qed.

(** ** Subsamples *)
Lemma sub_flat n c smpls : flat_map snd (cond_smpls n c smpls) = flat_map snd smpls.
Proof. rewrite !flat_map_concat_map. now rewrite cond_smpls_tests. Qed.
Lemma sub_tested n c smpls i k h : tested_in (cond_smpls n c smpls) i k h -> exists h0, tested_in smpls i k h0 /\ fst h = intersect_where n c (fst h0).
Proof.
  intros (A & B & C). unfold cond_smpls in *. rewrite nth_error_map in A. destruct (nth_error smpls k) as [h0|] eqn:E; [|discriminate]. injection A as <-. exists h0. split; [|reflexivity].
  split; [exact E|]. split; [exact B|]. intros k' f' Hk Hf. apply (C k' (intersect_where n c (fst f'), snd f')); [|exact Hf]. rewrite nth_error_map, Hk. reflexivity.
Qed.
Lemma sub_sorted n c train : Sorted lt (intersect_where n c train).
Proof.
  assert (Hk : (0 < length [(train, @nil nat)])%nat) by (cbn; lia). pose proof (cond_smpls_train n c [(train, [])] 0 Hk) as H. cbn zeta in H. cbn in H. tauto.
Qed.
Lemma is01_iff v b i : is01 v b i = true <-> v i = b.
Proof. apply reqb_spec. Qed.
Lemma is01_2_iff v w a b i : is01_2 v w a b i = true <-> v i = a /\ w i = b.
Proof. unfold is01_2. rewrite andb_true_iff. rewrite !reqb_spec. reflexivity. Qed.

Section Fit.
Context {E P : Type}.
Variable L : learner E row P.
Variables (f : E -> row -> R) (g : E -> row -> list R).
Variable su : setup E P.

Lemma fit_all name lrn x y smpls h : setting L f g su smpls -> labels_ok L g su lrn y (fun _ => True) smpls -> fit_nuis L su name lrn x y smpls = Ok h ->
  cross_fitted L f g su name lrn x y whole_train smpls (hv h) /\ (forall i, (i < su_n su)%nat -> h_preds h i = Some (hv h i)) /\
  exists t c, h_targets h = Some t /\ (c = y \/ codes (su_n su) y c /\ su_proba su lrn = true) /\ forall i, (i < su_n su)%nat -> t i = Some (c i).
Proof.
  intros S Hl H. unfold fit_nuis in H. destruct (cv_predict _ _ _ _ _ _ _ _ _ _ _) as [r|] eqn:Er; [|discriminate]. cbn in H. injection H as <-. unfold hv. cbn [h_preds h_targets].
  destruct S as [S1 S2 S3 S4 S5]. assert (T : exists t c, cv_targets r = Some t /\ (c = y \/ codes (su_n su) y c /\ su_proba su lrn = true) /\ forall i, (i < su_n su)%nat -> t i = Some (c i)).
  { pose proof Er as H. rewrite cv_cases in H by (try assumption; apply (cv_nonempty _ _ _ _ _ _ _ _ _ _ _ _ Er)). destruct (is_fast _ _ _ _).
    - apply (fast_inv L f g S1 S2) in H; [|assumption|apply S5]. destruct H as (_ & _ & _ & t & T1 & T2). exists t, y. auto.
    - apply (manual_inv L f g S1) in H; [|assumption|apply S5]. destruct H as (_ & _ & _ & H). unfold used in H. destruct (su_proba su lrn) eqn:Ep.
      + destruct H as (t & T1 & T2). exists t, (encode (su_n su) y). split; [exact T1|]. split; [right; split; [apply encode_codes|reflexivity]|exact T2].
      + destruct H as (t & T1 & T2). exists t, y. auto. }
  destruct (su_proba su lrn) eqn:Ep.
  - destruct (Hl Ep) as (Hc & Hlab). assert (Hlt : labels_in_train (su_n su) y smpls). { intros h i Hh Hi. destruct (Hlab h i Hh Hi) as (j & _ & _ & Hj & Hy). eauto. }
    destruct (own_fold_proba L f g S1 S2 _ _ _ _ _ _ _ _ _ _ S3 (S5 name) Hc Hlt S4 Er) as (c & C1 & C2).
    split; [|split; [|exact T]].
    + exists c. rewrite Ep. split; [exact C1|]. intros i Hi. destruct (C2 i Hi) as (k & h & p & m & v & T1 & T2 & T3 & T4 & T5). exists k, h, (fst h), p, m. rewrite T4. cbn [oget].
      split; [exact T1|]. split; [reflexivity|]. split; [exact T2|]. split; [exact T3|exact T5].
    + intros i Hi. destruct (C2 i Hi) as (k & h & p & m & v & _ & _ & _ & T4 & _). rewrite T4. reflexivity.
  - pose proof (own_fold L f g S1 S2 _ _ _ _ _ _ _ _ _ _ S3 (S5 name) Er) as C2. split; [|split; [|exact T]].
    + exists y. rewrite Ep. split; [reflexivity|]. intros i Hi. destruct (C2 i Hi) as (k & h & p & data & m & T1 & T2 & T3 & T4 & T5). exists k, h, (fst h), p, m. cbn in T3. subst data. rewrite T5. cbn [oget].
      split; [exact T1|]. split; [reflexivity|]. split; [exact T2|]. split; [exact T4|reflexivity].
    + intros i Hi. destruct (C2 i Hi) as (k & h & p & data & m & _ & _ & _ & _ & T5). rewrite T5. reflexivity.
Qed.
Lemma setting_sub smpls c : setting L f g su smpls -> setting L f g su (cond_smpls (su_n su) c smpls).
Proof.
  intros [S1 S2 S3 S4 S5]. split; [exact S1|exact S2|unfold partition_of; rewrite sub_flat; exact S3| |].
  - intros h i Hh Hi. unfold cond_smpls in Hh. apply in_map_iff in Hh as (h0 & <- & _). cbn in Hi. apply intersect_in in Hi. tauto.
  - intro l. unfold cond_smpls. rewrite map_length. apply S5.
Qed.
Lemma labels_sub lrn y c (G : nat -> Prop) smpls : (forall i, c i = true <-> G i) -> labels_ok L g su lrn y G smpls -> labels_ok L g su lrn y (fun _ => True) (cond_smpls (su_n su) c smpls).
Proof.
  intros HG H Hp. destruct (H Hp) as (Hc & Hl). split; [exact Hc|]. intros h i Hh Hi. unfold cond_smpls in Hh. apply in_map_iff in Hh as (h0 & <- & Hh0).
  destruct (Hl h0 i Hh0 Hi) as (j & J1 & J2 & J3 & J4). exists j. split; [exact J1|]. split; [trivial|]. split; [|exact J4]. cbn. apply intersect_in. rewrite HG. auto.
Qed.
Lemma cross_fitted_sub name lrn x y c (G : nat -> Prop) smpls v : (forall i, c i = true <-> G i) -> cross_fitted L f g su name lrn x y whole_train (cond_smpls (su_n su) c smpls) v ->
  cross_fitted L f g su name lrn x y (group_rows (su_n su) G) smpls v.
Proof.
  intros HG (cc & C1 & C2). exists cc. split; [exact C1|]. intros i Hi. destruct (C2 i Hi) as (k & h & rows & p & m & T1 & T2 & T3 & T4 & T5). unfold whole_train in T2. subst rows.
  apply sub_tested in T1 as (h0 & T1 & Eh). exists k, h0, (fst h), p, m. split; [exact T1|]. split; [|auto]. rewrite Eh. split; [apply sub_sorted|]. intro j. rewrite intersect_in, HG. reflexivity.
Qed.
Lemma fit_sub name lrn x y c (G : nat -> Prop) smpls h : (forall i, c i = true <-> G i) -> setting L f g su smpls -> labels_ok L g su lrn y G smpls -> fit_nuis L su name lrn x y (sub su c smpls) = Ok h ->
  cross_fitted L f g su name lrn x y (group_rows (su_n su) G) smpls (hv h) /\ (forall i, (i < su_n su)%nat -> h_preds h i = Some (hv h i)) /\
  exists t c, h_targets h = Some t /\ (c = y \/ codes (su_n su) y c /\ su_proba su lrn = true) /\ forall i, (i < su_n su)%nat -> t i = Some (c i).
Proof.
  intros HG S Hl H. apply fit_all in H; [|apply setting_sub, S|apply (labels_sub lrn y c G); assumption]. destruct H as (A & B & C). split; [|split; [exact B|exact C]]. apply (cross_fitted_sub name lrn x y c); assumption.
Qed.
Lemma checked_inv name lrn x y used smpls h : fit_checked L su name lrn x y used smpls = Ok h -> fit_nuis L su name lrn x y used = Ok h.
Proof. unfold fit_checked. destruct (fit_nuis L su name lrn x y used) as [h'|]; [|discriminate]. cbn. destruct (finite_on smpls h'); cbn; [|discriminate]. trivial. Qed.

(** A nuisance function, external or fitted, on all rows or in a subgroup. *)
Definition known (h : hat) : Prop := forall i, (i < su_n su)%nat -> h_preds h i = Some (hv h i).
Lemma known_ext v : known (ext_hat v). Proof. intros i _. reflexivity. Qed.
Lemma nuis_all name lrn x y smpls h : setting L f g su smpls -> (su_ext su name = None -> labels_ok L g su lrn y (fun _ => True) smpls) ->
  or_ext su name (fit_checked L su name lrn x y smpls smpls) = Ok h -> nuisance L f g su name lrn x y whole_train smpls (hv h) /\ known h.
Proof.
  intros S Hl H. unfold or_ext in H. unfold nuisance. destruct (su_ext su name) as [v|] eqn:Ex; [injection H as <-; split; [reflexivity|apply known_ext]|].
  apply checked_inv in H. apply fit_all in H; [|exact S|auto]. tauto.
Qed.
Lemma mask_hv c h : hv (mask c h) = hv h. Proof. reflexivity. Qed.
Lemma mask_known c h : known h -> known (mask c h). Proof. intro H. exact H. Qed.
Lemma trim_known tr thr h : known h -> known (trim_hat tr thr h).
Proof. intros H i Hi. unfold hv, trim_hat. cbn. rewrite (H i Hi). reflexivity. Qed.
Lemma trim_hv tr thr h i : known h -> (i < su_n su)%nat -> hv (trim_hat tr thr h) i = if tr then rclip thr (1 - thr) (hv h i) else hv h i.
Proof. intros H Hi. unfold hv, trim_hat. cbn. rewrite (H i Hi). reflexivity. Qed.
Lemma nuis_sub name lrn x y c (G : nat -> Prop) smpls h : (forall i, c i = true <-> G i) -> setting L f g su smpls -> (su_ext su name = None -> labels_ok L g su lrn y G smpls) ->
  or_ext su name (let! h := fit_checked L su name lrn x y (sub su c smpls) smpls in Ok (mask c h)) = Ok h ->
  nuisance L f g su name lrn x y (group_rows (su_n su) G) smpls (hv h) /\ known h.
Proof.
  intros HG S Hl H. unfold or_ext in H. unfold nuisance. destruct (su_ext su name) as [v|] eqn:Ex; [injection H as <-; split; [reflexivity|apply known_ext]|].
  destruct (fit_checked L su name lrn x y (sub su c smpls) smpls) as [h'|] eqn:Eh; [|discriminate]. cbn in H. injection H as <-. apply checked_inv in Eh.
  apply (fit_sub name lrn x y c G) in Eh; auto. rewrite mask_hv. tauto.
Qed.
End Fit.

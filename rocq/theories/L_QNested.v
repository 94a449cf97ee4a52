(** Nested cross-fitting of the quantile models. *)
From Verif Require Import S_Quantile L_Sum L_Quantile L_QScore L_Order.
From Coq Require Import Lra Lia FunctionalExtensionality.
Local Open Scope R_scope.
Local Open Scope res_scope.

Lemma take_agree rows (v v' : vec) : (forall i, In i rows -> v i = v' i) -> take rows v = take rows v'.
Proof. intros H. unfold take. rewrite (map_ext_in _ v'); auto. Qed.

Section Agree.
Context {E X P : Type}.
Variables (G M : learner E X P) (o : q_oracles) (x0 : X) (c : @pq_cfg E).
Variables (x x' : nat -> X) (y y' d d' : vec) (f : fold).
Hypothesis Hspl : splitters_ok o.
Hypothesis Hag : agree_on f x x' y y' d d'.

Lemma agx i : In i (fst f) -> x i = x' i. Proof. intros H. apply (proj1 Hag i H). Qed.
Lemma agy i : In i (fst f) -> y i = y' i. Proof. intros H. apply (proj1 Hag i H). Qed.
Lemma agd i : In i (fst f) -> d i = d' i. Proof. intros H. apply (proj1 Hag i H). Qed.
Lemma agt i : In i (snd f) -> x i = x' i. Proof. intros H. apply (proj2 Hag i H). Qed.
Lemma halves_sub lab i : In i (fst (qo_tts o (fst f) lab)) \/ In i (snd (qo_tts o (fst f) lab)) -> In i (fst f).
Proof. intros H. destruct Hspl as (S & _). apply (Permutation_in _ (S (fst f) lab)). apply in_or_app. auto. Qed.
Lemma dlab : map d (fst f) = map d' (fst f).
Proof. apply map_ext_in. intros i Hi. apply agd. auto. Qed.
Lemma prelim_m_agree k rows : (forall i, In i rows -> In i (fst f)) -> prelim_m M o x0 c k x d rows = prelim_m M o x0 c k x' d' rows.
Proof.
  intros H. unfold prelim_m, takex. rewrite (take_agree rows d d') by (intros; apply agd; auto).
  rewrite (map_ext_in x x' rows) by (intros; apply agx; auto); rewrite (map_ext_in d d' rows) by (intros; apply agd; auto). reflexivity.
Qed.
Lemma prelim_ipw_agree start rows mp : (forall i, In i rows -> In i (fst f)) -> prelim_ipw o c start rows y d mp = prelim_ipw o c start rows y' d' mp.
Proof. intros H. unfold prelim_ipw. rewrite (take_agree rows d d') by (intros; apply agd; auto); rewrite (take_agree rows y y') by (intros; apply agy; auto). reflexivity. Qed.
Lemma g_rows_agree rows ipw : (forall i, In i rows -> In i (fst f)) -> g_rows c x y d rows ipw = g_rows c x' y' d' rows ipw.
Proof.
  intros H. unfold g_rows. induction rows as [|i r IH]; [reflexivity|]. cbn.
  assert (A : x i = x' i /\ y i = y' i /\ d i = d' i) by (apply Hag; apply H; left; auto). destruct A as (Ax & Ay & Ad).
  rewrite Ad. destruct (reqb (d' i) _); cbn; rewrite IH by (intros; apply H; right; auto); [rewrite Ax, Ay|]; reflexivity.
Qed.
Lemma pq_fold_agree start k : pq_fold G M o x0 c start x y d k f = pq_fold G M o x0 c start x' y' d' k f.
Proof.
  unfold pq_fold. rewrite dlab. set (h := qo_tts o (fst f) (map d' (fst f))).
  assert (H1 : forall i, In i (fst h) -> In i (fst f)) by (intros; eapply halves_sub; left; eauto).
  assert (H2 : forall i, In i (snd h) -> In i (fst f)) by (intros; eapply halves_sub; right; eauto).
  rewrite (prelim_m_agree k (fst h)) by auto. destruct (prelim_m M o x0 c k x' d' (fst h)) as [mp|]; [|reflexivity]. cbn [bind].
  rewrite prelim_ipw_agree by auto. destruct (prelim_ipw o c start (fst h) y' d' mp) as [ipw|]; [|reflexivity]. cbn [bind].
  rewrite g_rows_agree by auto. rewrite (map_ext_in x x' (snd f)) by (intros; apply agt; auto).
  rewrite (map_ext_in (fun i => (x i, d i)) (fun i => (x' i, d' i)) (fst f)). reflexivity.
  intros i Hi. destruct Hag as (A & _). destruct (A i Hi) as (-> & _ & ->). reflexivity.
Qed.
End Agree.

Lemma scatter_congr ix : forall vals (w w' : nat -> option R) i, w i = w' i -> scatter ix vals w i = scatter ix vals w' i.
Proof.
  induction ix as [|j ix IH]; intros vals w w' i E; [exact E|]. destruct vals as [|v vals]; [exact E|].
  unfold scatter. cbn. apply (IH vals). destruct (Nat.eqb i j); auto.
Qed.
Lemma scatter_skip ix : forall vals (w : nat -> option R) i, ~ In i ix -> scatter ix vals w i = w i.
Proof.
  induction ix as [|j ix IH]; intros vals w i H; [reflexivity|]. destruct vals as [|v vals]; [reflexivity|].
  unfold scatter. cbn. change (scatter ix vals (fun j0 => if Nat.eqb j0 j then Some v else w j0) i = w i). rewrite IH.
  - destruct (Nat.eqb_spec i j); auto. subst. exfalso. apply H. left. auto.
  - intros F. apply H. right. auto.
Qed.
Lemma put_congr f v w w' i : w i = w' i -> put f v w i = put f v w' i.
Proof. intros E. destruct v; cbn; [apply scatter_congr|]; auto. Qed.
Lemma put_skip f v w i : ~ In i (snd f) -> put f v w i = w i.
Proof. intros H. destruct v; cbn; [apply scatter_skip|]; auto. Qed.
Lemma collect_agree i fs : forall rs rs' g g' m m', length rs = length fs -> length rs' = length fs ->
  (forall k f, nth_error fs k = Some f -> In i (snd f) -> nth_error rs k = nth_error rs' k) ->
  g i = g' i -> m i = m' i ->
  fst (collect fs rs g m) i = fst (collect fs rs' g' m') i /\ snd (collect fs rs g m) i = snd (collect fs rs' g' m') i.
Proof.
  induction fs as [|f fs IH]; intros rs rs' g g' m m' L L' H Eg Em; [destruct rs, rs'; auto|].
  destruct rs as [|r rs]; [discriminate|]. destruct rs' as [|r' rs']; [discriminate|]. cbn [collect]. apply IH.
  - cbn in L; lia.
  - cbn in L'; lia.
  - intros k h Hk Hi. apply (H (S k) h); auto.
  - destruct (in_dec Nat.eq_dec i (snd f)) as [I|I].
    + specialize (H 0%nat f eq_refl I). cbn in H. injection H as <-. apply put_congr; auto.
    + rewrite !put_skip; auto.
  - destruct (in_dec Nat.eq_dec i (snd f)) as [I|I].
    + specialize (H 0%nat f eq_refl I). cbn in H. injection H as <-. apply put_congr; auto.
    + rewrite !put_skip; auto.
Qed.
Lemma map_res_nth_error {A B} (h : A -> result B) l r : map_res h l = Ok r ->
  length r = length l /\ forall k a, nth_error l k = Some a -> exists b, nth_error r k = Some b /\ h a = Ok b.
Proof.
  revert r. induction l as [|a l IH]; intros r H; cbn in H; [injection H as <-; split; auto; intros [|k] b Hk; discriminate|].
  destruct (h a) as [b|] eqn:E; [|discriminate]. cbn in H. destruct (map_res h l) as [t|] eqn:T; [|discriminate]. cbn in H. injection H as <-.
  destruct (IH t eq_refl) as (L & N). split; [cbn; lia|]. intros [|k] z Hk; cbn in *; [injection Hk as <-; eauto|]. apply N; auto.
Qed.

Lemma indexed_nth {A} (l : list A) k a : nth_error l k = Some a -> nth_error (combine (seq 0 (length l)) l) k = Some (k, a).
Proof.
  assert (H : forall s, nth_error l k = Some a -> nth_error (combine (seq s (length l)) l) k = Some (s + k, a)%nat).
  { revert k. induction l as [|b l IH]; intros [|k] s Hk; cbn in *; try discriminate; [injection Hk as ->; do 2 f_equal; lia|].
    rewrite (IH k (S s) Hk). do 2 f_equal; lia. }
  apply (H 0%nat).
Qed.
Lemma pq_no_leak {E X P} (G M : learner E X P) o x0 (c : @pq_cfg E) start x x' y y' d d' smpls i k f r r' :
  splitters_ok o -> tested_in smpls i k f -> agree_on f x x' y y' d d' ->
  pq_nuisance G M o x0 c start x y d smpls = Ok r -> pq_nuisance G M o x0 c start x' y' d' smpls = Ok r' ->
  po_g r i = po_g r' i /\ po_m r i = po_m r' i.
Proof.
  intros SP (Hk & Hi & U) AG. unfold pq_nuisance.
  assert (GEN : forall eg em, 
    (let! rs := map_res (fun p : nat * fold => pq_fold G M o x0 c start x y d (fst p) (snd p)) (combine (seq 0 (length smpls)) smpls) in
      let gm := collect smpls rs (fun i => match eg with Some g => Some (g i) | None => None end)
                                 (fun i => match em with Some m => Some (m i) | None => None end) in
      Ok {| po_g := fst gm; po_m := snd gm; po_ipw := map fr_ipw rs; po_start := Rmean (map fr_ipw rs) |}) = Ok r ->
    (let! rs := map_res (fun p : nat * fold => pq_fold G M o x0 c start x' y' d' (fst p) (snd p)) (combine (seq 0 (length smpls)) smpls) in
      let gm := collect smpls rs (fun i => match eg with Some g => Some (g i) | None => None end)
                                 (fun i => match em with Some m => Some (m i) | None => None end) in
      Ok {| po_g := fst gm; po_m := snd gm; po_ipw := map fr_ipw rs; po_start := Rmean (map fr_ipw rs) |}) = Ok r' ->
    po_g r i = po_g r' i /\ po_m r i = po_m r' i).
  { intros eg em H H'.
    destruct (map_res (fun p : nat * fold => pq_fold G M o x0 c start x y d (fst p) (snd p)) (combine (seq 0 (length smpls)) smpls)) as [rs|] eqn:R; [|discriminate].
    destruct (map_res (fun p : nat * fold => pq_fold G M o x0 c start x' y' d' (fst p) (snd p)) (combine (seq 0 (length smpls)) smpls)) as [rs'|] eqn:R'; [|discriminate].
    cbn in H, H'. injection H as <-. injection H' as <-. cbn.
    destruct (map_res_nth_error _ _ _ R) as (L & N). destruct (map_res_nth_error _ _ _ R') as (L' & N').
    rewrite combine_length, seq_length, Nat.min_id in L, L'. apply collect_agree; auto. intros k' f' Hk' Hi'. assert (EQ : k' = k) by (apply (U k' f'); assumption). rewrite EQ in *.
    assert (EF : Some f = Some f') by exact (eq_trans (eq_sym Hk) Hk'). injection EF as <-. 
    assert (Hc : nth_error (combine (seq 0 (length smpls)) smpls) k = Some (k, f)) by (apply indexed_nth; exact Hk).
    destruct (N k (k, f) Hc) as (b & -> & B). destruct (N' k (k, f) Hc) as (b' & -> & B'). cbn [fst snd] in B, B'.
    rewrite (pq_fold_agree G M o x0 c x x' y y' d d' f SP AG start) in B. congruence. }
  destruct (qc_ext_g c) as [g|] eqn:EG, (qc_ext_m c) as [m|] eqn:EM.
  - intros H H'. injection H as <-. injection H' as <-. auto.
  - apply (GEN (Some g) None).
  - apply (GEN None (Some m)).
  - apply (GEN None None).
Qed.

Lemma external_refit {E X P} (G M : learner E X P) o x0 sv kde (c : @pq_cfg E) start x y d smpls theta s w :
  qc_ext_g c <> None -> qc_ext_m c <> None -> pq_fit G M o x0 sv kde c start x y d smpls = Ok (theta, s, w) ->
  pq_fit G M o x0 sv kde c s x y d smpls = Ok (theta, s, w).
Proof.
  intros A B. unfold pq_fit, pq_nuisance. destruct (qc_ext_g c); [|contradiction]. destruct (qc_ext_m c); [|contradiction]. cbn [bind po_g po_m po_start].
  match goal with |- context [nl_est_coef ?a ?b ?c ?d ?e ?f ?g ?h] => destruct (nl_est_coef a b c d e f g h) as [[t w']|] eqn:F end; intros H; [|discriminate]. injection H as <- <- <-. rewrite F. reflexivity.
Qed.
Lemma cvar_refit {E X P} (G M : learner E X P) o x0 (c : @pq_cfg E) start x y d smpls theta s :
  cvar_fit G M o x0 c start x y d smpls = Ok (theta, s) -> cvar_fit G M o x0 c s x y d smpls = Ok (theta, s).
Proof.
  unfold cvar_fit. destruct (pq_nuisance G M o x0 c start x y d smpls) as [r|] eqn:F; [|discriminate]. cbn. intros H. injection H as <- <-. rewrite F. reflexivity.
Qed.

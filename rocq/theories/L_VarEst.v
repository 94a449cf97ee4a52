(** Variance estimation. *)
From Verif Require Export S_Estimation L_Order.
From Coq Require Export Permutation.
From Coq Require Import FunctionalExtensionality.
Local Open Scope R_scope.

Lemma Rsum_map_mult_l {A} c (g : A -> R) l : Rsum (map (fun x => c * g x) l) = c * Rsum (map g l).
Proof. apply Rsum_map_scal. Qed.
Lemma Rsum_map_id l : Rsum (map (fun x => x) l) = Rsum l.
Proof. rewrite map_id. reflexivity. Qed.
Lemma outer_sum_sq v : outer_sum v = (Rsum v) ^ 2.
Proof.
  unfold outer_sum. rewrite (Rsum_map_ext _ (fun a => Rsum v * a)).
  - rewrite Rsum_map_scal, Rsum_map_id. ring.
  - intros x _. rewrite Rsum_map_scal, Rsum_map_id. ring.
Qed.
Lemma mask_sel_scale n m c psi : Rsum (mask_sel n m (fun i => c * psi i)) = c * Rsum (mask_sel n m psi).
Proof. unfold mask_sel. apply Rsum_map_scal. Qed.
Lemma outer_scale n m c psi : outer_sum (mask_sel n m (fun i => c * psi i)) = c ^ 2 * outer_sum (mask_sel n m psi).
Proof. rewrite !outer_sum_sq, mask_sel_scale. ring. Qed.
Lemma outer_nonneg v : 0 <= outer_sum v.
Proof. rewrite outer_sum_sq. apply pow2_ge_0. Qed.

Lemma div_nonneg x y : 0 <= x -> 0 <= y -> 0 <= x / y.
Proof.
  intros Hx Hy. unfold Rdiv. destruct (Req_dec y 0) as [->|Hn].
  - rewrite Rinv_0. lra.
  - apply Rmult_le_pos; [exact Hx|]. left. apply Rinv_0_lt_compat. lra.
Qed.

(** *** How the two loops react to rescaling psi and psi_deriv *)
Lemma var_est_one_scale n psi pd cv sm sc kf c d :
  let '(g, j, v) := var_est_one n psi pd cv sm sc kf in
  var_est_one n (fun i => c * psi i) (fun i => d * pd i) cv sm sc kf = (c ^ 2 * g, d * j, v).
Proof.
  unfold var_est_one. cbv zeta. f_equal. f_equal; unfold Rdiv; rewrite <- Rmult_assoc; f_equal; rewrite <- Rsum_map_scal; apply Rsum_map_ext.
  - intros [fo cf] _. cbn [fst snd]. rewrite <- Rsum_map_scal. apply Rsum_map_ext. intros z _. rewrite outer_scale. ring.
  - intros [fo cf] _. cbn [fst snd]. rewrite Rsum_map_scal. ring.
Qed.
Lemma var_est_two_scale n psi pd cv1 cv2 sm sc kf c d :
  let '(g, j, v) := var_est_two n psi pd cv1 cv2 sm sc kf in
  var_est_two n (fun i => c * psi i) (fun i => d * pd i) cv1 cv2 sm sc kf = (c ^ 2 * g, d * j, v).
Proof.
  unfold var_est_two. cbv zeta. f_equal. f_equal; unfold Rdiv; rewrite <- Rmult_assoc; f_equal; rewrite <- Rsum_map_scal; apply Rsum_map_ext.
  - intros [fo cf] _. cbn [fst snd]. rewrite Rmult_plus_distr_l. f_equal; rewrite <- Rsum_map_scal; apply Rsum_map_ext; intros z _; rewrite outer_scale; ring.
  - intros [fo cf] _. cbn [fst snd]. rewrite Rsum_map_scal. ring.
Qed.

Lemma var_est_scale_gen n psi pd cl s v c d : var_est n psi pd cl = Ok (s, v) ->
  var_est n (fun i => c * psi i) (fun i => d * pd i) cl = Ok (c ^ 2 / d ^ 2 * s, v).
Proof.
  assert (G : forall g j w, 1 / (w * (d * j) ^ 2) * (c ^ 2 * g) = c ^ 2 / d ^ 2 * (1 / (w * j ^ 2) * g)).
  { intros. unfold Rdiv. rewrite !Rpow_mult_distr, !Rinv_mult. ring. }
  unfold var_est. destruct cl as [ca|].
  - destruct (ca_vars ca) as [|cv1 [|cv2 [|]]]; try discriminate.
    + pose proof (var_est_one_scale n psi pd cv1 (ca_smpls ca) (ca_smpls_cluster ca) (ca_n_folds_per_cluster ca) c d) as X.
      destruct (var_est_one n psi pd cv1 _ _ _) as [[g j] w]. intro H. injection H as <- <-. rewrite X. rewrite G. reflexivity.
    + pose proof (var_est_two_scale n psi pd cv1 cv2 (ca_smpls ca) (ca_smpls_cluster ca) (ca_n_folds_per_cluster ca) c d) as X.
      destruct (var_est_two n psi pd cv1 cv2 _ _ _) as [[g j] w]. intro H. injection H as <- <-. rewrite X. rewrite G. reflexivity.
  - intro H. injection H as <- <-. rewrite meanf_scal. rewrite (meanf_ext _ (fun i => (c * psi i) ^ 2) (fun i => c ^ 2 * (psi i) ^ 2)) by (intros; ring).
    rewrite meanf_scal, G. reflexivity.
Qed.
Lemma var_est_ext n psi pd psi' pd' cl : (forall i, psi i = psi' i) -> (forall i, pd i = pd' i) -> var_est n psi pd cl = var_est n psi' pd' cl.
Proof.
  intros H1 H2. apply functional_extensionality in H1. apply functional_extensionality in H2. subst. reflexivity.
Qed.
Lemma var_est_scaling n psi pd cl s v s' v' : var_est n psi pd cl = Ok (s, v) -> var_est n psi pd cl = Ok (s', v') -> s = s' /\ v = v'.
Proof. intros H H'. rewrite H in H'. injection H' as -> ->. auto. Qed.

Lemma var_est_invariant n psi pd cl s v c : c <> 0 -> var_est n psi pd cl = Ok (s, v) ->
  var_est n (fun i => c * psi i) (fun i => c * pd i) cl = Ok (s, v).
Proof.
  intros Hc H. rewrite (var_est_scale_gen _ _ _ _ _ _ c c H). replace (c ^ 2 / c ^ 2) with 1 by (field; exact Hc). rewrite Rmult_1_l. reflexivity.
Qed.
Lemma var_est_scale n psi pd cl s v c : var_est n psi pd cl = Ok (s, v) ->
  var_est n (fun i => c * psi i) pd cl = Ok (c ^ 2 * s, v).
Proof.
  intro H. apply (var_est_scale_gen _ _ _ _ _ _ c 1) in H. rewrite (var_est_ext n (fun i => c * psi i) pd (fun i => c * psi i) (fun i => 1 * pd i)); [|reflexivity|intro; ring].
  rewrite H. f_equal. f_equal. replace (c ^ 2 / 1 ^ 2) with (c ^ 2) by field. reflexivity.
Qed.

Lemma var_est_nonneg n psi pd cl s v : var_est n psi pd cl = Ok (s, v) -> 0 <= s /\ 0 <= v.
Proof.
  assert (G : forall g j w, 0 <= g -> 0 <= w -> 0 <= 1 / (w * j ^ 2) * g /\ 0 <= w).
  { intros g j w Hg Hw. split; [|exact Hw]. apply Rmult_le_pos; [|exact Hg]. apply div_nonneg; [lra|].
    apply Rmult_le_pos; [exact Hw|apply pow2_ge_0]. }
  unfold var_est. destruct cl as [ca|].
  - destruct (ca_vars ca) as [|cv1 [|cv2 [|]]]; try discriminate.
    + unfold var_est_one. cbv zeta. intro H. injection H as <- <-. apply G; [|apply pos_INR].
      apply div_nonneg; [|apply pos_INR]. apply Rsum_map_nonneg. intros p _. cbn [fst]. apply Rsum_map_nonneg. intros z _.
      apply Rmult_le_pos; [apply div_nonneg; [lra|apply pos_INR]|apply outer_nonneg].
    + unfold var_est_two. cbv zeta. intro H. injection H as <- <-. apply G; [|apply pos_INR].
      apply div_nonneg; [|apply pow2_ge_0]. apply Rsum_map_nonneg. intros p _. cbn [fst].
      assert (C : 0 <= INR (Nat.min (length (nth 0 (snd (snd p)) [])) (length (nth 1 (snd (snd p)) []))) /
         INR (length (nth 0 (snd (snd p)) []) * length (nth 1 (snd (snd p)) [])) ^ 2).
      { apply div_nonneg; [apply pos_INR|apply pow2_ge_0]. }
      apply Rplus_le_le_0_compat; apply Rsum_map_nonneg; intros z _; (apply Rmult_le_pos; [exact C|apply outer_nonneg]).
  - intro H. injection H as <- <-. apply G; [|apply pos_INR]. unfold meanf. apply div_nonneg; [|apply pos_INR].
    apply sumf_nonneg. intros. apply pow2_ge_0.
Qed.
Lemma var_est_ok_iff n psi pd cl : (exists s v, var_est n psi pd cl = Ok (s, v)) <->
  match cl with None => True | Some c => length (ca_vars c) = 1%nat \/ length (ca_vars c) = 2%nat end.
Proof.
  unfold var_est. destruct cl as [ca|]; [|split; [auto|]; intros _; eexists _, _; reflexivity].
  destruct (ca_vars ca) as [|cv1 [|cv2 [|cv3 r]]]; cbn [length].
  - split; [intros (s & v & H); discriminate|lia].
  - split; [lia|]. intros _. destruct (var_est_one _ _ _ _ _ _ _) as [[g j] w]. eexists _, _; reflexivity.
  - split; [lia|]. intros _. destruct (var_est_two _ _ _ _ _ _ _ _) as [[g j] w]. eexists _, _; reflexivity.
  - split; [intros (s & v & H); discriminate|lia].
Qed.

(** Unclustered: the value the framework algebra recomputes. *)
Lemma var_est_framework n psi pd s v : meanf n pd <> 0 -> (0 < n)%nat -> var_est n psi pd None = Ok (s, v) ->
  s = meanf n (fun i => (psi i / meanf n pd) ^ 2) / INR n /\ v = INR n.
Proof.
  intros Hm Hn H. unfold var_est in H. assert (E : (s, v) = (1 / (INR n * meanf n pd ^ 2) * meanf n (fun i => psi i ^ 2), INR n)) by congruence.
  clear H. apply pair_equal_spec in E. destruct E as [-> ->]. split; [|reflexivity].
  rewrite (meanf_ext _ (fun i => (psi i / meanf n pd) ^ 2) (fun i => / (meanf n pd) ^ 2 * (psi i) ^ 2)).
  - rewrite (meanf_scal n (/ (meanf n pd) ^ 2) (fun i => (psi i) ^ 2)). generalize (meanf n (fun i => (psi i) ^ 2)). intro g.
    field. split; [exact Hm|]. apply INR_neq0. exact Hn.
  - intros. field. exact Hm.
Qed.

(** *** One cluster per observation *)
Lemma Rsum_flat_map {A} (g : nat -> R) (f : A -> list nat) l : Rsum (map g (flat_map f l)) = Rsum (map (fun x => Rsum (map g (f x))) l).
Proof. induction l as [|x l IH]; cbn; [reflexivity|]. rewrite map_app, Rsum_app, IH. reflexivity. Qed.
Lemma mask_singleton n (cv : nat -> Z) psi i : (i < n)%nat -> (forall a b, (a < n)%nat -> (b < n)%nat -> cv a = cv b -> a = b) ->
  mask_sel n (fun k => Z.eqb (cv k) (cv i)) psi = [psi i].
Proof.
  intros Hi Hinj. unfold mask_sel.
  assert (E : filter (fun k => Z.eqb (cv k) (cv i)) (seq 0 n) = [i]).
  { rewrite (filter_ext_in _ (fun k => Nat.eqb k i)).
    - assert (N : forall s m, (s <= i < s + m)%nat -> filter (fun k => Nat.eqb k i) (seq s m) = [i]).
      { intros s m. revert s. induction m as [|m IH]; intros s Hs; [lia|]. cbn. destruct (Nat.eqb_spec s i) as [->|Hne].
        - f_equal. assert (Z : forall t, (i < t)%nat -> filter (fun k => Nat.eqb k i) (seq t m) = []).
          { clear. induction m as [|m IH]; intros t Ht; [reflexivity|]. cbn. destruct (Nat.eqb_spec t i); [lia|]. apply IH. lia. }
          apply Z. lia.
        - apply IH. lia. }
      apply N. lia.
    - intros k Hk. apply in_seq in Hk. destruct (Nat.eqb_spec k i) as [->|Hne]; [apply Z.eqb_refl|].
      apply Z.eqb_neq. intro E. apply Hinj in E; [contradiction|lia|exact Hi]. }
  rewrite E. reflexivity.
Qed.
Lemma nodup_map_inj n (cv : nat -> Z) : (forall a b, (a < n)%nat -> (b < n)%nat -> cv a = cv b -> a = b) ->
  length (zuniq (map cv (seq 0 n))) = n.
Proof.
  intro H. unfold zuniq. rewrite nodup_fixed_point.
  - rewrite map_length, seq_length. reflexivity.
  - assert (G : forall l, NoDup l -> (forall x, In x l -> (x < n)%nat) -> NoDup (map cv l)).
    { induction 1 as [|x l Hx Hn IH]; intro Hl; cbn; constructor.
      - intro Hi. apply in_map_iff in Hi. destruct Hi as (y & Ey & Hy). apply H in Ey; [subst; contradiction|apply Hl; right; exact Hy|apply Hl; left; reflexivity].
      - apply IH. intros y Hy. apply Hl. right; exact Hy. }
    apply G; [apply seq_NoDup|]. intros x Hx. apply in_seq in Hx. lia.
Qed.

Lemma combine_Forall2 {A B} (P : A -> B -> Prop) l l' : Forall2 P l l' -> forall p, In p (combine l l') -> P (fst p) (snd p).
Proof. induction 1 as [|x y l l' Hp F IH]; cbn; [intros p []|]. intros p [<-|Hi]; auto. Qed.
Lemma map_fst_combine {A B C} (g : A -> C) (l : list A) (l' : list B) : length l = length l' -> map (fun p => g (fst p)) (combine l l') = map g l.
Proof. revert l'. induction l as [|x l IH]; intros [|y l'] H; cbn in *; try discriminate; [reflexivity|]. f_equal. apply IH. lia. Qed.
Lemma flat_map_len {A} (f : A -> list nat) m l : (forall x, In x l -> length (f x) = m) -> length (flat_map f l) = (length l * m)%nat.
Proof.
  induction l as [|x l IH]; intro H; cbn; [reflexivity|]. rewrite app_length, IH; [|intros; apply H; right; assumption].
  rewrite (H x (or_introl eq_refl)). lia.
Qed.
Lemma var_est_singletons n m psi pd c : (0 < n)%nat -> singleton_clusters n m c -> var_est n psi pd (Some c) = var_est n psi pd None.
Proof.
  intros Hn [(cv & Ev & Hinj & F2) Hp Hs Hf]. unfold var_est. rewrite Ev. unfold var_est_one. cbv zeta. rewrite nodup_map_inj by exact Hinj.
  assert (Hlt : forall f i, In f (ca_smpls c) -> In i (snd f) -> (i < n)%nat).
  { intros f i Hi Hj. assert (X : In i (flat_map snd (ca_smpls c))) by (apply in_flat_map; exists f; auto).
    apply (Permutation_in _ Hp), in_seq in X. lia. }
  assert (HK : n = (ca_n_folds_per_cluster c * m)%nat).
  { pose proof (flat_map_len (@snd (list nat) (list nat)) m (ca_smpls c) Hs) as X. rewrite (Permutation_length Hp), seq_length in X.
    rewrite <- Hf. exact X. }
  assert (Hm : INR m <> 0) by (apply INR_neq0; lia). assert (Hk : INR (ca_n_folds_per_cluster c) <> 0) by (apply INR_neq0; lia).
  assert (L := Forall2_len _ _ _ F2).
  assert (S : forall g, Rsum (map (fun p : fold * cfold => / INR m * Rsum (map g (snd (fst p)))) (combine (ca_smpls c) (ca_smpls_cluster c))) / INR (ca_n_folds_per_cluster c) = meanf n g).
  { intro g. rewrite (map_fst_combine (fun f : fold => / INR m * Rsum (map g (snd f)))) by exact L. rewrite Rsum_map_scal, <- Rsum_flat_map.
    rewrite (Rsum_perm _ (map g (seq 0 n))); [|apply Permutation_map; exact Hp]. unfold meanf, sumf. replace (INR n) with (INR (ca_n_folds_per_cluster c) * INR m) by (rewrite <- mult_INR, <- HK; reflexivity). field. auto. }
  match goal with |- Ok (1 / (_ * (?j) ^ 2) * ?g, _) = Ok (1 / (_ * (?j') ^ 2) * ?g', _) => assert (Eg : g = g'); [|assert (Ej : j = j'); [|rewrite Eg, Ej; reflexivity]] end.
  - rewrite <- S. f_equal. apply Rsum_map_ext. intros p Hi. cbn [fst]. pose proof (combine_Forall2 _ _ _ F2 p Hi) as E. cbv beta in E. rewrite E.
    assert (Hin : In (fst p) (ca_smpls c)) by (destruct p; eapply in_combine_l; exact Hi).
    rewrite map_length, (Hs _ Hin), map_map, Rsum_map_scal. unfold Rdiv. rewrite Rmult_1_l. f_equal. apply Rsum_map_ext. intros i Hj.
    rewrite mask_singleton; [|exact (Hlt _ _ Hin Hj)|exact Hinj]. rewrite outer_sum_sq. cbn. ring.
  - rewrite <- S. f_equal. apply Rsum_map_ext. intros p Hi. cbn [snd]. pose proof (combine_Forall2 _ _ _ F2 p Hi) as E. cbv beta in E. rewrite E.
    assert (Hin : In (fst p) (ca_smpls c)) by (destruct p; eapply in_combine_l; exact Hi).
    rewrite map_length, (Hs _ Hin). unfold Rdiv. ring.
Qed.

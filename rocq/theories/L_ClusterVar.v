(** The clustered variance estimate is the published formula. *)
From Verif Require Export S_ClusterVar L_VarEst L_Estimation.
From Coq Require Import Lra Lia.
Local Open Scope R_scope.

Lemma mask_total n sel (dec : forall i, {sel i} + {~ sel i}) b psi : (forall i, b i = true <-> sel i) -> Rsum (mask_sel n b psi) = total n sel dec psi.
Proof.
  intro H. unfold mask_sel, total. induction (seq 0 n) as [|i l IH]; [reflexivity|]. cbn [map filter]. destruct (dec i) as [d|d].
  - apply H in d. rewrite d. cbn. unfold Rsum in *. cbn. now rewrite IH.
  - destruct (b i) eqn:E; [exfalso; apply d, H; exact E|]. unfold Rsum in *. cbn. rewrite IH. ring.
Qed.
Lemma zmem_in z l : zmem z l = true <-> In z l.
Proof. unfold zmem. rewrite existsb_exists. split; [intros (y & A & B); apply Z.eqb_eq in B; congruence|intro A; exists z; split; [exact A|apply Z.eqb_refl]]. Qed.
Lemma rsum_scal {A} (c : R) (f : A -> R) l : Rsum (map (fun x => c * f x) l) = c * Rsum (map f l).
Proof. unfold Rsum. induction l as [|x l IH]; cbn; [ring|]. rewrite IH. ring. Qed.
Lemma combine_snd {A B} (F : B -> R) (a : list A) (b : list B) : length a = length b -> Rsum (map (fun p => F (snd p)) (combine a b)) = Rsum (map F b).
Proof. revert b. induction a as [|x a IH]; intros [|y b] H; try discriminate; [reflexivity|]. cbn in *. unfold Rsum in *. cbn. rewrite IH by lia. reflexivity. Qed.
Lemma zuniq_distinct n cv : distinct n cv (length (zuniq (map cv (seq 0 n)))).
Proof.
  exists (zuniq (map cv (seq 0 n))). split; [apply NoDup_nodup|]. split; [reflexivity|]. intro z. unfold zuniq. rewrite nodup_In, in_map_iff. split.
  - intros (i & <- & H). apply in_seq in H. exists i. split; [lia|reflexivity].
  - intros (i & H & <-). exists i. split; [reflexivity|apply in_seq; lia].
Qed.
Lemma distinct_unique n cv k k' : distinct n cv k -> distinct n cv k' -> k = k'.
Proof.
  intros (l & N & <- & H) (l' & N' & <- & H'). apply Nat.le_antisymm; apply NoDup_incl_length; try assumption; intros z Hz; [apply H', H|apply H, H']; exact Hz.
Qed.
Lemma fold_sums_scaled (F : fold * cfold -> R) fs gs psi : (forall f g, In g gs -> F (f, g) = Rsum (map psi (snd f)) / INR (cells g)) ->
  Rsum (map F (combine fs gs)) = fold_sums fs gs psi.
Proof.
  revert gs. induction fs as [|f fs IH]; intros gs H; [reflexivity|]. destruct gs as [|g gs]; [reflexivity|]. cbn [combine map fold_sums]. unfold Rsum in *. cbn [fold_right]. rewrite H by (left; reflexivity). rewrite IH; [reflexivity|]. intros. apply H. right. assumption.
Qed.

Lemma cluster_formula n psi psi_deriv c k : ca_vars c <> [] -> (length (ca_vars c) <= 2)%nat -> length (ca_smpls c) = length (ca_smpls_cluster c) ->
  (forall g, In g (ca_smpls_cluster c) -> length (snd g) = length (ca_vars c)) -> smallest_dimension n (ca_vars c) k ->
  let cells_n := INR (ca_n_folds_per_cluster c) ^ length (ca_vars c) in
  let J := moment n (Some c) psi_deriv / cells_n in
  let Gamma := Rsum (map (cell_term n (ca_vars c) psi) (ca_smpls_cluster c)) / cells_n in
  var_est n psi psi_deriv (Some c) = Ok (1 / (INR k * J ^ 2) * Gamma, INR k).
Proof.
  intros Hv Hv2 Hl Hg ((cv0 & Hin & Hd) & Hmin) cn J Gamma. unfold var_est. destruct (ca_vars c) as [|cv [|cw [|]]] eqn:Ev; [congruence| | |cbn in Hv2; lia].
  - destruct Hin as [<-|[]]. assert (k = length (zuniq (map cv (seq 0 n)))) as -> by (eapply distinct_unique; [exact Hd|apply zuniq_distinct]).
    unfold var_est_one. cbv zeta. assert (Hcn : cn = INR (ca_n_folds_per_cluster c)) by (unfold cn; cbn [length pow]; apply Rmult_1_r). unfold J, Gamma. rewrite Hcn.
    f_equal. apply pair_equal_spec. split; [|reflexivity]. f_equal.
    + f_equal. f_equal. f_equal. f_equal. cbn [moment]. apply fold_sums_scaled. intros f g H. cbn [fst snd]. specialize (Hg g H). unfold cells. destruct (snd g) as [|I1 [|]]; try discriminate. cbn [nth]. f_equal. f_equal. cbn [fold_left]. lia.
    + f_equal. rewrite <- (combine_snd _ (ca_smpls c) (ca_smpls_cluster c) Hl). f_equal. apply map_ext_in. intros (f, g) H. apply in_combine_r in H. specialize (Hg g H). cbn [fst snd]. unfold cell_term.
      destruct (snd g) as [|I1 [|]]; try discriminate. cbn [nth]. rewrite (rsum_scal (1 / INR (length I1)) (fun z => outer_sum (mask_sel n (fun i => Z.eqb (cv i) z) psi))). unfold Rdiv. rewrite Rmult_1_l, Rmult_comm. f_equal. f_equal. apply map_ext. intro z.
      rewrite outer_sum_sq. f_equal. apply mask_total. intro i. apply Z.eqb_eq.
  - assert (k = Nat.min (length (zuniq (map cv (seq 0 n)))) (length (zuniq (map cw (seq 0 n))))) as ->.
    { pose proof (Hmin cv _ (or_introl eq_refl) (zuniq_distinct n cv)) as M1. pose proof (Hmin cw _ (or_intror (or_introl eq_refl)) (zuniq_distinct n cw)) as M2.
      destruct Hin as [<-|[<-|[]]]; pose proof (distinct_unique _ _ _ _ Hd (zuniq_distinct n _)); lia. }
    unfold var_est_two. cbv zeta. assert (Hcn : cn = INR (ca_n_folds_per_cluster c) ^ 2) by reflexivity. unfold J, Gamma. rewrite Hcn. f_equal. apply pair_equal_spec. split; [|reflexivity]. f_equal.
    + f_equal. f_equal. f_equal. f_equal. cbn [moment]. apply fold_sums_scaled. intros f g H. cbn [fst snd]. specialize (Hg g H). unfold cells. destruct (snd g) as [|I1 [|I1' [|]]]; try discriminate. cbn [nth]. f_equal. f_equal. cbn [fold_left]. lia.
    + f_equal. rewrite <- (combine_snd _ (ca_smpls c) (ca_smpls_cluster c) Hl). f_equal. apply map_ext_in. intros (f, g) H. apply in_combine_r in H. specialize (Hg g H). cbn [fst snd]. unfold cell_term.
      destruct (snd g) as [|I1 [|I1' [|]]]; try discriminate. cbn [nth]. rewrite mult_INR. rewrite Rmult_plus_distr_l. f_equal.
      * rewrite <- rsum_scal. f_equal. apply map_ext. intro z. f_equal. rewrite outer_sum_sq. f_equal. apply mask_total. intro i. rewrite andb_true_iff, Z.eqb_eq, zmem_in. reflexivity.
      * rewrite <- rsum_scal. f_equal. apply map_ext. intro z. f_equal. rewrite outer_sum_sq. f_equal. apply mask_total. intro i. rewrite andb_true_iff, Z.eqb_eq, zmem_in. reflexivity.
Qed.

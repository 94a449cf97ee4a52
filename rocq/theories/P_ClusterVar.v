(** C08, clustered data: the variance estimate is the multiway cluster-robust
    sandwich of the test cells. *)
From Verif Require Import L_ClusterVar.
From Coq Require Import Lra Lia.
Local Open Scope R_scope.

Theorem C08_clustered_formula : forall n psi psi_deriv c k, ca_vars c <> [] -> (length (ca_vars c) <= 2)%nat ->
  length (ca_smpls c) = length (ca_smpls_cluster c) ->
  (forall g, In g (ca_smpls_cluster c) -> length (snd g) = length (ca_vars c)) ->
  smallest_dimension n (ca_vars c) k ->
  let cells_n := INR (ca_n_folds_per_cluster c) ^ length (ca_vars c) in
  let J := moment n (Some c) psi_deriv / cells_n in
  let Gamma := Rsum (map (cell_term n (ca_vars c) psi) (ca_smpls_cluster c)) / cells_n in
  var_est n psi psi_deriv (Some c) = Ok (1 / (INR k * J ^ 2) * Gamma, INR k).
Proof. exact cluster_formula. Qed.
Print Assumptions C08_clustered_formula.

(** Six observations, two by three clusters, four test cells; the last cell
    holds the clusters {1} x {2}. *)
Definition ex_two : cluster_args :=
  let cv := fun i => Z.of_nat (i mod 2) in
  let cw := fun i => Z.of_nat (i / 2) in
  {| ca_vars := [cv; cw];
     ca_smpls := [([5], [0; 2]); ([5], [1; 3]); ([1; 3], [4]); ([0; 2], [5])]%nat;
     ca_smpls_cluster := [([[1]; [2]], [[0]; [0; 1]]); ([[0]; [2]], [[1]; [0; 1]]); ([[1]; [0; 1]], [[0]; [2]]); ([[0]; [0; 1]], [[1]; [2]])]%Z;
     ca_n_folds_per_cluster := 2 |}.
Example C08_case_two : smallest_dimension 6 (ca_vars ex_two) 2 /\
  (forall g, In g (ca_smpls_cluster ex_two) -> length (snd g) = 2%nat) /\
  Rsum (map (cell_term 6 (ca_vars ex_two) INR) (ca_smpls_cluster ex_two)) = (2 * 2 + 0 + 2 * 2) / 4 + (4 * 4 + 1 + 3 * 3) / 4 + (16 + 16) + (25 + 25).
Proof.
  split; [|split].
  - assert (D1 : distinct 6 (fun i => Z.of_nat (i mod 2)) 2).
    { exists [0; 1]%Z. split; [repeat constructor; cbn; lia|]. split; [reflexivity|]. intro z. split.
      - intros [<-|[<-|[]]]; [exists 0%nat|exists 1%nat]; split; (lia || reflexivity).
      - intros (i & Hi & <-). do 6 (destruct i as [|i]; [cbn; auto|]). lia. }
    assert (D2 : distinct 6 (fun i => Z.of_nat (i / 2)) 3).
    { exists [0; 1; 2]%Z. split; [repeat constructor; cbn; lia|]. split; [reflexivity|]. intro z. split.
      - intros [<-|[<-|[<-|[]]]]; [exists 0%nat|exists 2%nat|exists 4%nat]; split; (lia || reflexivity).
      - intros (i & Hi & <-). do 6 (destruct i as [|i]; [cbn; auto|]). lia. }
    split; [eexists; split; [left; reflexivity|exact D1]|]. intros cv k' [<-|[<-|[]]] D; [rewrite (distinct_unique _ _ _ _ D D1)|rewrite (distinct_unique _ _ _ _ D D2)]; lia.
  - intros g H. cbn in H. repeat (destruct H as [<-|H]; [reflexivity|]). contradiction.
  - cbn. lra.
Qed.

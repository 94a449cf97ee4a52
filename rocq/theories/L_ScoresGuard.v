(** Estimates of the interactive model where their divisions are defined. *)
From Verif Require Import S_Scores L_Scores.
From Coq Require Import Lia Lra.
Local Open Scope R_scope.

Lemma irm_est_defined : forall n norm y d g0 g1 m, (0 < n)%nat ->
  (forall i, (i < n)%nat -> ps_adjust n m d norm i <> 0 /\ ps_adjust n m d norm i <> 1) ->
  estimate n (irm_score n false norm unit_weights y d g0 g1 m) = meanf n (dr_signal y d g0 g1 (ps_adjust n m d norm)).
Proof. intros n norm y d g0 g1 m H _. exact (irm_est n norm y d g0 g1 m H). Qed.
Lemma irm_apo_difference_defined : forall n norm y d g0 g1 m, (0 < n)%nat ->
  (forall i, (i < n)%nat -> ps_adjust n m d norm i <> 0 /\ ps_adjust n m d norm i <> 1) ->
  estimate n (irm_score n false norm unit_weights y d g0 g1 m) =
  estimate n (apo_score n norm unit_weights y d g1 m) - estimate n (apo_score n norm unit_weights y (compl d) g0 (compl m)).
Proof. intros n norm y d g0 g1 m H _. exact (irm_apo_difference n norm y d g0 g1 m H). Qed.
Lemma irm_swap_defined : forall n norm y d g0 g1 m, (0 < n)%nat ->
  (forall i, (i < n)%nat -> ps_adjust n m d norm i <> 0 /\ ps_adjust n m d norm i <> 1) ->
  estimate n (irm_score n false norm unit_weights y (compl d) g1 g0 (compl m)) =
  - estimate n (irm_score n false norm unit_weights y d g0 g1 m).
Proof. intros n norm y d g0 g1 m H _. exact (irm_swap n norm y d g0 g1 m H). Qed.
Lemma irm_subgroup_defined : forall n norm G y d g0 g1 m, (0 < n)%nat -> sumf n G <> 0 ->
  (forall i, (i < n)%nat -> ps_adjust n m d norm i <> 0 /\ ps_adjust n m d norm i <> 1) ->
  estimate n (irm_score n false norm {| wg := fun i => G i / meanf n G; wg_bar := None |} y d g0 g1 m) =
  group_mean n G (dr_signal y d g0 g1 (ps_adjust n m d norm)).
Proof. intros n norm G y d g0 g1 m H H0 _. exact (irm_subgroup n norm G y d g0 g1 m H H0). Qed.
Lemma irm_atte_defined : forall n norm w y d g0 g1 m, (0 < n)%nat -> binary n d ->
  (forall i, (i < n)%nat -> ps_adjust n m d norm i <> 0 /\ ps_adjust n m d norm i <> 1) -> sumf n (fun i => wg w i * d i) <> 0 ->
  estimate n (irm_score n true norm w y d g0 g1 m) =
  sumf n (fun i => wg w i * (d i * (y i - g0 i) - (1 - d i) * (ps_adjust n m d norm i / (1 - ps_adjust n m d norm i)) * (y i - g0 i)))
  / sumf n (fun i => wg w i * d i).
Proof. intros n norm w y d g0 g1 m H B D. exact (irm_atte n norm w y d g0 g1 m H B (fun i Hi _ => proj1 (D i Hi))). Qed.

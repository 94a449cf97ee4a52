(** C07-C10: from scores to estimates, variances and aggregates. *)
From Verif Require Import L_Estimation.
From Coq Require Import Lra.
Local Open Scope R_scope.

(** ** C07 *)
Theorem C07_coefficient_is_unique_root : forall n cl psi_a psi_b, moment n cl psi_a <> 0 ->
  forall theta, moment n cl (fun i => psi_a i * theta + psi_b i) = 0 <-> theta = lin_est_coef n psi_a psi_b cl.
Proof. exact linear_root. Qed.
Print Assumptions C07_coefficient_is_unique_root.

(** The derivative in the cluster-robust variance is weighted like the moment
    condition (up to the constant number of folds). *)
Theorem C07_variance_uses_same_weights : forall n psi_a cv c, ca_vars c = [cv] ->
  (forall g, In g (ca_smpls_cluster c) -> length (snd g) = 1%nat) ->
  forall psi, exists gamma, var_est n psi psi_a (Some c) =
    Ok (1 / (INR (length (zuniq (map cv (seq 0 n)))) * (moment n (Some c) psi_a / INR (ca_n_folds_per_cluster c))^2) * gamma,
        INR (length (zuniq (map cv (seq 0 n))))).
Proof. exact variance_weights_one. Qed.
Print Assumptions C07_variance_uses_same_weights.

(** Four observations in clusters 0,0,1,2; the second fold tests two clusters. *)
Definition ex_cl : cluster_args :=
  {| ca_vars := [fun i => match i with 0%nat => 0%Z | 1%nat => 0%Z | 2%nat => 1%Z | _ => 2%Z end];
     ca_smpls := [([2; 3], [0; 1]); ([0; 1], [2; 3])]%nat;
     ca_smpls_cluster := [([[1; 2]], [[0]]); ([[0]], [[1; 2]])]%Z;
     ca_n_folds_per_cluster := 2 |}.
Example C07_case : moment 4 (Some ex_cl) (fun _ => -1) <> 0 /\ moment 4 None (fun _ => -1) <> 0 /\
  lin_est_coef 4 (fun _ => -1) INR (Some ex_cl) = 7 / 6 /\ lin_est_coef 4 (fun _ => -1) INR None = 3 / 2.
Proof. unfold lin_est_coef. rewrite !moment_agg. unfold ex_cl. cbn. repeat split; lra. Qed.

(** ** C08 *)
Theorem C08_nonnegative : forall n psi psi_deriv cl s v, var_est n psi psi_deriv cl = Ok (s, v) -> 0 <= s /\ 0 <= v.
Proof. exact var_est_nonneg. Qed.
Print Assumptions C08_nonnegative.

(** Defined exactly for unclustered, one-way and two-way clustered data. *)
Theorem C08_defined : forall n psi psi_deriv cl, (exists s v, var_est n psi psi_deriv cl = Ok (s, v)) <->
  match cl with None => True | Some c => length (ca_vars c) = 1%nat \/ length (ca_vars c) = 2%nat end.
Proof. exact var_est_ok_iff. Qed.
Print Assumptions C08_defined.

Theorem C08_scale_invariant : forall n psi psi_deriv cl s v c, c <> 0 -> var_est n psi psi_deriv cl = Ok (s, v) ->
  var_est n (fun i => c * psi i) (fun i => c * psi_deriv i) cl = Ok (s, v).
Proof. exact var_est_invariant. Qed.
Print Assumptions C08_scale_invariant.

Theorem C08_framework_expression : forall n psi psi_deriv s v, meanf n psi_deriv <> 0 -> (0 < n)%nat ->
  var_est n psi psi_deriv None = Ok (s, v) ->
  s = meanf n (fun i => (psi i / meanf n psi_deriv) ^ 2) / INR n /\ v = INR n.
Proof. exact var_est_framework. Qed.
Print Assumptions C08_framework_expression.

Theorem C08_singleton_clusters : forall n m psi psi_deriv c, (0 < n)%nat -> singleton_clusters n m c ->
  var_est n psi psi_deriv (Some c) = var_est n psi psi_deriv None.
Proof. exact var_est_singletons. Qed.
Print Assumptions C08_singleton_clusters.

Definition ex_single : cluster_args :=
  {| ca_vars := [Z.of_nat]; ca_smpls := [([2; 3], [0; 1]); ([0; 1], [2; 3])]%nat;
     ca_smpls_cluster := [([[2; 3]], [[0; 1]]); ([[0; 1]], [[2; 3]])]%Z; ca_n_folds_per_cluster := 2 |}.
Example C08_case : singleton_clusters 4 2 ex_single /\ meanf 4 (fun _ => -1) <> 0 /\
  var_est 4 (fun i => INR i - 3 / 2) (fun _ => -1) None = Ok (5 / 16, 4).
Proof.
  split; [|split].
  - constructor.
    + exists Z.of_nat. split; [reflexivity|]. split; [intros; lia|]. repeat constructor.
    + apply Permutation_refl.
    + intros f [<- | [<- | []]]; reflexivity.
    + reflexivity.
  - rewrite meanf_const by lia. lra.
  - unfold var_est. rewrite meanf_const by lia. unfold meanf, sumf. cbn. f_equal. f_equal; field.
Qed.

(** ** C09 *)
Theorem C09_median_rule : forall n nr ath ases vs, shape ath = [n; nr] -> (0 < nr)%nat ->
  (forall t r, (t < n)%nat -> (r < nr)%nat -> 0 < vs_at vs n t r) ->
  let c := fst (aggregate_coefs_and_ses ath ases vs) in
  let s := snd (aggregate_coefs_and_ses ath ases vs) in
  forall t, (t < n)%nat ->
    is_median (map (fun r => at_ ath [t; r]) (seq 0 nr)) (at_ c [t]) /\
    (exists r1 r2, (r1 < nr)%nat /\ (r2 < nr)%nat /\ at_ ath [t; r1] <= at_ c [t] <= at_ ath [t; r2]) /\
    0 <= at_ s [t] /\
    is_median (map (fun r => (at_ ases [t; r])^2 + (at_ ath [t; r] - at_ c [t])^2 / vs_at vs n t r) (seq 0 nr)) ((at_ s [t])^2) /\
    medianf nr (fun r => (at_ ases [t; r])^2) <= (at_ s [t])^2.
Proof. exact agg_reported. Qed.
Print Assumptions C09_median_rule.

Theorem C09_order_of_repetitions : forall n nr p ath ases vs ath' ases' vs',
  shape ath = [n; nr] -> shape ath' = [n; nr] -> reorder nr p ->
  (forall t r, at_ ath' [t; r] = at_ ath [t; p r] /\ at_ ases' [t; r] = at_ ases [t; p r] /\ vs_at vs' n t r = vs_at vs n t (p r)) ->
  forall t, at_ (fst (aggregate_coefs_and_ses ath' ases' vs')) [t] = at_ (fst (aggregate_coefs_and_ses ath ases vs)) [t] /\
            at_ (snd (aggregate_coefs_and_ses ath' ases' vs')) [t] = at_ (snd (aggregate_coefs_and_ses ath ases vs)) [t].
Proof. exact agg_reorder. Qed.
Print Assumptions C09_order_of_repetitions.

Theorem C09_one_repetition : forall n ath ases vs, shape ath = [n; 1%nat] -> forall t,
  at_ (fst (aggregate_coefs_and_ses ath ases vs)) [t] = at_ ath [t; 0%nat] /\
  at_ (snd (aggregate_coefs_and_ses ath ases vs)) [t] = Rabs (at_ ases [t; 0%nat]).
Proof. exact agg_single. Qed.
Print Assumptions C09_one_repetition.

Theorem C09_equivariant : forall n nr k a ath ases vs ath' ases',
  shape ath = [n; nr] -> shape ath' = [n; nr] -> (0 < nr)%nat -> 0 <= a ->
  (forall t r, at_ ath' [t; r] = a * at_ ath [t; r] + k /\ at_ ases' [t; r] = a * at_ ases [t; r]) ->
  forall t, at_ (fst (aggregate_coefs_and_ses ath' ases' vs)) [t] = a * at_ (fst (aggregate_coefs_and_ses ath ases vs)) [t] + k /\
            at_ (snd (aggregate_coefs_and_ses ath' ases' vs)) [t] = a * at_ (snd (aggregate_coefs_and_ses ath ases vs)) [t].
Proof. exact agg_affine. Qed.
Print Assumptions C09_equivariant.

Example C09_case : let ath := mk2 1 3 (fun _ r => INR r) in let vs := mk1 1 (fun _ => 4) in
  shape ath = [1; 3]%nat /\ (forall t r, (t < 1)%nat -> (r < 3)%nat -> 0 < vs_at vs 1 t r) /\
  reorder 3 (fun r => (2 - r)%nat) /\ is_median [0; 1; 2] 1 /\ ~ is_median [0; 1; 2] (3 / 2).
Proof.
  cbn zeta. split; [reflexivity|]. split; [intros; cbn; lra|]. split.
  - unfold reorder. cbn. apply perm_trans with [2; 0; 1]%nat; [apply perm_skip, perm_swap|]. apply perm_trans with [0; 2; 1]%nat; [apply perm_swap|apply perm_skip, perm_swap].
  - unfold is_median, rcount. cbn [map filter length]. unfold rleb.
    repeat (destruct (Rle_dec _ _); try lra); cbn; lia.
Qed.

(** ** C10 *)
Theorem C10_bracket_search : forall fuel score start lo hi, (11 <= fuel)%nat -> lo <= start <= hi ->
  exists success b seen, get_bracket_guess fuel score start lo hi = Some (success, b, seen) /\
    (length seen <= 10)%nat /\
    (forall x, In x seen -> lo <= fst x /\ fst x <= start <= snd x /\ snd x <= hi) /\
    (success = true -> lo <= fst b /\ fst b <= snd b /\ snd b <= hi /\ score (fst b) * score (snd b) <= 0 /\
                       ~ (score (fst b) = 0 /\ score (snd b) = 0)) /\
    (success = false -> forall k, (1 <= k <= 10)%nat -> signs_differ score (bracket_at (INR k / 10) start lo hi) = false).
Proof. exact bracket_guess. Qed.
Print Assumptions C10_bracket_search.

(** A failed search from the midpoint proves that the signs agree at the bounds. *)
Theorem C10_midpoint_search_covers_bounds : forall fuel score lo hi b seen, (11 <= fuel)%nat -> lo <= hi ->
  get_bracket_guess fuel score ((lo + hi) / 2) lo hi = Some (false, b, seen) -> rsign (score lo) = rsign (score hi).
Proof. exact bracket_midpoint. Qed.
Print Assumptions C10_midpoint_search_covers_bounds.

(** The whole root search: the estimate is within the bounds, and without a
    warning it solves the moment condition of a continuous score. *)
Theorem C10_estimate : forall sv fuel n cl psi psi_d start lo hi, (11 <= fuel)%nat -> lo <= start <= hi -> brentq_ok sv -> fmin_ok sv ->
  exists theta warn, nl_est_coef sv fuel n cl psi psi_d start (Some (lo, hi)) = Some (theta, warn) /\ lo <= theta <= hi /\
    (warn = false -> brentq_root sv -> (forall x, lo <= x <= hi -> continuity_pt (fun th => moment n cl (psi th)) x) ->
     moment n cl (psi theta) = 0).
Proof. exact nl_estimate. Qed.
Print Assumptions C10_estimate.

Example C10_case : brentq_ok ex_solvers /\ brentq_root ex_solvers /\ fmin_ok ex_solvers /\
  (forall x, 0 <= x <= 4 -> continuity_pt (fun th => moment 2 None (fun i => th * th + - INR i)) x).
Proof. split; [exact ex_brentq_ok|]. split; [exact ex_brentq_root|]. split; [exact ex_fmin_ok|]. exact ex_continuous. Qed.

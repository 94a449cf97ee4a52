(** Specifications for the estimation properties. *)
From Verif Require Export M_Estimation.
From Coq Require Export Permutation.
Local Open Scope R_scope.

(** [singleton_clusters]: every observation its own cluster, the test sets
    partition the sample into folds of m observations, and the cluster folds
    list the clusters of the test observations. *)
Record singleton_clusters (n m : nat) (c : cluster_args) : Prop := {
  sc_var : exists cv, ca_vars c = [cv] /\ (forall a b, (a < n)%nat -> (b < n)%nat -> cv a = cv b -> a = b) /\
     Forall2 (fun (f : fold) (g : cfold) => nth 0 (snd g) [] = map cv (snd f)) (ca_smpls c) (ca_smpls_cluster c);
  sc_part : Permutation (flat_map snd (ca_smpls c)) (seq 0 n);
  sc_size : forall f, In f (ca_smpls c) -> length (snd f) = m;
  sc_folds : length (ca_smpls c) = ca_n_folds_per_cluster c }.

(** The empirical moment condition: mean of the score, or for clustered data the
    sum over folds of the score total per test cluster (cell). *)
Definition cells (g : cfold) : nat := fold_left (fun a l => (a * length l)%nat) (snd g) 1%nat.
Fixpoint fold_sums (fs : list fold) (gs : list cfold) (psi : nat -> R) : R :=
  match fs, gs with
  | f :: fs, g :: gs => Rsum (map psi (snd f)) / INR (cells g) + fold_sums fs gs psi
  | _, _ => 0
  end.
Definition moment (n : nat) (cl : option cluster_args) (psi : nat -> R) : R :=
  match cl with
  | None => Rsum (map psi (seq 0 n)) / INR n
  | Some c => fold_sums (ca_smpls c) (ca_smpls_cluster c) psi
  end.

(** [m] is a median of [l]: at least half of the entries on either side. *)
Definition is_median (l : list R) (m : R) : Prop :=
  (length l <= 2 * rcount (fun x => rleb x m) l)%nat /\ (length l <= 2 * rcount (fun x => rleb m x) l)%nat.

(** Solvers as far as scipy promises: brentq stays inside its bracket and, for
    a score that is continuous there and has a sign change, returns a root;
    the bounded minimiser stays inside the bounds. *)
Definition brentq_ok (sv : solvers) : Prop :=
  forall f a b, a <= b -> f a * f b <= 0 -> a <= sv_brentq sv f (a, b) <= b.
Definition brentq_root (sv : solvers) : Prop :=
  forall f a b, a <= b -> f a * f b <= 0 -> (forall x, a <= x <= b -> continuity_pt f x) -> f (sv_brentq sv f (a, b)) = 0.
Definition fmin_ok (sv : solvers) : Prop :=
  forall f x lo hi, lo <= x <= hi -> lo <= sv_fmin sv f x (lo, hi) <= hi.
(** A reordering of the repetitions. *)
Definition reorder (n : nat) (p : nat -> nat) : Prop := Permutation (map p (seq 0 n)) (seq 0 n).
(** Variance scaling factor of parameter t in repetition r: one per parameter or
    one per parameter and repetition. *)
Definition vs_at (vs : nd) (n t r : nat) : R := if shape_eqb (shape vs) [n] then at_ vs [t] else at_ vs [t; r].

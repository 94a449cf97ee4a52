(** Specifications for the framework properties.  Independent of the helper
    functions of the model; they only mention the observable attributes. *)
From Verif Require Export M_Framework.
From Coq Require Export Permutation.
Local Open Scope R_scope.

(** Shapes promised by the documentation of the framework attributes. *)
Record fw_wf (f : framework) : Prop := {
  wf_thetas : shape (fw_thetas f) = [fw_n_thetas f];
  wf_ses : shape (fw_ses f) = [fw_n_thetas f];
  wf_all_thetas : shape (fw_all_thetas f) = [fw_n_thetas f; fw_n_rep f];
  wf_all_ses : shape (fw_all_ses f) = [fw_n_thetas f; fw_n_rep f];
  wf_vs : shape (fw_vs f) = [fw_n_thetas f];
  wf_psi : shape (fw_scaled_psi f) = [fw_n_obs f; fw_n_thetas f; fw_n_rep f];
  wf_sens : forall s, fw_sens f = Some s ->
     shape (se_max_bias s) = [1%nat; fw_n_thetas f; fw_n_rep f] /\
     shape (se_psi_max_bias s) = [fw_n_obs f; fw_n_thetas f; fw_n_rep f] /\
     forall s2 n2, se_bench s = Some (s2, n2) ->
       shape s2 = [1%nat; fw_n_thetas f; fw_n_rep f] /\
       shape n2 = [1%nat; fw_n_thetas f; fw_n_rep f] /\
       (forall idx, in_shape idx (shape s2) -> 0 <= at_ s2 idx) /\
       (forall idx, in_shape idx (shape n2) -> 0 <= at_ n2 idx);
  wf_names : forall l, fw_names f = Some l -> length l = fw_n_thetas f }.

(** Reported estimates and standard errors are the aggregates of the
    repetition-wise ones. *)
Definition fw_aggregated (f : framework) : Prop :=
  forall t, (t < fw_n_thetas f)%nat ->
    at_ (fw_thetas f) [t] = medianf (fw_n_rep f) (fun r => at_ (fw_all_thetas f) [t; r]) /\
    at_ (fw_ses f) [t] = sqrt (medianf (fw_n_rep f) (fun r =>
        (at_ (fw_all_ses f) [t; r])^2
        + (at_ (fw_all_thetas f) [t; r] - at_ (fw_thetas f) [t])^2 / at_ (fw_vs f) [t])).

(** Repetition-wise standard errors are those of the (unclustered) scores. *)
Definition fw_ses_from_scores (f : framework) : Prop :=
  forall t r, (t < fw_n_thetas f)%nat -> (r < fw_n_rep f)%nat ->
    at_ (fw_all_ses f) [t; r] =
    sqrt (meanf (fw_n_obs f) (fun i => (at_ (fw_scaled_psi f) [i; t; r])^2) / at_ (fw_vs f) [t]).

(** Variance scaling factors are positive. *)
Definition fw_vs_pos (f : framework) : Prop :=
  forall t, (t < fw_n_thetas f)%nat -> 0 < at_ (fw_vs f) [t].
Definition fw_ses_nonneg (f : framework) : Prop :=
  forall t r, (t < fw_n_thetas f)%nat -> (r < fw_n_rep f)%nat -> 0 <= at_ (fw_all_ses f) [t; r].

(** Everything a user can read off a framework agrees (bootstrap and
    sensitivity results excluded: they are recomputed on demand). *)
Definition fw_obs_eq (f g : framework) : Prop :=
  fw_n_obs f = fw_n_obs g /\ fw_n_thetas f = fw_n_thetas g /\ fw_n_rep f = fw_n_rep g /\
  nd_eq (fw_thetas f) (fw_thetas g) /\ nd_eq (fw_ses f) (fw_ses g) /\
  nd_eq (fw_all_thetas f) (fw_all_thetas g) /\ nd_eq (fw_all_ses f) (fw_all_ses g) /\
  nd_eq (fw_vs f) (fw_vs g) /\ nd_eq (fw_scaled_psi f) (fw_scaled_psi g) /\
  fw_names f = fw_names g /\
  match fw_sens f, fw_sens g with
  | None, None => True
  | Some a, Some b => nd_eq (se_max_bias a) (se_max_bias b) /\ nd_eq (se_psi_max_bias a) (se_psi_max_bias b)
  | _, _ => False
  end.

(** What is needed of the normal quantile function. *)
Definition ppf_ok (ppf : R -> R) : Prop :=
  (forall p q, 0 < p -> p <= q -> q < 1 -> ppf p <= ppf q) /\
  (forall p, 1 / 2 <= p -> p < 1 -> 0 <= ppf p).

(** numpy's argsort: indices in ascending order of value, ties in any order. *)
Definition argsort_ok (argsort : list R -> list nat) : Prop :=
  forall l, Permutation (argsort l) (seq 0 (length l)) /\
    forall i j, (i <= j)%nat -> (j < length l)%nat ->
      nth (nth i (argsort l) 0%nat) l 0 <= nth (nth j (argsort l) 0%nat) l 0.

(** First index of block [k] in the stacking of [fs]. *)
Definition block (fs : list framework) (k : nat) : nat := list_sum (map fw_n_thetas (firstn k fs)).
(** [h] stacks the estimates of [fs] in order. *)
Record concat_of (fs : list framework) (h : framework) : Prop := {
  co_n_thetas : fw_n_thetas h = list_sum (map fw_n_thetas fs);
  co_dims : forall f, In f fs -> fw_n_obs h = fw_n_obs f /\ fw_n_rep h = fw_n_rep f;
  co_vals : forall k f t, nth_error fs k = Some f -> (t < fw_n_thetas f)%nat ->
    at_ (fw_thetas h) [(block fs k + t)%nat] = at_ (fw_thetas f) [t] /\
    at_ (fw_ses h) [(block fs k + t)%nat] = at_ (fw_ses f) [t] /\
    at_ (fw_vs h) [(block fs k + t)%nat] = at_ (fw_vs f) [t] /\
    (forall r, at_ (fw_all_thetas h) [(block fs k + t)%nat; r] = at_ (fw_all_thetas f) [t; r]) /\
    (forall r, at_ (fw_all_ses h) [(block fs k + t)%nat; r] = at_ (fw_all_ses f) [t; r]) /\
    (forall i r, at_ (fw_scaled_psi h) [i; (block fs k + t)%nat; r] = at_ (fw_scaled_psi f) [i; t; r]);
  co_sens_none : (exists f, In f fs /\ fw_sens f = None) -> fw_sens h = None;
  co_sens : (forall f, In f fs -> fw_sens f <> None) ->
    exists s, fw_sens h = Some s /\
      forall k f e t, nth_error fs k = Some f -> fw_sens f = Some e -> (t < fw_n_thetas f)%nat ->
        (forall r, at_ (se_max_bias s) [0%nat; (block fs k + t)%nat; r] = at_ (se_max_bias e) [0%nat; t; r]) /\
        (forall i r, at_ (se_psi_max_bias s) [i; (block fs k + t)%nat; r] = at_ (se_psi_max_bias e) [i; t; r]);
  co_names : fw_names h = None;
  co_cluster : fw_cluster h = None }.

(** ** When the constructor arguments are consistent *)
Definition arr_of (e : entry nd) (s : list nat) : Prop := exists a, e = Val a /\ shape a = s.
Definition arr_nonneg (e : entry nd) : Prop :=
  exists a, e = Val a /\ forall idx, in_shape idx (shape a) -> 0 <= at_ a idx.
Definition cluster_consistent (d : fw_dict) : Prop :=
  k_is_cluster d = Absent \/ k_is_cluster d = Val false \/
  (k_is_cluster d = Val true /\ exists c, k_cluster d = Val c /\ ci_smpls c <> None /\
     ci_smpls_cluster c <> None /\ ci_vars c <> None /\ ci_n_folds_per_cluster c <> None).
Definition sens_consistent (n nt nr : nat) (e : entry sens_in) : Prop :=
  e = Absent \/
  exists s, e = Val s /\ arr_of (si_max_bias s) [1%nat; nt; nr] /\ arr_of (si_psi_max_bias s) [n; nt; nr] /\
    (si_sigma2 s = Absent \/ si_nu2 s = Absent \/
     (arr_of (si_sigma2 s) [1%nat; nt; nr] /\ arr_of (si_nu2 s) [1%nat; nt; nr] /\
      arr_nonneg (si_sigma2 s) /\ arr_nonneg (si_nu2 s))).
Definition names_consistent (nt : nat) (e : entry (list (option string))) : Prop :=
  e = Absent \/ exists l, e = Val (map Some l) /\ length l = nt.
Definition consistent_dict (d : fw_dict) : Prop :=
  exists n nt nr,
    arr_of (k_thetas d) [nt] /\ arr_of (k_ses d) [nt] /\ arr_of (k_all_thetas d) [nt; nr] /\
    arr_of (k_all_ses d) [nt; nr] /\ arr_of (k_vs d) [nt] /\ arr_of (k_scaled_psi d) [n; nt; nr] /\
    cluster_consistent d /\ sens_consistent n nt nr (k_sens d) /\ names_consistent nt (k_names d).

(** ** Expressions over frameworks *)
Inductive fexpr :=
| ELeaf (k : nat)
| EAdd (a b : fexpr)
| ESub (a b : fexpr)
| EMul (c : R) (a : fexpr)
| ECat (a b : fexpr).
(** What a user's program computes. *)
Fixpoint run_expr (env : nat -> framework) (e : fexpr) : result framework :=
  match e with
  | ELeaf k => Ok (env k)
  | EAdd a b => bind (run_expr env a) (fun f => bind (run_expr env b) (fun g => fw_add f (OpFw g)))
  | ESub a b => bind (run_expr env a) (fun f => bind (run_expr env b) (fun g => fw_sub f (OpFw g)))
  | EMul c a => bind (run_expr env a) (fun f => fw_mul f (PFloat c))
  | ECat a b => bind (run_expr env a) (fun f => bind (run_expr env b) (fun g => fw_concat [OpFw f; OpFw g]))
  end.
(** Number of parameters of an expression; [None] when operands of a sum or
    difference have different numbers of parameters. *)
Fixpoint width (w : nat -> nat) (e : fexpr) : option nat :=
  match e with
  | ELeaf k => Some (w k)
  | EAdd a b | ESub a b =>
      match width w a, width w b with
      | Some n, Some m => if Nat.eqb n m then Some n else None
      | _, _ => None
      end
  | EMul _ a => width w a
  | ECat a b => match width w a, width w b with Some n, Some m => Some (n + m)%nat | _, _ => None end
  end.
(** The intended value: parameter t of the expression as a linear combination. *)
Fixpoint denote (w : nat -> nat) (val : nat -> nat -> R) (e : fexpr) (t : nat) : R :=
  match e with
  | ELeaf k => val k t
  | EAdd a b => denote w val a t + denote w val b t
  | ESub a b => denote w val a t - denote w val b t
  | EMul c a => c * denote w val a t
  | ECat a b => match width w a with
                | Some n => if Nat.ltb t n then denote w val a t else denote w val b (t - n)
                | None => 0
                end
  end.
(** Leaves estimated on the same (unclustered) sample with the same repetitions. *)
Definition same_sample (env : nat -> framework) (n nr : nat) (v : R) : Prop :=
  forall k, fw_wf (env k) /\ fw_cluster (env k) = None /\ fw_n_obs (env k) = n /\ fw_n_rep (env k) = nr /\
    forall t, (t < fw_n_thetas (env k))%nat -> at_ (fw_vs (env k)) [t] = v.

(** ** Inference *)
(** A stored bootstrap sample has one draw per (replication, parameter, repetition). *)
Definition fw_boot_wf (f : framework) : Prop :=
  forall b m k, fw_boot f = Some (b, m, k) -> exists nb, (0 < nb)%nat /\ shape b = [nb; fw_n_thetas f; fw_n_rep f].
(** The normal distribution function and its inverse, as far as needed. *)
Definition cdf_strict (cdf : R -> R) : Prop := forall x y, x < y -> cdf x < cdf y.
Definition cdf_symmetric (cdf : R -> R) : Prop := forall x, cdf (- x) = 1 - cdf x.
Definition cdf_inverse (cdf ppf : R -> R) : Prop := forall p, 0 < p < 1 -> cdf (ppf p) = p.
(** Everything except the stored bootstrap draws is the same. *)
Definition same_but_boot (f g : framework) : Prop :=
  fw_n_obs g = fw_n_obs f /\ fw_n_thetas g = fw_n_thetas f /\ fw_n_rep g = fw_n_rep f /\
  fw_thetas g = fw_thetas f /\ fw_ses g = fw_ses f /\ fw_all_thetas g = fw_all_thetas f /\
  fw_all_ses g = fw_all_ses f /\ fw_vs g = fw_vs f /\ fw_scaled_psi g = fw_scaled_psi f /\
  fw_cluster g = fw_cluster f /\ fw_sens g = fw_sens f /\ fw_names g = fw_names f /\
  fw_sens_params g = fw_sens_params f.
(** Share of draws in which some coefficient with |t| not above that of [s]
    has a bootstrap statistic at least as large as |t_s|: the stepdown p-value
    of the null hypothesis [s] before enforcing monotonicity. *)
Definition rw_raw (n nb : nat) (boot : nat -> nat -> R) (abs_t : nat -> R) (s : nat) : R :=
  rshare (fun b => existsb (fun u => rleb (abs_t u) (abs_t s) && rleb (abs_t s) (Rabs (boot b u))) (seq 0 n)) (seq 0 nb).

(** Repetition-wise standard errors are the cluster-robust ones of the scores:
    the estimator's own variance formula applied to the framework's (scaled)
    scores with unit derivative. *)
Definition fw_ses_robust (f : framework) : Prop :=
  forall t r, (t < fw_n_thetas f)%nat -> (r < fw_n_rep f)%nat ->
    exists s2 v, var_est (fw_n_obs f) (fun i => at_ (fw_scaled_psi f) [i; t; r]) (fun _ => 1)
                   (cluster_args_rep (fw_cluster f) r) = Ok (s2, v) /\
      at_ (fw_all_ses f) [t; r] = sqrt s2.

(** ** Sensitivity *)
(** Non-negative maximal bias (it is a square root, or a sum of such). *)
Definition bias_nonneg (f : framework) : Prop :=
  forall s t r, fw_sens f = Some s -> (t < fw_n_thetas f)%nat -> (r < fw_n_rep f)%nat -> 0 <= at_ (se_max_bias s) [0%nat; t; r].
(** Confounding parameters in their admissible ranges. *)
Definition conf_ok (cy cd rho : R) : Prop := 0 <= cy < 1 /\ 0 <= cd < 1 /\ -1 <= rho <= 1.
(** Documented inputs of a sensitivity analysis. *)
Definition sens_inputs_ok (n_thetas : nat) (cf_y cf_d rho level null : pyval) : Prop :=
  (exists cy cd rh lv, cf_y = PFloat cy /\ cf_d = PFloat cd /\ rho = PFloat rh /\ level = PFloat lv /\ conf_ok cy cd rh /\ 0 < lv < 1) /\
  ((exists x, null = PFloat x) \/ (exists a, null = PArr a /\ shape a = [n_thetas])).
(** The bounded scalar minimiser returns a point of its search interval. *)
Definition minimize_bounded (minimize : (R -> R) -> R) : Prop := forall g, 0 <= minimize g <= 9999 / 10000.

(** Equal variance scaling factors. *)
Definition vs_equal (f g : framework) : Prop :=
  forall t, (t < fw_n_thetas f)%nat -> at_ (fw_vs f) [t] = at_ (fw_vs g) [t].
(** Frameworks estimated on the same sample with the same repetitions. *)
Definition compatible (f g : framework) : Prop :=
  fw_n_obs f = fw_n_obs g /\ fw_n_rep f = fw_n_rep g /\ fw_n_thetas f = fw_n_thetas g /\
  is_some (fw_cluster f) = is_some (fw_cluster g) /\ vs_equal f g.
Definition compat_all (fs : list framework) : Prop :=
  forall f g, In f fs -> In g fs -> fw_n_obs f = fw_n_obs g /\ fw_n_rep f = fw_n_rep g.
(** [h] is the value of expression [e]: a well-formed framework whose
    repetition estimates and scores are the denoted linear combinations. *)
Definition expr_inv (env : nat -> framework) (n nr : nat) (v : R) (w : nat) (e : fexpr) (h : framework) : Prop :=
  fw_wf h /\ fw_cluster h = None /\ fw_n_obs h = n /\ fw_n_rep h = nr /\ fw_n_thetas h = w /\
  (forall t, (t < w)%nat -> at_ (fw_vs h) [t] = v) /\
  (forall t r, (t < w)%nat -> at_ (fw_all_thetas h) [t; r] =
      denote (fun k => fw_n_thetas (env k)) (fun k t => at_ (fw_all_thetas (env k)) [t; r]) e t) /\
  (forall i t r, (t < w)%nat -> at_ (fw_scaled_psi h) [i; t; r] =
      denote (fun k => fw_n_thetas (env k)) (fun k t => at_ (fw_scaled_psi (env k)) [i; t; r]) e t).
(** Draw [k] of repetition [r]: all |t| at or below c; some |t| at or above c. *)
Definition all_below (b : nd) (nt r : nat) (c : R) (k : nat) : bool :=
  forallb (fun t => rleb (Rabs (at_ b [k; t; r])) c) (seq 0 nt).
Definition some_above (b : nd) (nt r : nat) (c : R) (k : nat) : bool :=
  existsb (fun t => rleb c (Rabs (at_ b [k; t; r]))) (seq 0 nt).
(** [x] lies between the sensitivity bounds of parameter [t]. *)
Definition sens_bounds_contain (res : sens_res) (t : nat) (x : R) : Prop :=
  at_ (sr_theta_lower res) [t] <= x <= at_ (sr_theta_upper res) [t].

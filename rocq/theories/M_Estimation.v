(** Model of the numeric helpers in doubleml/utils/_estimation.py. *)
From Verif Require Export BaseR.
Local Open Scope R_scope.

(** ** Aggregation over repetitions *)

(** One row of [_aggregate_coefs_and_ses] (utils/_estimation.py:248-255):
    median of the estimates; square root of the median of
    [se^2 + (coef_r - coef)^2 / scaling]. *)
Definition agg_coef (n_rep : nat) (c : nat -> R) : R := medianf n_rep c.
Definition agg_se (n_rep : nat) (c s sc : nat -> R) : R :=
  sqrt (medianf n_rep (fun r => (s r)^2 + (c r - agg_coef n_rep c)^2 / sc r)).

(** [_aggregate_coefs_and_ses] (utils/_estimation.py:242-256).  The scaling
    factors are either of shape (n,) and repeated over repetitions (243-244),
    or used as given with shape (n, n_rep) (245-246). *)
Definition aggregate_coefs_and_ses (all_coefs all_ses vs : nd) : nd * nd :=
  let n := dim 0 all_coefs in
  let n_rep := dim 1 all_coefs in
  let sc := if shape_eqb (shape vs) [n] then fun t (_ : nat) => at_ vs [t]
            else fun t r => at_ vs [t; r] in
  (mk1 n (fun t => agg_coef n_rep (fun r => at_ all_coefs [t; r])),
   mk1 n (fun t => agg_se n_rep (fun r => at_ all_coefs [t; r])
                          (fun r => at_ all_ses [t; r]) (sc t))).

(** ** Variance estimation *)

(** [np.sum(np.outer(v, v))] (utils/_estimation.py:286, 307, 310). *)
Definition outer_sum (v : list R) : R :=
  Rsum (map (fun a => Rsum (map (fun b => a * b) v)) v).

(** Boolean-mask indexing [psi[mask]] of a vector of length n. *)
Definition mask_sel (n : nat) (mask : nat -> bool) (psi : nat -> R) : list R :=
  map psi (filter mask (seq 0 n)).

Definition zmem (z : Z) (l : list Z) : bool := existsb (Z.eqb z) l.

(** [np.unique] of a vector of cluster identifiers; only its length is used.
    Cluster identifiers are modelled as integers (any type with equality). *)
Definition zuniq (l : list Z) : list Z := nodup Z.eq_dec l.

(** A fold is a pair (train indices, test indices); its cluster version lists,
    for train and for test, the cluster values per cluster dimension
    (utils/resampling.py:60-79). *)
Definition fold := (list nat * list nat)%type.
Definition cfold := (list (list Z) * list (list Z))%type.

(** Cluster information handed to [_var_est]. *)
Record cluster_args := {
  ca_vars : list (nat -> Z);        (* columns of cluster_vars *)
  ca_smpls : list fold;             (* smpls of one repetition *)
  ca_smpls_cluster : list cfold;    (* smpls_cluster of one repetition *)
  ca_n_folds_per_cluster : nat }.

(** One-way clustering loop (utils/_estimation.py:274-291): returns
    (gamma_hat, J, var_scaling_factor). *)
Definition var_est_one (n : nat) (psi psi_deriv : nat -> R) (cv : nat -> Z)
  (smpls : list fold) (sc : list cfold) (kf : nat) : R * R * R :=
  let per_fold := fun (p : fold * cfold) =>
    let test_inds := snd (fst p) in
    let I_k := nth 0 (snd (snd p)) [] in
    (Rsum (map (fun z => 1 / INR (length I_k) *
                         outer_sum (mask_sel n (fun i => Z.eqb (cv i) z) psi)) I_k),
     Rsum (map psi_deriv test_inds) / INR (length I_k)) in
  let fs := combine smpls sc in
  (Rsum (map (fun p => fst (per_fold p)) fs) / INR kf,
   Rsum (map (fun p => snd (per_fold p)) fs) / INR kf,
   INR (length (zuniq (map cv (seq 0 n))))).

(** Two-way clustering loop (utils/_estimation.py:294-317). *)
Definition var_est_two (n : nat) (psi psi_deriv : nat -> R) (cv1 cv2 : nat -> Z)
  (smpls : list fold) (sc : list cfold) (kf : nat) : R * R * R :=
  let per_fold := fun (p : fold * cfold) =>
    let test_inds := snd (fst p) in
    let I_k := nth 0 (snd (snd p)) [] in
    let J_l := nth 1 (snd (snd p)) [] in
    let const := INR (Nat.min (length I_k) (length J_l)) / (INR (length I_k * length J_l))^2 in
    (Rsum (map (fun z => const * outer_sum
             (mask_sel n (fun i => Z.eqb (cv1 i) z && zmem (cv2 i) J_l) psi)) I_k)
     + Rsum (map (fun z => const * outer_sum
             (mask_sel n (fun i => Z.eqb (cv2 i) z && zmem (cv1 i) I_k) psi)) J_l),
     Rsum (map psi_deriv test_inds) / INR (length I_k * length J_l)) in
  let fs := combine smpls sc in
  (Rsum (map (fun p => fst (per_fold p)) fs) / (INR kf)^2,
   Rsum (map (fun p => snd (per_fold p)) fs) / (INR kf)^2,
   INR (Nat.min (length (zuniq (map cv1 (seq 0 n)))) (length (zuniq (map cv2 (seq 0 n)))))).

(** [_var_est] (utils/_estimation.py:259-322): returns
    (sigma2_hat, var_scaling_factor).  [None] is [is_cluster_data=False].
    More than two cluster columns fail an assertion (294). *)
Definition var_est (n : nat) (psi psi_deriv : nat -> R) (cl : option cluster_args)
  : result (R * R) :=
  let finish := fun gamma J vs => Ok (1 / (vs * J^2) * gamma, vs) in
  match cl with
  | None => finish (meanf n (fun i => (psi i)^2)) (meanf n psi_deriv) (INR n)
  | Some c =>
      match ca_vars c with
      | [cv] => let '(g, j, vs) := var_est_one n psi psi_deriv cv (ca_smpls c)
                                     (ca_smpls_cluster c) (ca_n_folds_per_cluster c) in
                finish g j vs
      | [cv1; cv2] => let '(g, j, vs) := var_est_two n psi psi_deriv cv1 cv2 (ca_smpls c)
                                     (ca_smpls_cluster c) (ca_n_folds_per_cluster c) in
                finish g j vs
      | _ => Err AssertionError
      end
  end.

(** ** Solving for the parameter *)

(** Fold weights of clustered data (double_ml.py:1318-1321):
    1 / prod(len(inds) for inds in smpls_cluster[i_fold][1]). *)
Definition fold_scaling (g : cfold) : R :=
  1 / INR (fold_right Nat.mul 1%nat (map (@length Z) (snd g))).
(** [_aggregate_obs] (double_ml_score_mixins.py:117-128), and the accumulations
    in the linear case (57-61): mean over the observations, or the weighted sum
    over folds.  [smpls] and [smpls_cluster] have one entry per fold. *)
Definition aggregate_obs (n : nat) (cl : option cluster_args) (psi : nat -> R) : R :=
  match cl with
  | None => meanf n psi
  | Some c => Rsum (map (fun p : fold * cfold => fold_scaling (snd p) * Rsum (map psi (snd (fst p))))
                        (combine (ca_smpls c) (ca_smpls_cluster c)))
  end.
(** [LinearScoreMixin._compute_score], [_compute_score_deriv] and [_est_coef]
    (double_ml_score_mixins.py:35-64), [inds] = None.  Division by zero (numpy:
    inf or nan with a warning) is totalised; theorems exclude it. *)
Definition lin_score (psi_a psi_b : nat -> R) (coef : R) (i : nat) : R := psi_a i * coef + psi_b i.
Definition lin_est_coef (n : nat) (psi_a psi_b : nat -> R) (cl : option cluster_args) : R :=
  - aggregate_obs n cl psi_b / aggregate_obs n cl psi_a.

(** ** Bracket guess for nonlinear scores *)

(** Body of the loop of [_get_bracket_guess] (utils/_estimation.py:216-218). *)
Definition bracket_at (delta start lo hi : R) : R * R :=
  (Rmax (start - delta * (hi - lo) / 2) lo, Rmin (start + delta * (hi - lo) / 2) hi).
Definition signs_differ (score : R -> R) (b : R * R) : bool :=
  negb (reqb (rsign (score (fst b))) (rsign (score (snd b)))).
(** The while loop (215-222) in real arithmetic, with the list of evaluated
    brackets (latest first); [None]: out of fuel.  In binary floating point the
    tenth value of [delta] is 0.9999999999999999, also <= 1.0. *)
Fixpoint bracket_while (fuel : nat) (score : R -> R) (start lo hi : R)
  (s_different : bool) (delta : R) (b_guess : R * R) (seen : list (R * R))
  : option (bool * (R * R) * list (R * R)) :=
  match fuel with
  | 0%nat => None
  | S fuel' =>
      if negb s_different && rleb delta 1 then
        let b := bracket_at delta start lo hi in
        bracket_while fuel' score start lo hi (signs_differ score b) (delta + 1 / 10) b (b :: seen)
      else Some (s_different, b_guess, seen)
  end.
(** [_get_bracket_guess] (210-223). *)
Definition get_bracket_guess (fuel : nat) (score : R -> R) (start lo hi : R)
  : option (bool * (R * R) * list (R * R)) :=
  bracket_while fuel score start lo hi false (1 / 10) (lo, hi) [].

(** ** Root search (double_ml_score_mixins.py:103-212)
    Oracles: [newton score deriv start] returns (root, converged);
    [brentq score bracket] the root reported by scipy; [fmin f start bounds] the
    minimiser reported by fmin_l_bfgs_b.  Result: estimate and whether a warning
    was issued.  [bounds] are [None] when [_coef_bounds] is None or infinite. *)
Record solvers := {
  sv_newton : (R -> R) -> (R -> R) -> R -> R * bool;
  sv_brentq : (R -> R) -> R * R -> R;
  sv_fmin : (R -> R) -> R -> R * R -> R }.
Definition nl_est_coef (sv : solvers) (fuel n : nat) (cl : option cluster_args)
  (psi psi_deriv : R -> nat -> R) (start : R) (bounds : option (R * R)) : option (R * bool) :=
  let score := fun theta => aggregate_obs n cl (psi theta) in
  match bounds with
  | None =>
      let '(root, conv) := sv_newton sv score (fun theta => aggregate_obs n cl (psi_deriv theta)) start in
      Some (root, negb conv)
  | Some (lo, hi) =>
      match get_bracket_guess fuel score start lo hi with
      | None => None
      | Some (true, b, _) => Some (sv_brentq sv score b, false)
      | Some (false, _, _) =>
          (* np.mean, also for clustered data (167) *)
          let alt := sv_fmin sv (fun theta => (meanf n (psi theta))^2) start (lo, hi) in
          match get_bracket_guess fuel score alt lo hi with
          | None => None
          | Some (true, b, _) => Some (sv_brentq sv score b, false)
          | Some (false, _, _) =>
              if rltb 0 (score alt) then Some (sv_fmin sv score start (lo, hi), true)
              else Some (sv_fmin sv (fun theta => - meanf n (psi theta)) start (lo, hi), true)
          end
      end
  end.

(** Specifications: what complete fits of the model classes report. *)
From Verif Require Export M_Classes S_NuisFit S_ClusterVar.
Local Open Scope R_scope.

(** The results object after a fit: [sm] is the split used, [k] the number of
    treatments. *)
Definition fit_done {P} (w w' : world P) (F : framework) (sm : list (list fold)) (k : nat) : Prop :=
  current_fw w' F /\ fw_wf F /\ fw_aggregated F /\ m_smpls (w_obj w) = Some sm /\ fw_n_rep F = length sm /\ fw_n_thetas F = k.
(** Estimate, standard error and scaled scores of treatment t in repetition r:
    [psi] is the score at the estimate, [J] minus the sum of its derivatives. *)
Definition estimate_is (F : framework) (n t r : nat) (theta : R) (psi : vec) (J : R) : Prop :=
  at_ (fw_all_thetas F) [t; r] = theta /\ at_ (fw_all_ses F) [t; r] = sqrt (sumf n (fun i => psi i ^ 2)) / Rabs J /\
  forall i, (i < n)%nat -> at_ (fw_scaled_psi F) [i; t; r] = - (INR n * psi i / J).
(** Cluster arguments of repetition r of an object with cluster variables [cv]. *)
Definition clusters_of {P} (w : world P) (cv : list (nat -> Z)) (r : nat) (fs : list fold) (c : cluster_args) : Prop :=
  ca_vars c = cv /\ ca_smpls c = fs /\ ca_n_folds_per_cluster c = m_nfpc (w_obj w) /\
  exists sc, m_smpls_cluster (w_obj w) = Some sc /\ nth_error sc r = Some (ca_smpls_cluster c).
(** One test cell per fold, with a list of clusters for every dimension. *)
Definition cells_match (c : cluster_args) : Prop :=
  length (ca_smpls c) = length (ca_smpls_cluster c) /\ forall g, In g (ca_smpls_cluster c) -> length (snd g) = length (ca_vars c).
(** The same for clustered data: the estimate solves the fold-weighted moment
    condition of the score [b - a * theta], the variance is the multiway
    sandwich over the test cells. *)
Definition clustered_estimate_is (F : framework) (n t r : nat) (c : cluster_args) (a b : vec) : Prop :=
  let theta := at_ (fw_all_thetas F) [t; r] in
  let cells_n := INR (ca_n_folds_per_cluster c) ^ length (ca_vars c) in
  let J := moment n (Some c) a / cells_n in
  let Gamma := Rsum (map (cell_term n (ca_vars c) (fun i => b i - a i * theta)) (ca_smpls_cluster c)) / cells_n in
  theta = moment n (Some c) b / moment n (Some c) a /\
  forall k, cells_match c -> smallest_dimension n (ca_vars c) k -> at_ (fw_all_ses F) [t; r] = sqrt (1 / (INR k * J ^ 2) * Gamma).
(** Trimmed propensities. *)
Definition clipped (n : nat) (truncate : bool) (thr : R) (m0 m : vec) : Prop :=
  forall i, (i < n)%nat -> m i = if truncate then Rmin (Rmax (m0 i) thr) (1 - thr) else m0 i.
(** Weights of an arm: divided by their sample mean if normalised in the sample,
    by the share from the train part otherwise. *)
Definition share_weight (n : nat) (norm : bool) (v share : vec) : vec := fun i => if norm then v i / meanf n v else v i / share i.
(** Weights of the residual part: those given with the dictionary form for the
    repetition, the weights themselves otherwise. *)
Definition resid_weights (w : wgt) : vec := match wg_bar w with None => wg w | Some b => b end.
(** The divisions of [share_weight] are defined. *)
Definition share_ok (n : nat) (norm : bool) (v share : vec) : Prop := if norm then meanf n v <> 0 else forall i, (i < n)%nat -> share i <> 0.
(** The divisions by propensities and their complements are defined. *)
Definition off_bounds (n : nat) (ma : vec) : Prop := forall i, (i < n)%nat -> ma i <> 0 /\ ma i <> 1.
(** Sensitivity elements reported after a fit, for repetition r and treatment t:
    the five arrays of the object, and the bias bound of the results object. *)
Definition reports_sens {P} (w : world P) (e : M_Framework.sens_elems) (n r t : nat) (sigma2 nu2 : R) (psi_sigma2 psi_nu2 rr : vec) : Prop :=
  (exists s, m_sens (w_obj w) = Some s /\ b_at (sb_sigma2 s) [0%nat; r; t] = Some sigma2 /\ b_at (sb_nu2 s) [0%nat; r; t] = Some nu2 /\
     forall i, (i < n)%nat -> b_at (sb_psi_sigma2 s) [i; r; t] = Some (psi_sigma2 i) /\ b_at (sb_psi_nu2 s) [i; r; t] = Some (psi_nu2 i) /\ b_at (sb_rr s) [i; r; t] = Some (rr i)) /\
  at_ (se_max_bias e) [0%nat; t; r] = sqrt (sigma2 * nu2) /\
  (sigma2 * nu2 <> 0 -> forall i, (i < n)%nat -> at_ (se_psi_max_bias e) [i; t; r] = (sigma2 * psi_nu2 i + nu2 * psi_sigma2 i) / (2 * sqrt (sigma2 * nu2))).
(** Reported from residual squares [s2 r], the terms [nu r] whose mean estimates
    nu2, and the Riesz representer [rr r] of all repetitions r < [nr]: the means
    and the deviations from them, if all estimates of nu2 are positive; the
    second moment of the representer in all repetitions otherwise. *)
Definition sens_reported {P} (w : world P) (e : M_Framework.sens_elems) (n nr t : nat) (s2 nu rr : nat -> vec) : Prop :=
  let dev (v : vec) := fun i => v i - meanf n v in
  let sq (v : vec) := fun i => v i ^ 2 in
  ((forall r, (r < nr)%nat -> 0 < meanf n (nu r)) ->
     forall r, (r < nr)%nat -> reports_sens w e n r t (meanf n (s2 r)) (meanf n (nu r)) (dev (s2 r)) (dev (nu r)) (rr r)) /\
  ((exists r, (r < nr)%nat /\ meanf n (nu r) <= 0) ->
     forall r, (r < nr)%nat -> reports_sens w e n r t (meanf n (s2 r)) (meanf n (sq (rr r))) (dev (s2 r)) (sq (rr r)) (rr r)).

(** Specifications for the estimator object. *)
From Verif Require Export M_Model S_Framework S_CrossFit.
Local Open Scope R_scope.

Section Spec.
Context {P : Type}.
Variable C : ctx P.

(** Objects reachable by a constructor call that succeeded and any sequence of
    method calls (successful or not). *)
Definition reachable (w : world P) : Prop :=
  exists nf nr dr g perm w0 ops, new_object C nf nr dr g perm = Ok w0 /\ w = run C ops w0.

(** Everything the estimates may legitimately depend on, besides the data and
    the learners: the current split, the nuisance parameters, and the number of
    folds per cluster dimension. *)
Definition same_config (w1 w2 : world P) : Prop :=
  m_n_rep (w_obj w1) = m_n_rep (w_obj w2) /\ m_smpls (w_obj w1) = m_smpls (w_obj w2) /\
  m_smpls_cluster (w_obj w1) = m_smpls_cluster (w_obj w2) /\ m_nfpc (w_obj w1) = m_nfpc (w_obj w2) /\
  forall l t, m_params (w_obj w1) l t = m_params (w_obj w2) l t.

(** The framework currently attached to the object, as it reports now. *)
Definition current_fw (w : world P) (f : framework) : Prop :=
  exists k o, m_fw (w_obj w) = Some k /\ nth_error (w_fws w) k = Some o /\ f = fw_view (w_heap w) o.

(** Cluster information of repetition r under the current split. *)
Definition split_cluster (w : world P) (r : nat) : option cluster_args :=
  match c_cluster C with
  | None => None
  | Some cv => match m_smpls (w_obj w), m_smpls_cluster (w_obj w) with
               | Some sm, Some sc => Some {| ca_vars := cv; ca_smpls := nth r sm []; ca_smpls_cluster := nth r sc [];
                                             ca_n_folds_per_cluster := m_nfpc (w_obj w) |}
               | _, _ => None
               end
  end.
(** The prediction supplied by the user for learner l, treatment d and
    repetition r, if any. *)
Definition supplied (ext : ext_arg) (d l : string) (r : nat) (v : nat -> R) : Prop :=
  exists el il a, ext = ExtDict el /\ dict_get d el = Some (InnerDict il) /\ dict_get l il = Some (Val a) /\
    forall i, v i = at_ a [i; r].
Definition ext_matches (ext : ext_arg) (d : string) (r : nat) (e : string -> option (nat -> R)) : Prop :=
  forall l, In l (c_learners C) -> match e l with Some v => supplied ext d l r v | None => forall v, ~ supplied ext d l r v end.

(** [out r t] is what the model class's nuisance estimation returns for
    repetition r and treatment t under the current split and parameters. *)
Definition nuisance_results (w : world P) (ext : ext_arg) (out : nat -> nat -> nuis_out) : Prop :=
  exists sm, m_smpls (w_obj w) = Some sm /\ length sm = m_n_rep (w_obj w) /\
    forall r t d, (r < m_n_rep (w_obj w))%nat -> nth_error (c_dcols C) t = Some d ->
      exists e, ext_matches ext d r e /\
        c_nuis C r t (nth r sm []) (fun l => nth r (m_params (w_obj w) l d) None) e = Ok (out r t).

(** Estimate of one repetition and treatment: the root of the aggregated score. *)
Definition theta_of (cl : option cluster_args) (no : nuis_out) : R :=
  - aggregate_obs (c_n C) cl (no_b no) / aggregate_obs (c_n C) cl (no_a no).
Definition psi_of (cl : option cluster_args) (no : nuis_out) (i : nat) : R :=
  no_a no i * theta_of cl no + no_b no i.

(** [f] reports exactly the results of the nuisance estimation [out] under the
    split of [w]. *)
Record reports (w : world P) (out : nat -> nat -> nuis_out) (f : framework) : Prop := {
  rp_n_obs : fw_n_obs f = c_n C;
  rp_n_thetas : fw_n_thetas f = length (c_dcols C);
  rp_n_rep : fw_n_rep f = m_n_rep (w_obj w);
  rp_wf : fw_wf f;
  rp_agg : fw_aggregated f;
  rp_names : fw_names f = Some (c_dcols C);
  rp_boot : fw_boot f = None;
  rp_theta : forall r t, (r < fw_n_rep f)%nat -> (t < fw_n_thetas f)%nat ->
     at_ (fw_all_thetas f) [t; r] = theta_of (split_cluster w r) (out r t);
  rp_se : forall r t, (r < fw_n_rep f)%nat -> (t < fw_n_thetas f)%nat ->
     exists s2, var_est (c_n C) (psi_of (split_cluster w r) (out r t)) (no_a (out r t)) (split_cluster w r) = Ok (s2, at_ (fw_vs f) [t]) /\
       at_ (fw_all_ses f) [t; r] = sqrt s2;
  rp_psi : forall r t i, (r < fw_n_rep f)%nat -> (t < fw_n_thetas f)%nat -> (i < c_n C)%nat ->
     at_ (fw_scaled_psi f) [i; t; r] = psi_of (split_cluster w r) (out r t) i / meanf (c_n C) (no_a (out r t));
  rp_cluster : match c_cluster C with
     | None => fw_cluster f = None
     | Some cv => exists sm sc, m_smpls (w_obj w) = Some sm /\ m_smpls_cluster (w_obj w) = Some sc /\
         fw_cluster f = Some {| cd_smpls := sm; cd_smpls_cluster := sc; cd_vars := cv; cd_n_folds_per_cluster := m_nfpc (w_obj w) |}
     end }.

(** Sensitivity oracles return a variance. *)
Definition sens_var_ok : Prop :=
  match c_sens C with None => True | Some est => forall r t no th, 0 <= so_sigma2 (est r t no th) end.
(** Documented arguments of [fit]. *)
Definition fit_args_ok (n_jobs store store_models : pyval) : Prop :=
  (n_jobs = PNone \/ is_int n_jobs = true) /\ is_bool store = true /\ is_bool store_models = true.

(** Two numeric arrays of the object agree inside their shape. *)
Definition buf_eq (a b : buf) : Prop := b_shape a = b_shape b /\ forall idx, in_shape idx (b_shape a) -> b_at a idx = b_at b idx.
Definition dict_eq (a b : option (string -> buf)) : Prop :=
  match a, b with
  | None, None => True
  | Some x, Some y => forall l, In l (c_learners C) -> buf_eq (x l) (y l)
  | _, _ => False
  end.
End Spec.

(** What a framework reports about its estimates (not bootstrap or sensitivity
    results, which its own methods recompute). *)
Record same_results (f g : framework) : Prop := {
  sr_n_obs : fw_n_obs g = fw_n_obs f; sr_n_thetas : fw_n_thetas g = fw_n_thetas f; sr_n_rep : fw_n_rep g = fw_n_rep f;
  sr_thetas : fw_thetas g = fw_thetas f; sr_ses : fw_ses g = fw_ses f;
  sr_all_thetas : fw_all_thetas g = fw_all_thetas f; sr_all_ses : fw_all_ses g = fw_all_ses f;
  sr_vs : fw_vs g = fw_vs f; sr_psi : fw_scaled_psi g = fw_scaled_psi f;
  sr_cluster : fw_cluster g = fw_cluster f; sr_sens : fw_sens g = fw_sens f; sr_names : fw_names g = fw_names f }.

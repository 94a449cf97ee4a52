(** Estimator objects of the remaining classes with linear scores: what the
    constructors hand to the base class (names of the nuisance functions,
    stratification, [_nuisance_est], [_sensitivity_element_est]).  Argument
    checks of the constructors are not part of this file. *)
From Verif Require Export M_Nuis.
Local Open Scope R_scope.
Local Open Scope string_scope.

Section Classes.
Context {E P : Type}.
Variable L : learner E row P.
Variable mc : machinery E P.
Variable n : nat.

(** DoubleMLAPO (irm/apo.py:82-143, 186-190, 325-358); [lvl]: indicator of the
    treatment level, [w r]: the weights in repetition r. *)
Definition apo_ctx (dcol : string) (norm bin_out truncate : bool) (thr : R) (w : nat -> wgt) (x : nat -> row) (y d lvl : vec) (strata : option (nat -> Z)) : ctx P :=
  {| c_n := n; c_dcols := [dcol]; c_cluster := None; c_strata := strata; c_learners := ["ml_g_d_lvl0"; "ml_g_d_lvl1"; "ml_m"];
     c_classifier := mc_classifier mc; c_ext_ok := true;
     c_nuis := fun r t smpls prm ext => apo_nuis L (setup_of mc n r t prm ext) norm bin_out truncate thr (w r) x y d lvl smpls;
     c_sens := Some (fun r t no theta => so_of (apo_sens n norm (w r) y lvl (pv no "ml_g_d_lvl0") (pv no "ml_g_d_lvl1") (pv no "ml_m"))) |}.
(** DoubleMLIIVM (irm/iivm.py:125-196, 220-222). *)
Definition iivm_ctx (dcol : string) (norm bin_out at_ nt truncate : bool) (thr : R) (x : nat -> row) (y z d : vec) (strata : option (nat -> Z)) : ctx P :=
  {| c_n := n; c_dcols := [dcol]; c_cluster := None; c_strata := strata; c_learners := ["ml_g0"; "ml_g1"; "ml_m"; "ml_r0"; "ml_r1"];
     c_classifier := mc_classifier mc; c_ext_ok := true;
     c_nuis := fun r t smpls prm ext => iivm_nuis L (setup_of mc n r t prm ext) norm bin_out at_ nt truncate thr x y z d smpls;
     c_sens := None |}.
(** DoubleMLDID (did/did.py:82-148, 171-177, 323-368); [obs]: score == "observational". *)
Definition did_ctx (dcol : string) (obs norm truncate : bool) (thr : R) (x : nat -> row) (y d : vec) (strata : option (nat -> Z)) : ctx P :=
  {| c_n := n; c_dcols := [dcol]; c_cluster := None; c_strata := strata; c_learners := if obs then ["ml_g0"; "ml_g1"; "ml_m"] else ["ml_g0"; "ml_g1"];
     c_classifier := mc_classifier mc; c_ext_ok := true;
     c_nuis := fun r t smpls prm ext => did_nuis L (setup_of mc n r t prm ext) obs norm truncate thr x y d smpls;
     c_sens := Some (fun r t no theta => so_of (did_sens n obs norm y d (pv no "ml_g0") (pv no "ml_g1") (pv no "ml_m"))) |}.
(** DoubleMLDIDCS (did/did_cs.py:82-150, 172-178, 444-542). *)
Definition cs_ctx (dcol : string) (obs norm truncate : bool) (thr : R) (x : nat -> row) (y d t : vec) (strata : option (nat -> Z)) : ctx P :=
  {| c_n := n; c_dcols := [dcol]; c_cluster := None; c_strata := strata;
     c_learners := (["ml_g_d0_t0"; "ml_g_d0_t1"; "ml_g_d1_t0"; "ml_g_d1_t1"] ++ if obs then ["ml_m"] else [])%list;
     c_classifier := mc_classifier mc; c_ext_ok := true;
     c_nuis := fun r i smpls prm ext => cs_nuis L (setup_of mc n r i prm ext) obs norm truncate thr x y d t smpls;
     c_sens := Some (fun r i no theta => so_of (cs_sens n obs norm y d t (pv no "ml_g_d0_t0") (pv no "ml_g_d0_t1") (pv no "ml_g_d1_t0") (pv no "ml_g_d1_t1") (pv no "ml_m"))) |}.
(** DoubleMLPLIV (plm/pliv.py:97-136, 186-191) with one instrument; [x t], [d t]
    as in [plr_ctx]. *)
Definition pliv_ctx (dcols : list string) (iv : bool) (x : nat -> nat -> row) (y : vec) (d : nat -> vec) (z : vec) : ctx P :=
  {| c_n := n; c_dcols := dcols; c_cluster := None; c_strata := None; c_learners := if iv then ["ml_l"; "ml_m"; "ml_r"; "ml_g"] else ["ml_l"; "ml_m"; "ml_r"];
     c_classifier := mc_classifier mc; c_ext_ok := true;
     c_nuis := fun r t smpls prm ext => pliv_x_nuis L (setup_of mc n r t prm ext) iv (x t) y (d t) z smpls; c_sens := None |}.
(** With several instruments [zs] (names and columns). *)
Definition pliv_several_ctx (proj : list (row * R) -> row -> R) (dcols : list string) (x : nat -> nat -> row) (y : vec) (d : nat -> vec) (zs : list (string * vec)) : ctx P :=
  {| c_n := n; c_dcols := dcols; c_cluster := None; c_strata := None; c_learners := ("ml_l" :: "ml_r" :: map (fun p => "ml_m_" ++ fst p)%string zs)%list;
     c_classifier := mc_classifier mc; c_ext_ok := true;
     c_nuis := fun r t smpls prm ext => pliv_xs_nuis L (setup_of mc n r t prm ext) proj (x t) y (d t) zs smpls; c_sens := None |}.
(** [_partialZ] (155-168) and [_partialXZ] (170-184): external predictions are
    declared to be implemented by the constructor, but are not used. *)
Definition pliv_z_ctx (dcols : list string) (x : nat -> nat -> row) (zrow : nat -> row) (y : vec) (d : nat -> vec) : ctx P :=
  {| c_n := n; c_dcols := dcols; c_cluster := None; c_strata := None; c_learners := ["ml_r"];
     c_classifier := mc_classifier mc; c_ext_ok := true;
     c_nuis := fun r t smpls prm ext => pliv_z_nuis L (setup_of mc n r t prm ext) (x t) zrow y (d t) smpls; c_sens := None |}.
Definition pliv_xz_ctx (dcols : list string) (x : nat -> nat -> row) (zrow : nat -> row) (y : vec) (d : nat -> vec) : ctx P :=
  {| c_n := n; c_dcols := dcols; c_cluster := None; c_strata := None; c_learners := ["ml_l"; "ml_m"; "ml_r"];
     c_classifier := mc_classifier mc; c_ext_ok := true;
     c_nuis := fun r t smpls prm ext => pliv_xz_nuis L (setup_of mc n r t prm ext) (x t) zrow y (d t) smpls; c_sens := None |}.
(** DoubleMLSSM (irm/ssm.py:101-157, 181-183), score "missing-at-random". *)
Definition ssm_ctx (dcols : list string) (norm truncate : bool) (thr : R) (x : nat -> nat -> row) (y : vec) (d : nat -> vec) (s : vec) (strata : option (nat -> Z)) : ctx P :=
  {| c_n := n; c_dcols := dcols; c_cluster := None; c_strata := strata; c_learners := ["ml_g_d0"; "ml_g_d1"; "ml_pi"; "ml_m"];
     c_classifier := mc_classifier mc; c_ext_ok := false;
     c_nuis := fun r t smpls prm ext => ssm_mar_nuis L (setup_of mc n r t prm ext) norm truncate thr (x t) y (d t) s smpls; c_sens := None |}.
(** Score "nonignorable".  [tts r t] draws the halves in repetition r for
    treatment t; the attribute n_folds is taken to be the number of folds. *)
Definition ssm_non_ctx (tts : nat -> nat -> list nat -> list R -> list nat * list nat) (dcols : list string) (norm truncate : bool) (thr : R)
  (x : nat -> nat -> row) (zrow : nat -> row) (y : vec) (d : nat -> vec) (s : vec) (strata : option (nat -> Z)) : ctx P :=
  {| c_n := n; c_dcols := dcols; c_cluster := None; c_strata := strata; c_learners := ["ml_g_d0"; "ml_g_d1"; "ml_pi"; "ml_m"];
     c_classifier := mc_classifier mc; c_ext_ok := false;
     c_nuis := fun r t smpls prm ext => ssm_non_nuis L (setup_of mc n r t prm ext) (tts r t) (length smpls) norm truncate thr (x t) zrow y (d t) s smpls; c_sens := None |}.
End Classes.

(** Any class with DoubleMLClusterData (double_ml.py:31-35): the same
    estimation with cluster variables [cv]. *)
Definition clustered {P} (cv : list (nat -> Z)) (C : ctx P) : ctx P :=
  {| c_n := c_n C; c_dcols := c_dcols C; c_cluster := Some cv; c_strata := c_strata C; c_learners := c_learners C; c_classifier := c_classifier C;
     c_ext_ok := c_ext_ok C; c_nuis := c_nuis C; c_sens := c_sens C |}.

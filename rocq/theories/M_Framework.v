(** Model of doubleml/double_ml_framework.py. *)
From Verif Require Export M_Estimation.
Local Open Scope R_scope.
Local Open Scope res_scope.

(** ** Data *)

(** Cluster dictionary as passed by the user: every key may be missing
    (double_ml_framework.py:934-942).  Values are per repetition. *)
Record cluster_in := {
  ci_smpls : option (list (list fold));
  ci_smpls_cluster : option (list (list cfold));
  ci_vars : option (list (nat -> Z));
  ci_n_folds_per_cluster : option nat }.
(** Stored cluster dictionary (double_ml_framework.py:944). *)
Record cluster_dict := {
  cd_smpls : list (list fold);
  cd_smpls_cluster : list (list cfold);
  cd_vars : list (nat -> Z);
  cd_n_folds_per_cluster : nat }.

(** Sensitivity elements as passed (double_ml_framework.py:948-1011). *)
Record sens_in := {
  si_max_bias : entry nd;
  si_psi_max_bias : entry nd;
  si_sigma2 : entry nd;
  si_nu2 : entry nd }.
(** Stored sensitivity elements; [se_bench] holds (sigma2, nu2) when
    [_benchmark_available]. *)
Record sens_elems := {
  se_max_bias : nd;
  se_psi_max_bias : nd;
  se_bench : option (nd * nd) }.

(** The constructor argument (double_ml_framework.py:35-48). *)
Record fw_dict := {
  k_thetas : entry nd;
  k_ses : entry nd;
  k_all_thetas : entry nd;
  k_all_ses : entry nd;
  k_vs : entry nd;
  k_scaled_psi : entry nd;
  k_is_cluster : entry bool;
  k_cluster : entry cluster_in;
  k_sens : entry sens_in;
  k_names : entry (list (option string)) }.   (* None: an element that is not a str *)

(** Result dictionary of [_calc_sensitivity_analysis]
    (double_ml_framework.py:521-527). *)
Record sens_res := {
  sr_theta_lower : nd; sr_theta_upper : nd;
  sr_se_lower : nd; sr_se_upper : nd;
  sr_ci_lower : nd; sr_ci_upper : nd }.
(** [sensitivity_params] (double_ml_framework.py:617-624). *)
Record sens_params := {
  sp_res : sens_res; sp_rv : nd; sp_rva : nd;
  sp_cf_y : R; sp_cf_d : R; sp_rho : R; sp_level : R; sp_null : nd }.

Record framework := {
  fw_n_obs : nat; fw_n_thetas : nat; fw_n_rep : nat;
  fw_thetas : nd; fw_ses : nd; fw_all_thetas : nd; fw_all_ses : nd;
  fw_vs : nd; fw_scaled_psi : nd;
  fw_cluster : option cluster_dict;          (* Some iff _is_cluster_data *)
  fw_sens : option sens_elems;               (* Some iff _sensitivity_implemented *)
  fw_names : option (list string);
  fw_boot : option (nd * string * nat);      (* boot_t_stat, boot_method, n_rep_boot *)
  fw_sens_params : option sens_params }.

(** ** Constructor *)

(** [isinstance(x, np.ndarray)] checks raising TypeError. *)
Definition need_array (e : entry nd) : result nd :=
  match e with Val a => Ok a | _ => Err TypeError end.
(** [getattr(self, attr).shape] raising AttributeError when not an array, then
    the shape comparison (double_ml_framework.py:1023-1026). *)
Definition need_shape (e : entry nd) (s : list nat) : result nd :=
  match e with
  | Val a => require (shape_eqb (shape a) s) ValueError (Ok a)
  | _ => Err AttributeError
  end.
Definition check_shape (a : nd) (s : list nat) : result unit :=
  require (shape_eqb (shape a) s) ValueError (Ok tt).

(** [_check_and_set_cluster_data] (double_ml_framework.py:920-946). *)
Definition check_cluster (d : fw_dict) : result (option cluster_dict) :=
  match k_is_cluster d with
  | Absent => Ok None
  | Wrong => Err TypeError
  | Val false => Ok None
  | Val true =>
      match k_cluster d with
      | Absent => Err ValueError
      | Wrong => Err TypeError
      | Val c =>
          match ci_smpls c, ci_smpls_cluster c, ci_vars c, ci_n_folds_per_cluster c with
          | Some a, Some b, Some v, Some k =>
              Ok (Some {| cd_smpls := a; cd_smpls_cluster := b; cd_vars := v;
                          cd_n_folds_per_cluster := k |})
          | _, _, _, _ => Err ValueError
          end
      end
  end.

(** [np.any(a < 0)]. *)
Definition any_neg (a : nd) : bool := existsb (fun i => rltb (at_ a i) 0) (indices (shape a)).

(** [_check_sensitivity_benchmark] (double_ml_framework.py:984-1011). *)
Definition check_benchmark (s : sens_in) : result (option (nd * nd)) :=
  if present (si_sigma2 s) && present (si_nu2 s) then
    let! s2 := need_array (si_sigma2 s) in
    let! n2 := need_array (si_nu2 s) in
    require (negb (any_neg s2 || any_neg n2)) ValueError (Ok (Some (s2, n2)))
  else Ok None.

(** [_check_and_set_sensitivity_elements] (double_ml_framework.py:948-982). *)
Definition check_sens (d : fw_dict) : result (option sens_elems) :=
  match k_sens d with
  | Absent => Ok None
  | Wrong => Err TypeError
  | Val s =>
      require (present (si_max_bias s) && present (si_psi_max_bias s)) ValueError (
      let! mb := need_array (si_max_bias s) in
      let! pmb := need_array (si_psi_max_bias s) in
      let! b := check_benchmark s in
      Ok (Some {| se_max_bias := mb; se_psi_max_bias := pmb; se_bench := b |}))
  end.

(** [_check_sensitivity_elements_shapes] (double_ml_framework.py:1033-1049). *)
Definition check_sens_shapes (n_obs n_thetas n_rep : nat) (s : option sens_elems) : result unit :=
  match s with
  | None => Ok tt
  | Some s =>
      let! _ := check_shape (se_max_bias s) [1%nat; n_thetas; n_rep] in
      let! _ := check_shape (se_psi_max_bias s) [n_obs; n_thetas; n_rep] in
      match se_bench s with
      | None => Ok tt
      | Some (s2, n2) =>
          let! _ := check_shape s2 [1%nat; n_thetas; n_rep] in
          check_shape n2 [1%nat; n_thetas; n_rep]
      end
  end.

(** [_check_treatment_names] (double_ml_framework.py:1051-1066). *)
Fixpoint all_some {A} (l : list (option A)) : option (list A) :=
  match l with
  | [] => Some []
  | Some x :: r => match all_some r with Some y => Some (x :: y) | None => None end
  | None :: _ => None
  end.
Definition check_names (n_thetas : nat) (e : entry (list (option string)))
  : result (option (list string)) :=
  match e with
  | Absent => Ok None
  | Wrong => Err TypeError
  | Val l =>
      match all_some l with
      | None => Err TypeError
      | Some names => require (Nat.eqb (length names) n_thetas) ValueError (Ok (Some names))
      end
  end.

(** [DoubleMLFramework.__init__] (double_ml_framework.py:35-77).  The argument is
    [None] when it is not a dict. *)
Definition mk_framework (arg : option fw_dict) : result framework :=
  match arg with
  | None => Err TypeError
  | Some d =>
    require (present (k_thetas d) && present (k_ses d) && present (k_all_thetas d)
             && present (k_all_ses d) && present (k_vs d) && present (k_scaled_psi d)) ValueError (
    match k_scaled_psi d with
    | Val psi =>
      (* .shape[1], .shape[2], .shape[0] (49-51) *)
      require (Nat.leb 3 (length (shape psi))) IndexError (
      let n_thetas := dim 1 psi in
      let n_rep := dim 2 psi in
      let n_obs := dim 0 psi in
      let! cl := check_cluster d in
      let! se := check_sens d in
      let! th := need_shape (k_thetas d) [n_thetas] in
      let! ses := need_shape (k_ses d) [n_thetas] in
      let! ath := need_shape (k_all_thetas d) [n_thetas; n_rep] in
      let! ases := need_shape (k_all_ses d) [n_thetas; n_rep] in
      let! vs := need_shape (k_vs d) [n_thetas] in
      let! _ := check_shape psi [n_obs; n_thetas; n_rep] in
      let! _ := check_sens_shapes n_obs n_thetas n_rep se in
      let! nm := check_names n_thetas (k_names d) in
      Ok {| fw_n_obs := n_obs; fw_n_thetas := n_thetas; fw_n_rep := n_rep;
            fw_thetas := th; fw_ses := ses; fw_all_thetas := ath; fw_all_ses := ases;
            fw_vs := vs; fw_scaled_psi := psi; fw_cluster := cl; fw_sens := se;
            fw_names := nm; fw_boot := None; fw_sens_params := None |})
    | _ => Err AttributeError
    end)
  end.

(** [_check_framework_shapes] (double_ml_framework.py:1013-1031). *)
Definition check_framework_shapes (f : framework) : result unit :=
  let! _ := check_shape (fw_thetas f) [fw_n_thetas f] in
  let! _ := check_shape (fw_ses f) [fw_n_thetas f] in
  let! _ := check_shape (fw_all_thetas f) [fw_n_thetas f; fw_n_rep f] in
  let! _ := check_shape (fw_all_ses f) [fw_n_thetas f; fw_n_rep f] in
  let! _ := check_shape (fw_vs f) [fw_n_thetas f] in
  let! _ := check_shape (fw_scaled_psi f) [fw_n_obs f; fw_n_thetas f; fw_n_rep f] in
  check_sens_shapes (fw_n_obs f) (fw_n_thetas f) (fw_n_rep f) (fw_sens f).

Definition is_some {A} (o : option A) : bool := match o with Some _ => true | None => false end.

(** [_check_framework_compatibility] (utils/_checks.py:358-383). *)
Definition check_compat (f g : framework) (check_treatments : bool) : result unit :=
  require (Nat.eqb (fw_n_obs f) (fw_n_obs g)) ValueError (
  require (Nat.eqb (fw_n_rep f) (fw_n_rep g)) ValueError (
  require (if check_treatments then Nat.eqb (fw_n_thetas f) (fw_n_thetas g) else true) ValueError (
  require (Bool.eqb (is_some (fw_cluster f)) (is_some (fw_cluster g))) ValueError (Ok tt)))).

(** [np.allclose(a, b)] with numpy's default tolerances. *)
Definition allclose (a b : nd) : bool :=
  forallb (fun i => rleb (Rabs (at_ a i - at_ b i)) (1 / 100000000 + 1 / 100000 * Rabs (at_ b i)))
          (indices (shape a)).

(** The cluster dictionary handed on by the operators ("cluster_dict":
    self._cluster_dict, double_ml_framework.py:322-323). *)
Definition cluster_to_in (c : cluster_dict) : cluster_in :=
  {| ci_smpls := Some (cd_smpls c); ci_smpls_cluster := Some (cd_smpls_cluster c);
     ci_vars := Some (cd_vars c); ci_n_folds_per_cluster := Some (cd_n_folds_per_cluster c) |}.
Definition cluster_entry (c : option cluster_dict) : entry cluster_in :=
  match c with Some c => Val (cluster_to_in c) | None => Wrong (* None is not a dict *) end.

(** The second operand of [+] and [-]. *)
Inductive operand := OpFw (f : framework) | OpOther.

(** Common body of [__add__] (double_ml_framework.py:296-339) and [__sub__]
    (344-389); [op] is the elementwise operation.  Note that max_bias and
    psi_max_bias are added in both cases (327-328, 377-378). *)
Definition combine_fw (op : R -> R -> R) (f : framework) (o : operand) : result framework :=
  match o with
  | OpOther => Err TypeError
  | OpFw g =>
    let! _ := check_framework_shapes f in
    let! _ := check_framework_shapes g in
    let! _ := check_compat f g true in
    let all_thetas := nd_map2 op (fw_all_thetas f) (fw_all_thetas g) in
    let scaled_psi := nd_map2 op (fw_scaled_psi f) (fw_scaled_psi g) in
    require (allclose (fw_vs f) (fw_vs g)) AssertionError (
    let vs := fw_vs f in
    (* sigma2_hat = mean(square(scaled_psi), axis=0) / vs.reshape(-1, 1) (311-312) *)
    let all_ses := mk2 (dim 1 scaled_psi) (dim 2 scaled_psi) (fun t r =>
        sqrt (meanf (dim 0 scaled_psi) (fun i => (at_ scaled_psi [i; t; r])^2) / at_ vs [t])) in
    let '(thetas, ses) := aggregate_coefs_and_ses all_thetas all_ses vs in
    let sens :=
      match fw_sens f, fw_sens g with
      | Some a, Some b =>
          Val {| si_max_bias := Val (nd_map2 Rplus (se_max_bias a) (se_max_bias b));
                 si_psi_max_bias := Val (nd_map2 Rplus (se_psi_max_bias a) (se_psi_max_bias b));
                 si_sigma2 := Absent; si_nu2 := Absent |}
      | _, _ => Absent
      end in
    mk_framework (Some {| k_thetas := Val thetas; k_ses := Val ses;
       k_all_thetas := Val all_thetas; k_all_ses := Val all_ses; k_vs := Val vs;
       k_scaled_psi := Val scaled_psi; k_is_cluster := Val (is_some (fw_cluster f));
       k_cluster := cluster_entry (fw_cluster f); k_sens := sens; k_names := Absent |}))
  end.
Definition fw_add := combine_fw Rplus.
Definition fw_sub := combine_fw Rminus.

(** [isinstance(other, (int, float))] and the numeric value of the scalar. *)
Definition scalar_val (v : pyval) : option R :=
  match v with
  | PFloat x => Some x
  | PInt z => Some (IZR z)
  | PBool b => Some (if b then 1 else 0)
  | _ => None
  end.

(** [__mul__] (double_ml_framework.py:395-438). *)
Definition fw_mul (f : framework) (v : pyval) : result framework :=
  match scalar_val v with
  | None => Err TypeError
  | Some c =>
    let sens :=
      match fw_sens f with
      | None => Absent
      | Some a =>
          Val {| si_max_bias := Val (nd_map (Rmult (Rabs c)) (se_max_bias a));
                 si_psi_max_bias := Val (nd_map (Rmult (Rabs c)) (se_psi_max_bias a));
                 si_sigma2 := match se_bench a with Some (s2, _) => Val s2 | None => Absent end;
                 si_nu2 := match se_bench a with
                           | Some (_, n2) => Val (nd_map (Rmult (c^2)) n2) | None => Absent end |}
      end in
    mk_framework (Some {| k_thetas := Val (nd_map (Rmult c) (fw_thetas f));
       k_ses := Val (nd_map (Rmult c) (fw_ses f));
       k_all_thetas := Val (nd_map (Rmult c) (fw_all_thetas f));
       k_all_ses := Val (nd_map (Rmult c) (fw_all_ses f));
       k_vs := Val (fw_vs f);
       k_scaled_psi := Val (nd_map (Rmult c) (fw_scaled_psi f));
       k_is_cluster := Val (is_some (fw_cluster f));
       k_cluster := cluster_entry (fw_cluster f); k_sens := sens; k_names := Absent |})
  end.

(** ** concat (double_ml_framework.py:1069-1125) *)

(** All sensitivity elements, if every object has them (1107). *)
Definition fold_sens (l : list framework) : option (list sens_elems) :=
  all_some (map fw_sens l).
Definition fw_concat (objs : list operand) : result framework :=
  match objs with
  | [] => Err TypeError
  | _ :: _ =>
    match all_some (map (fun o => match o with OpFw f => Some f | OpOther => None end) objs) with
    | None => Err TypeError
    | Some [] => Err TypeError
    | Some (f :: fs) =>
      let! _ := all_ok check_framework_shapes (f :: fs) in
      let! _ := all_ok (fun g => check_compat f g false) fs in
      let cat := fun ax (sel : framework -> nd) => nd_concat ax (sel f) (map sel fs) in
      require (negb (existsb (fun g => is_some (fw_cluster g)) (f :: fs))) NotImplementedError (
      let sens :=
        match fold_sens (f :: fs) with
        | Some (s :: ss) =>
            let cat := fun (sel : sens_elems -> nd) => nd_concat 1 (sel s) (map sel ss) in
            let bench := all_some (map se_bench (s :: ss)) in
            let cb := fun (sel : nd * nd -> nd) =>
              match bench with Some (b :: bs) => Val (nd_concat 1 (sel b) (map sel bs)) | _ => Absent end in
            Val {| si_max_bias := Val (cat se_max_bias); si_psi_max_bias := Val (cat se_psi_max_bias);
                   si_sigma2 := cb fst; si_nu2 := cb snd |}
        | _ => Absent
        end in
      let! nf := mk_framework (Some {| k_thetas := Val (cat 0%nat fw_thetas);
         k_ses := Val (cat 0%nat fw_ses); k_all_thetas := Val (cat 0%nat fw_all_thetas);
         k_all_ses := Val (cat 0%nat fw_all_ses); k_vs := Val (cat 0%nat fw_vs);
         k_scaled_psi := Val (cat 1%nat fw_scaled_psi); k_is_cluster := Val false;
         k_cluster := Absent; k_sens := sens; k_names := Absent |}) in
      let! _ := check_framework_shapes nf in
      Ok nf)
    end
  end.

(** ** Statistics *)

(** [t_stats], [all_t_stats] (double_ml_framework.py:129-140). *)
Definition fw_t_stats (f : framework) : nd := nd_map2 Rdiv (fw_thetas f) (fw_ses f).
Definition fw_all_t_stats (f : framework) : nd := nd_map2 Rdiv (fw_all_thetas f) (fw_all_ses f).
(** [all_pvals] (151-157) and [pvals] (143-149); [cdf] is [norm.cdf]. *)
Definition fw_all_pvals (cdf : R -> R) (f : framework) : nd :=
  nd_map (fun t => 2 * (1 - cdf (Rabs t))) (fw_all_t_stats f).
Definition fw_pvals (cdf : R -> R) (f : framework) : nd :=
  mk1 (fw_n_thetas f) (fun t => medianf (fw_n_rep f) (fun r => at_ (fw_all_pvals cdf f) [t; r])).

(** ** Confidence intervals (double_ml_framework.py:627-677) *)

(** Critical value of repetition r for joint intervals (662-663). *)
Definition joint_crit (boot : nd) (level : R) (r : nat) : R :=
  quantile (map (fun b => maxf (dim 1 boot) (fun t => Rabs (at_ boot [b; t; r])))
                (seq 0 (dim 0 boot))) level.
(** Lower and upper end for parameter t given critical values (668-671). *)
Definition ci_end (sgn : R) (f : framework) (crit : nat -> R) (t : nat) : R :=
  medianf (fw_n_rep f) (fun r => at_ (fw_all_thetas f) [t; r] + sgn * (at_ (fw_all_ses f) [t; r] * crit r)).
Definition confint (ppf : R -> R) (f : framework) (joint level : pyval) : result nd :=
  match joint with
  | PBool jt =>
    match level with
    | PFloat lv =>
      require (negb (rleb lv 0 || rleb 1 lv)) ValueError (
      let alpha := 1 - lv in
      let! crit :=
        (if jt then
           match fw_boot f with
           | None => Err ValueError
           | Some (boot, _, _) =>
               require (Nat.ltb 0 (dim 1 boot)) ValueError (Ok (joint_crit boot lv))
           end
         else Ok (fun _ => ppf (1 - alpha / 2))) in
      Ok (mk2 (fw_n_thetas f) 2 (fun t side =>
            ci_end (if Nat.eqb side 0 then -1 else 1) f crit t)))
    | _ => Err TypeError
    end
  | _ => Err TypeError
  end.

(** ** Bootstrap (double_ml_framework.py:679-711) *)

(** [_check_bootstrap] (utils/_checks.py:344-355). *)
Definition check_bootstrap (method n_rep_boot : pyval) : result (string * nat) :=
  match method with
  | PStr m =>
    require (existsb (String.eqb m) ["Bayes"; "normal"; "wild"]%string) ValueError (
    if is_int n_rep_boot then
      require (negb (Z.ltb (int_val n_rep_boot) 1)) ValueError (Ok (m, Z.to_nat (int_val n_rep_boot)))
    else Err TypeError)
  | _ => Err ValueError
  end.
(** [weights r b i] is the multiplier weight drawn for repetition r, bootstrap
    replication b and observation i (706-709). *)
Definition boot_t (f : framework) (weights : nat -> nat -> nat -> R) (n_boot : nat) : nd :=
  mk3 n_boot (fw_n_thetas f) (fw_n_rep f) (fun b t r =>
    sumf (fw_n_obs f) (fun i => weights r b i *
      (at_ (fw_scaled_psi f) [i; t; r] / (at_ (fw_vs f) [t] * at_ (fw_all_ses f) [t; r])))).
Definition set_boot (f : framework) (b : option (nd * string * nat)) : framework :=
  {| fw_n_obs := fw_n_obs f; fw_n_thetas := fw_n_thetas f; fw_n_rep := fw_n_rep f;
     fw_thetas := fw_thetas f; fw_ses := fw_ses f; fw_all_thetas := fw_all_thetas f;
     fw_all_ses := fw_all_ses f; fw_vs := fw_vs f; fw_scaled_psi := fw_scaled_psi f;
     fw_cluster := fw_cluster f; fw_sens := fw_sens f; fw_names := fw_names f;
     fw_boot := b; fw_sens_params := fw_sens_params f |}.
Definition bootstrap (weights : nat -> nat -> nat -> R) (f : framework) (method n_rep_boot : pyval)
  : result framework :=
  let! (m, nb) := check_bootstrap method n_rep_boot in
  require (negb (is_some (fw_cluster f))) NotImplementedError
    (Ok (set_boot f (Some (boot_t f weights nb, m, nb)))).

(** ** Romano-Wolf adjustment (double_ml_framework.py:737-774) *)

(** [np.argsort] of a permutation of 0..n-1: position of each value (753). *)
Fixpoint index_of (k : nat) (l : list nat) : nat :=
  match l with
  | [] => 0
  | x :: r => if Nat.eqb x k then 0 else S (index_of k r)
  end.
Definition argsort_perm (l : list nat) : list nat := map (fun k => index_of k l) (seq 0 (length l)).
Definition nmem (k : nat) (l : list nat) : bool := existsb (Nat.eqb k) l.
(** [np.max] of a non-empty list. *)
Definition lmax (l : list R) : R := match l with [] => 0 | x :: r => rmax_list x r end.
(** Row maxima of |boot| after deleting the first i stepdown columns (756). *)
Definition rw_crit (n_thetas : nat) (boot : nat -> nat -> R) (stepdown : list nat) (i b : nat) : R :=
  lmax (map (fun t => Rabs (boot b t))
            (filter (fun t => negb (nmem t (firstn i stepdown))) (seq 0 n_thetas))).
(** [p_init[i]] (757). *)
Definition rw_init (n_thetas n_boot : nat) (boot : nat -> nat -> R) (abs_t : nat -> R)
  (stepdown : list nat) (i : nat) : R :=
  Rmin 1 (rshare (fun b => rleb (abs_t (nth i stepdown 0%nat)) (rw_crit n_thetas boot stepdown i b))
                 (seq 0 n_boot)).
(** Running maximum (759-765). *)
Fixpoint running_max (prev : R) (l : list R) : list R :=
  match l with
  | [] => []
  | x :: r => let m := Rmax x prev in m :: running_max m r
  end.
Definition stepdown_max (l : list R) : list R :=
  match l with [] => [] | x :: r => x :: running_max x r end.
(** One repetition; [argsort] is numpy's argsort (ties in any order). *)
Definition rw_rep (argsort : list R -> list nat) (n_thetas n_boot : nat)
  (boot : nat -> nat -> R) (abs_t : nat -> R) : list R :=
  let stepdown := rev (argsort (map abs_t (seq 0 n_thetas))) in
  let ro := argsort_perm stepdown in
  let p_init := map (rw_init n_thetas n_boot boot abs_t stepdown) (seq 0 n_thetas) in
  let sorted := stepdown_max p_init in
  map (fun k => nth k sorted 0) ro.
(** [p_adjust] for the Romano-Wolf method: corrected p-values (n_thetas, n_rep)
    and their median over repetitions (774).  [method.lower() in ["rw",
    "romano-wolf"]] is the flag [is_rw]; other methods are delegated to
    statsmodels ([mt], arguments: p-values of one repetition). *)
Definition p_adjust (cdf : R -> R) (argsort : list R -> list nat) (mt : list R -> result (list R))
  (f : framework) (method : pyval) (is_rw : bool) : result (nd * nd) :=
  match method with
  | PStr _ =>
    let! all := map_res (fun r =>
       if is_rw then
         match fw_boot f with
         | None => Err ValueError
         | Some (boot, _, _) =>
             Ok (rw_rep argsort (fw_n_thetas f) (dim 0 boot) (fun b t => at_ boot [b; t; r])
                        (fun t => Rabs (at_ (fw_all_t_stats f) [t; r])))
         end
       else mt (map (fun t => at_ (fw_all_pvals cdf f) [t; r]) (seq 0 (fw_n_thetas f))))
       (seq 0 (fw_n_rep f)) in
    Ok (mk1 (fw_n_thetas f) (fun t => medianf (fw_n_rep f) (fun r => nth t (nth r all []) 0)),
        mk2 (fw_n_thetas f) (fw_n_rep f) (fun t r => nth t (nth r all []) 0))
  | _ => Err TypeError
  end.

(** ** Sensitivity analysis (double_ml_framework.py:443-625) *)

(** [_check_in_zero_one] (utils/_checks.py:8-23) on a value that is a float. *)
Definition check_in_zero_one (v : pyval) (incl0 incl1 : bool) : result R :=
  match v with
  | PFloat x =>
      let low := if incl0 then rltb x 0 else rleb x 0 in
      let high := if incl1 then rltb 1 x else rleb 1 x in
      require (negb (low || high)) ValueError (Ok x)
  | _ => Err TypeError
  end.

(** [confounding_strength] (461). *)
Definition conf_strength (cf_y cf_d rho : R) : R := Rabs rho * sqrt (cf_y * (cf_d / (1 - cf_d))).

(** Cluster arguments of [_var_est] for repetition r (476-485). *)
Definition cluster_args_rep (c : option cluster_dict) (r : nat) : option cluster_args :=
  match c with
  | None => None
  | Some c => Some {| ca_vars := cd_vars c; ca_smpls := nth r (cd_smpls c) [];
                      ca_smpls_cluster := nth r (cd_smpls_cluster c) [];
                      ca_n_folds_per_cluster := cd_n_folds_per_cluster c |}
  end.
(** [sqrt(_var_est(psi, ones, ...)[0])] (487-507); a failing assertion inside
    [_var_est] is reported by [var_est_ok] below. *)
Definition sens_sigma (n : nat) (psi : nat -> R) (cl : option cluster_args) : R :=
  match var_est n psi (fun _ => 1) cl with Ok (s2, _) => sqrt s2 | Err _ => 0 end.
Definition var_est_ok (c : option cluster_dict) : bool :=
  match c with
  | None => true
  | Some c => Nat.eqb (length (cd_vars c)) 1 || Nat.eqb (length (cd_vars c)) 2
  end.

(** All sensitivity quantities for sign [sgn] (-1: lower, +1: upper). *)
Definition sens_theta (f : framework) (mb : nd) (cs sgn : R) (t r : nat) : R :=
  at_ (fw_all_thetas f) [t; r] + sgn * (cs * at_ mb [0%nat; t; r]).
Definition sens_psi (f : framework) (pmb : nd) (cs sgn : R) (t r i : nat) : R :=
  at_ (fw_scaled_psi f) [i; t; r] + sgn * (cs * at_ pmb [i; t; r]).
Definition sens_all_sigma (f : framework) (pmb : nd) (cs sgn : R) (t r : nat) : R :=
  sens_sigma (fw_n_obs f) (sens_psi f pmb cs sgn t r) (cluster_args_rep (fw_cluster f) r).

(** [_calc_sensitivity_analysis] (443-529). *)
Definition calc_sensitivity (ppf : R -> R) (f : framework) (cf_y cf_d rho level : pyval)
  : result sens_res :=
  match fw_sens f with
  | None => Err NotImplementedError
  | Some s =>
    let! cy := check_in_zero_one cf_y true false in
    let! cd := check_in_zero_one cf_d true false in
    match rho with
    | PFloat rh =>
      let! _ := check_in_zero_one (PFloat (Rabs rh)) true true in
      let! lv := check_in_zero_one level false false in
      require (var_est_ok (fw_cluster f) || Nat.eqb (fw_n_rep f * fw_n_thetas f) 0) AssertionError (
      let cs := conf_strength cy cd rh in
      let theta := fun sgn => mk2 (fw_n_thetas f) (fw_n_rep f) (sens_theta f (se_max_bias s) cs sgn) in
      let sigma := fun sgn => mk2 (fw_n_thetas f) (fw_n_rep f) (sens_all_sigma f (se_psi_max_bias s) cs sgn) in
      let '(tl, sl) := aggregate_coefs_and_ses (theta (-1)) (sigma (-1)) (fw_vs f) in
      let '(tu, su) := aggregate_coefs_and_ses (theta 1) (sigma 1) (fw_vs f) in
      let q := ppf lv in
      let ci := fun sgn => mk1 (fw_n_thetas f) (fun t => medianf (fw_n_rep f) (fun r =>
            at_ (theta sgn) [t; r] + sgn * (q * at_ (sigma sgn) [t; r]))) in
      Ok {| sr_theta_lower := tl; sr_theta_upper := tu; sr_se_lower := sl; sr_se_upper := su;
            sr_ci_lower := ci (-1); sr_ci_upper := ci 1 |})
    | _ => Err TypeError
    end
  end.

(** [_calc_robustness_value] (531-549); [minimize g] is
    [minimize_scalar(g, bounds=(0, 0.9999), method="bounded").x].  The objective is
    evaluated at floats in (0, 0.9999), for which the checks of cf_y, cf_d pass;
    an error of the objective is modelled by the value 0. *)
Definition rv_fct (ppf : R -> R) (f : framework) (null level rho : R) (t : nat)
  (sel_lower sel_upper : sens_res -> nd) (v : R) : R :=
  match calc_sensitivity ppf f (PFloat v) (PFloat v) (PFloat rho) (PFloat level) with
  | Ok s => (at_ ((if rltb (at_ (fw_thetas f) [t]) null then sel_upper else sel_lower) s) [t] - null)^2
  | Err _ => 0
  end.
Definition robustness (ppf : R -> R) (minimize : (R -> R) -> R) (f : framework)
  (null level rho : R) (t : nat) : R * R :=
  (minimize (rv_fct ppf f null level rho t sr_theta_lower sr_theta_upper),
   minimize (rv_fct ppf f null level rho t sr_ci_lower sr_ci_upper)).

Definition set_sens_params (f : framework) (p : option sens_params) : framework :=
  {| fw_n_obs := fw_n_obs f; fw_n_thetas := fw_n_thetas f; fw_n_rep := fw_n_rep f;
     fw_thetas := fw_thetas f; fw_ses := fw_ses f; fw_all_thetas := fw_all_thetas f;
     fw_all_ses := fw_all_ses f; fw_vs := fw_vs f; fw_scaled_psi := fw_scaled_psi f;
     fw_cluster := fw_cluster f; fw_sens := fw_sens f; fw_names := fw_names f;
     fw_boot := fw_boot f; fw_sens_params := p |}.

(** [null_hypothesis] handling (588-603); arrays are assumed to be of float dtype. *)
Definition null_vec (n_thetas : nat) (v : pyval) : result nd :=
  match v with
  | PFloat x => Ok (mk1 n_thetas (fun _ => x))
  | PArr a => require (shape_eqb (shape a) [n_thetas]) ValueError (Ok a)
  | _ => Err TypeError
  end.
Definition float_or0 (v : pyval) : R := match v with PFloat x => x | _ => 0 end.

(** [sensitivity_analysis] (551-625): the object after the call, or the exception. *)
Definition sensitivity_analysis (ppf : R -> R) (minimize : (R -> R) -> R) (f : framework)
  (cf_y cf_d rho level null : pyval) : result framework :=
  let! nv := null_vec (fw_n_thetas f) null in
  let! s := calc_sensitivity ppf f cf_y cf_d rho level in
  let rob := fun t => robustness ppf minimize f (at_ nv [t]) (float_or0 level) (float_or0 rho) t in
  Ok (set_sens_params f (Some {| sp_res := s; sp_rv := mk1 (fw_n_thetas f) (fun t => fst (rob t));
        sp_rva := mk1 (fw_n_thetas f) (fun t => snd (rob t));
        sp_cf_y := float_or0 cf_y; sp_cf_d := float_or0 cf_d; sp_rho := float_or0 rho;
        sp_level := float_or0 level; sp_null := nv |})).

(** [sensitivity_plot] (779-880) up to the contour values: argument checks, the
    null hypothesis read from the stored parameters (860; the parameter of the
    same name is ignored), and the value drawn at grid point (i_cf_d, i_cf_y).
    [value_ci] is [value == "ci"]; the benchmark argument is omitted (None).
    Subscripting None raises TypeError. *)
Definition sensitivity_plot (ppf : R -> R) (f : framework) (idx : pyval) (value_ci : bool)
  (rho level null include_scenario : pyval) (grid_d grid_y : pyval) (grid_size : pyval)
  : result (list (list R)) :=
  require (is_int idx) TypeError (
  require (Z.leb 0 (int_val idx) && Z.leb (int_val idx) (Z.of_nat (fw_n_thetas f) - 1)) ValueError (
  require (is_float null) TypeError (
  match include_scenario with
  | PBool sc =>
    require (negb (sc && negb (is_some (fw_sens_params f)))) ValueError (
    let! gd := check_in_zero_one grid_d false false in
    let! gy := check_in_zero_one grid_y false false in
    require (is_int grid_size) TypeError (
    require (Z.leb 10 (int_val grid_size)) ValueError (
    match fw_sens_params f with
    | None => Err TypeError
    | Some sp =>
      let t := Z.to_nat (int_val idx) in
      let m := Z.to_nat (int_val grid_size) in
      let upper := rltb (at_ (fw_thetas f) [t]) (at_ (sp_null sp) [t]) in
      let pick := fun s => at_ (match upper, value_ci with
                                | true, false => sr_theta_upper s | false, false => sr_theta_lower s
                                | true, true => sr_ci_upper s | false, true => sr_ci_lower s end) [t] in
      let grid := fun b k => b * INR k / INR (m - 1) in
      map_res (fun i => map_res (fun j =>
        let! s := calc_sensitivity ppf f (PFloat (grid gy j)) (PFloat (grid gd i)) rho level in
        Ok (pick s)) (seq 0 m)) (seq 0 m)
    end)))
  | _ => Err TypeError
  end))).

(** [DoubleML.t_stat] and [DoubleML.pval] (double_ml.py:393-407). *)
Definition model_t_stat (coef se : R) : R := coef / se.
Definition model_pval (cdf : R -> R) (coef se : R) : R := 2 * cdf (- Rabs (model_t_stat coef se)).

(** ** Methods as object updates
    A method call maps the object before to the object after and its outcome;
    an exception keeps whatever had been assigned before it was raised. *)
Definition meth (A : Type) := framework -> framework * result A.
Definition m_ret {A} (x : A) : meth A := fun f => (f, Ok x).
Definition m_lift {A} (r : framework -> result A) : meth A := fun f => (f, r f).
Definition m_bind {A B} (m : meth A) (k : A -> meth B) : meth B := fun f =>
  match m f with (f', Ok x) => k x f' | (f', Err e) => (f', Err e) end.
Definition m_set (u : framework -> framework) : meth unit := fun f => (u f, Ok tt).

(** [sensitivity_analysis] (588-625) in statement order: null hypothesis check,
    bounds, robustness values, assignment of [_sensitivity_params]. *)
Definition sensitivity_analysis_m (ppf : R -> R) (minimize : (R -> R) -> R) (cf_y cf_d rho level null : pyval) : meth unit :=
  m_bind (m_lift (fun f => null_vec (fw_n_thetas f) null)) (fun nv =>
  m_bind (m_lift (fun f => calc_sensitivity ppf f cf_y cf_d rho level)) (fun s =>
  m_bind (m_lift (fun f => Ok (map (fun t => robustness ppf minimize f (at_ nv [t]) (float_or0 level) (float_or0 rho) t)
                                   (seq 0 (fw_n_thetas f))))) (fun rob =>
  m_set (fun f => set_sens_params f (Some {| sp_res := s;
        sp_rv := mk1 (fw_n_thetas f) (fun t => fst (nth t rob (0, 0)));
        sp_rva := mk1 (fw_n_thetas f) (fun t => snd (nth t rob (0, 0)));
        sp_cf_y := float_or0 cf_y; sp_cf_d := float_or0 cf_d; sp_rho := float_or0 rho;
        sp_level := float_or0 level; sp_null := nv |}))))).
(** [bootstrap] (694-708) in statement order: checks, then the assignments. *)
Definition bootstrap_m (weights : nat -> nat -> nat -> R) (method n_rep_boot : pyval) : meth unit :=
  m_bind (m_lift (fun _ => check_bootstrap method n_rep_boot)) (fun p =>
  m_bind (m_lift (fun f => require (negb (is_some (fw_cluster f))) NotImplementedError (Ok tt))) (fun _ =>
  m_set (fun f => set_boot f (Some (boot_t f weights (snd p), fst p, snd p))))).

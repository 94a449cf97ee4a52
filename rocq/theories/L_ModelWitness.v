(** Concrete histories: sensitivity repair, missing external predictions, a
    cluster split with another number of folds. *)
From Verif Require Export L_ModelValid.
From Coq Require Import FunctionalExtensionality Lra Lia.
Local Open Scope R_scope.
Local Open Scope string_scope.

(** A constructor call that returns, by evaluation. *)
Definition built {P} (C : ctx P) nf nr dr g perm : option (option (list (list fold)) * nat * nat * nat) :=
  match new_object C nf nr dr g perm with Ok w => Some (m_smpls (w_obj w), m_n_rep (w_obj w), m_n_folds (w_obj w), m_nfpc (w_obj w)) | Err _ => None end.
Lemma built_new {P} (C : ctx P) nf nr dr g perm sm k j h : built C nf nr dr g perm = Some (sm, k, j, h) ->
  exists w0, new_object C nf nr dr g perm = Ok w0 /\ reachable C w0 /\ m_smpls (w_obj w0) = sm /\ m_n_rep (w_obj w0) = k /\ m_n_folds (w_obj w0) = j /\ m_nfpc (w_obj w0) = h.
Proof.
  unfold built. intro H. destruct (new_object C nf nr dr g perm) as [w|] eqn:E; [|discriminate]. injection H as <- <- <- <-. exists w. split; [reflexivity|]. split; [|auto].
  exists nf, nr, dr, g, perm, w, []. auto.
Qed.

(** A context whose nu2 estimate is negative. *)
Definition sens_ctx : ctx R :=
  {| c_n := 2; c_dcols := ["d"]; c_cluster := None; c_strata := None; c_learners := ["ml"]; c_classifier := fun _ => false; c_ext_ok := true;
     c_nuis := fun _ _ fs _ _ => Ok {| no_a := fun _ => -1; no_b := fun _ => first_test fs; no_preds := fun _ _ => Some (first_test fs); no_targets := fun _ => Some (fun _ => Some 0) |};
     c_sens := Some (fun _ _ _ _ => {| so_sigma2 := 1; so_nu2 := -1; so_psi_sigma2 := fun _ => 0; so_psi_nu2 := fun _ => 0; so_rr := fun _ => 1 |}) |}.
Lemma sens_new : exists w0, new_object sens_ctx (PInt 2) (PInt 1) (PBool true) g_id no_perm = Ok w0 /\ reachable sens_ctx w0 /\ m_smpls (w_obj w0) = Some split_a /\ m_n_rep (w_obj w0) = 1%nat.
Proof.
  destruct (built_new sens_ctx (PInt 2) (PInt 1) (PBool true) g_id no_perm (Some split_a) 1 2 2) as (w0 & A & B & D & E & _); [vm_compute; reflexivity|]. exists w0. auto.
Qed.
Lemma sens_fit : exists w0 w', reachable sens_ctx w0 /\ m_n_rep (w_obj w0) = 1%nat /\ fit sens_ctx PNone (PBool true) ExtNone (PBool false) w0 = (w', Ok tt).
Proof.
  destruct sens_new as (w0 & _ & R & Es & En). exists w0. destruct (fit_complete sens_ctx PNone (PBool true) ExtNone (PBool false) w0) as (w' & H).
  - cbn; lia.
  - apply reachable_wf; exact R.
  - reflexivity.
  - intros r t Hr Ht. rewrite En in Hr. assert (r = 0%nat) as -> by lia. cbn in Ht. assert (t = 0%nat) as -> by lia. eexists. unfold step_fun, nuis_call, smpls_rep. rewrite Es. cbn [set_external bind nth_error]. reflexivity.
  - intros est E r t no cl s2 v _ _ _. cbn in E. injection E as <-. cbn. lra.
  - eauto.
Qed.
Lemma repaired_not_centered : exists (C : ctx R) est w w' v psi, reachable C w /\ c_sens C = Some est /\ (forall r t no th, meanf (c_n C) (so_psi_nu2 (est r t no th)) = 0) /\
  fit C PNone (PBool true) ExtNone (PBool false) w = (w', Ok tt) /\ reports_nu2 w' 0 0 v psi /\ meanf (c_n C) psi = v /\ v <> 0.
Proof.
  destruct sens_fit as (w0 & w' & R & En & H). exists sens_ctx. eexists. exists w0, w'.
  assert (Hd : c_dcols sens_ctx <> []) by discriminate.
  destruct (nu2_repair sens_ctx w0 _ _ _ _ w' _ Hd R eq_refl H) as (out & f & e & _ & _ & _ & _ & K). destruct (K 0%nat) as (_ & _ & B); [cbn; lia|]. clear K.
  assert (H0 : (0 < m_n_rep (w_obj w0))%nat) by (rewrite En; lia). assert (Hn : -1 <= 0) by lra.
  specialize (B (ex_intro _ 0%nat (conj H0 Hn)) 0%nat H0).
  do 2 eexists. split; [exact R|]. split; [reflexivity|]. split; [intros; unfold meanf, sumf; cbn; lra|]. split; [exact H|]. split; [exact B|]. split; [reflexivity|].
  unfold meanf, sumf. cbn. lra.
Qed.

(** Two treatments, external predictions for the second only. *)
Definition two_ctx : ctx R :=
  {| c_n := 2; c_dcols := ["d1"; "d2"]; c_cluster := None; c_strata := None; c_learners := ["ml"]; c_classifier := fun _ => false; c_ext_ok := true;
     c_nuis := fun _ _ fs _ _ => Ok {| no_a := fun _ => -1; no_b := fun _ => 1; no_preds := fun _ _ => Some 1; no_targets := fun _ => None |};
     c_sens := None |}.
Definition half_ext : ext_arg := ExtDict [("d2", InnerDict [("ml", Val (mk2 2 1 (fun _ _ => 1)))])].
Lemma missing_key : exists (C : ctx R) w w' ext, reachable C w /\ check_external ext (c_dcols C) (c_learners C) (c_n C) (m_n_rep (w_obj w)) = Ok tt /\
  (exists wn, fit C PNone (PBool true) ExtNone (PBool false) w = (wn, Ok tt)) /\
  fit C PNone (PBool true) ext (PBool false) w = (w', Err KeyError).
Proof.
  assert (N : exists w0, new_object two_ctx (PInt 2) (PInt 1) (PBool true) g_id no_perm = Ok w0 /\ reachable two_ctx w0 /\ m_smpls (w_obj w0) = Some split_a /\ m_n_rep (w_obj w0) = 1%nat).
  { destruct (built_new two_ctx (PInt 2) (PInt 1) (PBool true) g_id no_perm (Some split_a) 1 2 2) as (w0 & A & B & D & E & _); [vm_compute; reflexivity|]. exists w0. auto. }
  destruct N as (w0 & N & R & Es & En). exists two_ctx, w0. eexists. exists half_ext. split; [exact R|]. split; [rewrite En; reflexivity|]. split.
  - apply fit_complete; [cbn; lia|apply reachable_wf; exact R|reflexivity| |discriminate].
    intros r t Hr Ht. rewrite En in Hr. assert (r = 0%nat) as -> by lia. eexists. unfold step_fun, nuis_call, smpls_rep. rewrite Es. cbn [set_external bind nth_error]. reflexivity.
  - vm_compute in N. injection N as <-. lazy -[Rplus Rmult Ropp Rinv Rdiv Rminus IZR]. reflexivity.
Qed.

(** Three clusters, constructed for two folds, then three folds are set. *)
Definition cl_ctx : ctx R :=
  {| c_n := 3; c_dcols := ["d"]; c_cluster := Some [Z.of_nat]; c_strata := None; c_learners := ["ml"]; c_classifier := fun _ => false; c_ext_ok := true;
     c_nuis := fun _ _ fs _ _ => Ok {| no_a := fun _ => -1; no_b := INR; no_preds := fun _ _ => Some 1; no_targets := fun _ => None |};
     c_sens := None |}.
Definition set3 : pysplit := SList [tup ([1; 2]%Z, [0]%Z); tup ([0; 2]%Z, [1]%Z); tup ([0; 1]%Z, [2]%Z)].
Definition cl3 : list (list cfold) := [[([[1; 2]]%Z, [[0]]%Z); ([[0; 2]]%Z, [[1]]%Z); ([[0; 1]]%Z, [[2]]%Z)]].
Definition sm3 : list (list fold) := [[([1; 2], [0]); ([0; 2], [1]); ([0; 1], [2])]]%nat.
Lemma folds_per_cluster_kept : exists (C : ctx R) w0 w w' f out cv k s2 v, new_object C (PInt 2) (PInt 1) (PBool false) g_id no_perm = Ok w0 /\
  set_sample_splitting C set3 (Some cl3) w0 = (w, Ok tt) /\ c_cluster C = Some [cv] /\ m_smpls (w_obj w) = Some sm3 /\ k = 3%nat /\ (forall fs, In fs sm3 -> length fs = k) /\
  fit C PNone (PBool true) ExtNone (PBool false) w = (w', Ok tt) /\ current_fw w' f /\ nuisance_results C w ExtNone out /\
  var_est (c_n C) (psi_of C (split_cluster C w 0) (out 0%nat 0%nat)) (no_a (out 0%nat 0%nat))
    (Some {| ca_vars := [cv]; ca_smpls := nth 0 sm3 []; ca_smpls_cluster := nth 0 cl3 []; ca_n_folds_per_cluster := k |}) = Ok (s2, v) /\
  at_ (fw_all_ses f) [0; 0]%nat <> sqrt s2.
Proof.
  assert (N : exists w0 w, new_object cl_ctx (PInt 2) (PInt 1) (PBool false) g_id no_perm = Ok w0 /\ set_sample_splitting cl_ctx set3 (Some cl3) w0 = (w, Ok tt) /\
    m_smpls (w_obj w) = Some sm3 /\ m_smpls_cluster (w_obj w) = Some cl3 /\ m_n_rep (w_obj w) = 1%nat /\ m_nfpc (w_obj w) = 2%nat).
  { destruct (built_new cl_ctx (PInt 2) (PInt 1) (PBool false) g_id no_perm None 1 2 2) as (w0 & A & B & _ & _ & _ & D); [vm_compute; reflexivity|]. exists w0.
    assert (K1 : check_sample_splitting 3 set3 = Ok {| ck_smpls := [[([1; 2], [0]); ([0; 2], [1]); ([0; 1], [2])]]%Z; ck_n_rep := 1; ck_n_folds := 3 |}) by (vm_compute; reflexivity).
    assert (K2 : check_cluster_splitting 3 [Z.of_nat] (Some cl3) 1 3 = Ok cl3) by (vm_compute; reflexivity).
    destruct (set_inv cl_ctx set3 (Some cl3) w0) as [(ck & sc & E1 & (sc' & -> & E2) & E3)|(e & E3)].
    - cbn [c_n cl_ctx] in E1, E2. rewrite K1 in E1. injection E1 as <-. cbn [ck_n_rep ck_n_folds ck_smpls] in *. rewrite K2 in E2. injection E2 as <-.
      eexists. split; [exact A|]. split; [exact E3|]. split; [reflexivity|]. split; [reflexivity|]. split; [reflexivity|exact D].
    - exfalso. unfold set_sample_splitting in E3. rewrite andthen_unf in E3. unfold lift at 1 in E3. cbn [c_n c_cluster cl_ctx] in E3. rewrite K1 in E3. cbn [bind ck_n_rep ck_n_folds] in E3. rewrite K2 in E3. cbn [bind] in E3.
      rewrite (andthen_eq _ _ w0 _ tt eq_refl) in E3. change ((initialize_arrays cl_ctx;;; initialize_params)) with (init_both cl_ctx) in E3. rewrite init_both_eq in E3. discriminate. }
  destruct N as (w0 & w & N & S1 & Es & Ec & En & Ek).
  assert (R : reachable cl_ctx w). { exists (PInt 2), (PInt 1), (PBool false), g_id, no_perm, w0, [OSet set3 (Some cl3)]. split; [exact N|]. cbn [run run_op]. rewrite S1. reflexivity. }
  assert (Hd : c_dcols cl_ctx <> []) by discriminate.
  assert (F : exists w', fit cl_ctx PNone (PBool true) ExtNone (PBool false) w = (w', Ok tt)).
  { apply fit_complete; [cbn; lia|apply reachable_wf; exact R|reflexivity| |discriminate]. intros r t Hr Ht. rewrite En in Hr. assert (r = 0%nat) as -> by lia. cbn in Ht. assert (t = 0%nat) as -> by lia.
    eexists. unfold step_fun, nuis_call, cluster_args_of, smpls_rep. rewrite Es, Ec. cbn [set_external bind nth_error]. reflexivity. }
  destruct F as (w' & F). destruct (fit_reports _ _ _ _ _ _ _ Hd R F) as (out & f & Nr & Cf & Rp & _).
  assert (Eo : out 0%nat 0%nat = {| no_a := fun _ => -1; no_b := INR; no_preds := fun _ _ => Some 1; no_targets := fun _ => None |}).
  { destruct Nr as (sm & _ & _ & Nr). destruct (Nr 0%nat 0%nat "d") as (e & _ & E2); [lia|reflexivity|]. cbn in E2. congruence. }
  assert (Sc : split_cluster cl_ctx w 0 = Some {| ca_vars := [Z.of_nat]; ca_smpls := nth 0 sm3 []; ca_smpls_cluster := nth 0 cl3 []; ca_n_folds_per_cluster := 2 |}).
  { unfold split_cluster. cbn [c_cluster cl_ctx]. rewrite Es, Ec, Ek. reflexivity. }
  assert (Th : theta_of cl_ctx (split_cluster cl_ctx w 0) (out 0%nat 0%nat) = 1).
  { rewrite Sc, Eo. unfold theta_of, aggregate_obs. unfold fold_scaling. cbn. field. }
  destruct (rp_se _ _ _ _ Rp 0%nat 0%nat) as (s2 & E2 & Q); [rewrite (rp_n_rep _ _ _ _ Rp), En; lia|rewrite (rp_n_thetas _ _ _ _ Rp); cbn; lia|].
  exists cl_ctx, w0, w, w', f, out, Z.of_nat, 3%nat. exists (1 / (3 * (-3 / INR 3) ^ 2) * (2 / INR 3)), 3. split; [exact N|]. split; [exact S1|]. split; [reflexivity|]. split; [exact Es|]. split; [reflexivity|].
  split; [intros fs [<-|[]]; reflexivity|]. split; [exact F|]. split; [exact Cf|]. split; [exact Nr|].
  unfold psi_of. unfold psi_of in E2. rewrite Th in *. rewrite Eo, Sc in *. clear Th Eo Sc.
  assert (K : forall k, (0 < k)%nat -> var_est_one (c_n cl_ctx) (fun i => -1 * 1 + INR i) (fun _ => -1) Z.of_nat (nth 0 sm3 []) (nth 0 cl3 []) k = (2 / INR k, -3 / INR k, 3)).
  { intros k Hk. apply lt_0_INR in Hk. unfold var_est_one. cbn [c_n cl_ctx]. cbn -[INR]. unfold mask_sel, outer_sum. cbn -[INR]. replace (INR 1) with 1 by reflexivity. replace (INR 0) with 0 by reflexivity.
    replace (INR 2) with 2 by reflexivity. replace (INR 3) with 3 by (cbn; ring). unfold outer_sum; cbn -[INR]. repeat (apply pair_equal_spec; split); try (field; lra); reflexivity. }
  cbn [no_a no_b] in E2 |- *. unfold var_est in E2 |- *. cbn [ca_vars ca_smpls ca_smpls_cluster ca_n_folds_per_cluster] in E2 |- *. rewrite K in E2 |- * by lia.
  split; [reflexivity|]. rewrite Q. injection E2 as <- _. intro E. apply sqrt_inj in E; revert E; cbn; lra.
Qed.

(** C43: what reaches the nuisance estimation. *)
Lemma supplied_passed {P} (C : ctx P) w nj store ext sm w' : c_dcols C <> [] -> reachable C w -> fit C nj store ext sm w = (w', Ok tt) ->
  exists out f smp, current_fw w' f /\ reports C w out f /\ m_smpls (w_obj w) = Some smp /\
    forall r t d, (r < m_n_rep (w_obj w))%nat -> nth_error (c_dcols C) t = Some d ->
      exists e, c_nuis C r t (nth r smp []) (fun l => nth r (m_params (w_obj w) l d) None) e = Ok (out r t) /\
        forall l, In l (c_learners C) -> (forall v, supplied ext d l r v -> e l = Some v) /\ ((forall v, ~ supplied ext d l r v) -> e l = None).
Proof.
  intros Hd R H. destruct (fit_reports _ _ _ _ _ _ _ Hd R H) as (out & f & (smp & Es & _ & Nr) & Cf & Rp & _). exists out, f, smp. split; [exact Cf|]. split; [exact Rp|]. split; [exact Es|].
  intros r t d Hr Ht. destruct (Nr r t d Hr Ht) as (e & M & E). exists e. split; [exact E|]. intros l Hl. specialize (M l Hl). split.
  - intros v Sv. destruct (e l) as [v'|]; [|exfalso; exact (M v Sv)]. f_equal. apply functional_extensionality. intro i.
    destruct M as (el & il & a & -> & D1 & D2 & D3). destruct Sv as (el' & il' & a' & E1 & E2 & E3 & E4). injection E1 as <-. rewrite D1 in E2. injection E2 as <-. rewrite D2 in E3. injection E3 as <-. now rewrite D3, E4.
  - intro No. destruct (e l) as [v'|]; [|reflexivity]. exfalso. exact (No v' M).
Qed.

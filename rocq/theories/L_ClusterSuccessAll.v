(** A fit with clustered data succeeds when its learners can be trained: the remaining classes. *)
From Verif Require Export L_ClusterSuccess.
From Coq Require Import Lia Lra.
Local Open Scope R_scope.
Local Open Scope res_scope.
Local Open Scope string_scope.

Section Fit.
Context {E P : Type}.
Variable L : learner E row P.
Variables (f : E -> row -> R) (g : E -> row -> list R).
Variable mc : machinery E P.
Lemma irm_cl_fit_success n cv dcol atte norm bin tr thr wt x y d strata w nj b b' : let C := clustered cv (irm_ctx L mc n dcol atte norm bin tr thr wt x y d strata) in
  (0 < n)%nat -> cv <> [] -> soundly_reached C w -> sound_learning L f g mc w -> no_jobs_or_int nj -> (exists sm, m_smpls (w_obj w) = Some sm) ->
  ready L g mc w n 0 dcol "ml_g0" "ml_g" y (fun i => d i = 0) -> ready L g mc w n 0 dcol "ml_g1" "ml_g" y (fun i => d i = 1) -> ready L g mc w n 0 dcol "ml_m" "ml_m" d everyone ->
  (bin = true -> soft f g mc "ml_g") -> exists w', fit C nj (PBool b) ExtNone (PBool b') w = (w', Ok tt).
Proof.
  intros C Hn Hv Hw HL Hj Hs H0 H1 Hm Hb. eapply (fit_if_nuis_cl C cv); [cbn; lia|apply reachable_wf, reached_reachable, Hw|reflexivity|exact Hv|exact (irm_var_ok L mc n dcol atte norm bin tr thr wt x y d strata)|exact Hj|exact Hs|].
  intros sm r t fs Es Er Ht. cbn [C clustered irm_ctx c_dcols c_nuis length] in *. assert (t = 0%nat) as -> by lia. cbn [nth].
  apply (irm_success L f g); [exact Hn|apply (rep_setting L f g mc C w sm r 0 fs); try assumption; cbn; congruence|intros _; exact (H0 sm r fs Es Er)|intros _; exact (H1 sm r fs Es Er)|intros _; exact (Hm sm r fs Es Er)| |].
  - intros Z _ e v. exact (Hb Z e v).
  - intros Z _ e v. exact (Hb Z e v).
Qed.
Lemma apo_cl_fit_success n cv dcol norm bin tr thr wt x y d lvl strata w nj b b' : let C := clustered cv (apo_ctx L mc n dcol norm bin tr thr wt x y d lvl strata) in
  (0 < n)%nat -> cv <> [] -> soundly_reached C w -> sound_learning L f g mc w -> no_jobs_or_int nj -> (exists sm, m_smpls (w_obj w) = Some sm) ->
  ready L g mc w n 0 dcol "ml_g_d_lvl0" "ml_g" y (fun i => lvl i = 0) -> ready L g mc w n 0 dcol "ml_g_d_lvl1" "ml_g" y (fun i => lvl i = 1) -> ready L g mc w n 0 dcol "ml_m" "ml_m" lvl everyone ->
  (bin = true -> soft f g mc "ml_g") ->
  exists w', fit C nj (PBool b) ExtNone (PBool b') w = (w', Ok tt).
Proof.
  intros C Hn Hv Hw HL Hj Hs H0 H1 H2 H3. eapply (fit_if_nuis_cl C cv); [cbn; lia|apply reachable_wf, reached_reachable, Hw|reflexivity|exact Hv|exact (apo_var_ok L mc n dcol norm bin tr thr wt x y d lvl strata)|exact Hj|exact Hs|].
  intros sm r t0 fs Es Er Ht. cbn [C clustered apo_ctx c_dcols c_nuis length] in *. assert (t0 = 0%nat) as -> by lia. cbn [nth].
  apply (apo_success L f g); [exact Hn|apply (rep_setting L f g mc C w sm r 0 fs); try assumption; cbn; congruence|intros _; exact (H0 sm r fs Es Er)|intros _; exact (H1 sm r fs Es Er)|intros _; exact (H2 sm r fs Es Er)|intro Z; split; intros e v; exact (H3 Z e v)].
Qed.
Lemma iivm_cl_fit_success n cv dcol norm bin at_ nt tr thr x y z d strata w nj b b' : let C := clustered cv (iivm_ctx L mc n dcol norm bin at_ nt tr thr x y z d strata) in
  (0 < n)%nat -> cv <> [] -> soundly_reached C w -> sound_learning L f g mc w -> no_jobs_or_int nj -> (exists sm, m_smpls (w_obj w) = Some sm) ->
  ready L g mc w n 0 dcol "ml_g0" "ml_g" y (fun i => z i = 0) -> ready L g mc w n 0 dcol "ml_g1" "ml_g" y (fun i => z i = 1) -> ready L g mc w n 0 dcol "ml_m" "ml_m" z everyone ->
  (at_ = true -> ready L g mc w n 0 dcol "ml_r0" "ml_r" d (fun i => z i = 0)) -> (nt = true -> ready L g mc w n 0 dcol "ml_r1" "ml_r" d (fun i => z i = 1)) ->
  (bin = true -> soft f g mc "ml_g") ->
  exists w', fit C nj (PBool b) ExtNone (PBool b') w = (w', Ok tt).
Proof.
  intros C Hn Hv Hw HL Hj Hs H0 H1 H2 H3 H4 H5. eapply (fit_if_nuis_cl C cv); [cbn; lia|apply reachable_wf, reached_reachable, Hw|reflexivity|exact Hv|exact Logic.I|exact Hj|exact Hs|].
  intros sm r t0 fs Es Er Ht. cbn [C clustered iivm_ctx c_dcols c_nuis length] in *. assert (t0 = 0%nat) as -> by lia. cbn [nth].
  apply (iivm_success L f g); [exact Hn|apply (rep_setting L f g mc C w sm r 0 fs); try assumption; cbn; congruence|intros _; exact (H0 sm r fs Es Er)|intros _; exact (H1 sm r fs Es Er)|intros _; exact (H2 sm r fs Es Er)|intros Z _; exact (H3 Z sm r fs Es Er)|intros Z _; exact (H4 Z sm r fs Es Er)|intro Z; split; intros e v; exact (H5 Z e v)].
Qed.
Lemma did_cl_fit_success n cv dcol (obs : bool) norm tr thr x y d strata w nj b b' : let C := clustered cv (did_ctx L mc n dcol obs norm tr thr x y d strata) in
  (0 < n)%nat -> cv <> [] -> soundly_reached C w -> sound_learning L f g mc w -> no_jobs_or_int nj -> (exists sm, m_smpls (w_obj w) = Some sm) ->
  ready L g mc w n 0 dcol "ml_g0" "ml_g" y (fun i => d i = 0) -> ready L g mc w n 0 dcol "ml_g1" "ml_g" y (fun i => d i = 1) -> (obs = true -> ready L g mc w n 0 dcol "ml_m" "ml_m" d everyone) ->
  exists w', fit C nj (PBool b) ExtNone (PBool b') w = (w', Ok tt).
Proof.
  intros C Hn Hv Hw HL Hj Hs H0 H1 H2. eapply (fit_if_nuis_cl C cv); [cbn; lia|apply reachable_wf, reached_reachable, Hw|reflexivity|exact Hv|exact (did_var_ok L mc n dcol obs norm tr thr x y d strata)|exact Hj|exact Hs|].
  intros sm r t0 fs Es Er Ht. cbn [C clustered did_ctx c_dcols c_nuis length] in *. assert (t0 = 0%nat) as -> by lia. cbn [nth].
  apply (did_success L f g); [exact Hn|apply (rep_setting L f g mc C w sm r 0 fs); try assumption; cbn; congruence|intros _; exact (H0 sm r fs Es Er)|intros _; exact (H1 sm r fs Es Er)|intros Z _; exact (H2 Z sm r fs Es Er)].
Qed.
Lemma cs_cl_fit_success n cv dcol (obs : bool) norm tr thr x y d t strata w nj b b' : let C := clustered cv (cs_ctx L mc n dcol obs norm tr thr x y d t strata) in
  (0 < n)%nat -> cv <> [] -> soundly_reached C w -> sound_learning L f g mc w -> no_jobs_or_int nj -> (exists sm, m_smpls (w_obj w) = Some sm) ->
  (forall a c name, In (name, (a, c)) [("ml_g_d0_t0", (0, 0)); ("ml_g_d0_t1", (0, 1)); ("ml_g_d1_t0", (1, 0)); ("ml_g_d1_t1", (1, 1))] -> ready L g mc w n 0 dcol name "ml_g" y (fun i => d i = a /\ t i = c)) ->
  (obs = true -> ready L g mc w n 0 dcol "ml_m" "ml_m" d everyone) ->
  exists w', fit C nj (PBool b) ExtNone (PBool b') w = (w', Ok tt).
Proof.
  intros C Hn Hv Hw HL Hj Hs H0 H1. eapply (fit_if_nuis_cl C cv); [cbn; lia|apply reachable_wf, reached_reachable, Hw|reflexivity|exact Hv|exact (cs_var_ok L mc n dcol obs norm tr thr x y d t strata)|exact Hj|exact Hs|].
  intros sm r t0 fs Es Er Ht. cbn [C clustered cs_ctx c_dcols c_nuis length] in *. assert (t0 = 0%nat) as -> by lia. cbn [nth].
  apply (cs_success L f g); [exact Hn|apply (rep_setting L f g mc C w sm r 0 fs); try assumption; cbn; congruence|intros a c name Hin _; exact (H0 a c name Hin sm r fs Es Er)|intros Z _; exact (H1 Z sm r fs Es Er)].
Qed.
Lemma pliv_several_cl_fit_success n cv proj dcols x y d zs w nj b b' : let C := clustered cv (pliv_several_ctx L mc n proj dcols x y d zs) in
  (0 < n)%nat -> cv <> [] -> dcols <> [] -> soundly_reached C w -> sound_learning L f g mc w -> no_jobs_or_int nj -> (exists sm, m_smpls (w_obj w) = Some sm) ->
  (forall t col, nth_error dcols t = Some col -> ready L g mc w n t col "ml_l" "ml_l" y everyone /\ (forall name z, In (name, z) zs -> ready L g mc w n t col ("ml_m_" ++ name)%string "ml_m" z everyone) /\ ready L g mc w n t col "ml_r" "ml_r" (d t) everyone) ->
  exists w', fit C nj (PBool b) ExtNone (PBool b') w = (w', Ok tt).
Proof.
  intros C Hn Hv Hd Hw HL Hj Hs H. eapply (fit_if_nuis_cl C cv); [destruct dcols; [congruence|cbn; lia]|apply reachable_wf, reached_reachable, Hw|reflexivity|exact Hv|exact Logic.I|exact Hj|exact Hs|].
  intros sm r t fs Es Er Ht. cbn [C clustered pliv_several_ctx c_dcols c_nuis] in *. destruct (nth_error dcols t) as [col|] eqn:Et; [|apply nth_error_None in Et; lia].
  rewrite (nth_error_nth _ _ _ Et). destruct (H t col Et) as (H0 & H1 & H2).
  apply (pliv_several_success L f g); [exact Hn|apply (rep_setting L f g mc C w sm r t fs); try assumption; cbn; congruence|intros _; exact (H0 sm r fs Es Er)|intros name z Hin _; exact (H1 name z Hin sm r fs Es Er)|intros _; exact (H2 sm r fs Es Er)].
Qed.
Lemma pliv_z_cl_fit_success n cv dcols x zrow y d w nj b b' : let C := clustered cv (pliv_z_ctx L mc n dcols x zrow y d) in
  (0 < n)%nat -> cv <> [] -> dcols <> [] -> soundly_reached C w -> sound_learning L f g mc w -> no_jobs_or_int nj -> (exists sm, m_smpls (w_obj w) = Some sm) ->
  (forall t col, nth_error dcols t = Some col -> ready L g mc w n t col "ml_r" "ml_r" (d t) everyone) ->
  exists w', fit C nj (PBool b) ExtNone (PBool b') w = (w', Ok tt).
Proof.
  intros C Hn Hv Hd Hw HL Hj Hs H. eapply (fit_if_nuis_cl C cv); [destruct dcols; [congruence|cbn; lia]|apply reachable_wf, reached_reachable, Hw|reflexivity|exact Hv|exact Logic.I|exact Hj|exact Hs|].
  intros sm r t fs Es Er Ht. cbn [C clustered pliv_z_ctx c_dcols c_nuis] in *. destruct (nth_error dcols t) as [col|] eqn:Et; [|apply nth_error_None in Et; lia].
  rewrite (nth_error_nth _ _ _ Et). pose proof (H t col Et) as H0.
  apply (pliv_z_success L f g); [exact Hn|apply (rep_setting L f g mc C w sm r t fs); try assumption; cbn; congruence|exact (H0 sm r fs Es Er)].
Qed.
Lemma ssm_cl_fit_success n cv dcols norm tr thr x y d s strata w nj b b' : let C := clustered cv (ssm_ctx L mc n dcols norm tr thr x y d s strata) in
  (0 < n)%nat -> cv <> [] -> dcols <> [] -> soundly_reached C w -> sound_learning L f g mc w -> no_jobs_or_int nj -> (exists sm, m_smpls (w_obj w) = Some sm) ->
  (forall t col, nth_error dcols t = Some col -> ready L g mc w n t col "ml_pi" "ml_pi" s everyone /\ ready L g mc w n t col "ml_m" "ml_m" (d t) everyone /\
     ready L g mc w n t col "ml_g_d1" "ml_g" y (fun i => d t i = 1 /\ s i = 1) /\ ready L g mc w n t col "ml_g_d0" "ml_g" y (fun i => d t i = 0 /\ s i = 1)) ->
  exists w', fit C nj (PBool b) ExtNone (PBool b') w = (w', Ok tt).
Proof.
  intros C Hn Hv Hd Hw HL Hj Hs H. eapply (fit_if_nuis_cl C cv); [destruct dcols; [congruence|cbn; lia]|apply reachable_wf, reached_reachable, Hw|reflexivity|exact Hv|exact Logic.I|exact Hj|exact Hs|].
  intros sm r t fs Es Er Ht. cbn [C clustered ssm_ctx c_dcols c_nuis] in *. destruct (nth_error dcols t) as [col|] eqn:Et; [|apply nth_error_None in Et; lia].
  rewrite (nth_error_nth _ _ _ Et). destruct (H t col Et) as (H0 & H1 & H2 & H3).
  apply (ssm_success L f g); [exact Hn|apply (rep_setting L f g mc C w sm r t fs); try assumption; cbn; congruence|exact (H0 sm r fs Es Er)|exact (H1 sm r fs Es Er)|exact (H2 sm r fs Es Er)|exact (H3 sm r fs Es Er)].
Qed.
End Fit.

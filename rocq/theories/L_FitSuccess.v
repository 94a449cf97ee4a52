(** A fit succeeds when its learners can be trained. *)
From Verif Require Export L_Success L_NuisFit L_NuisCases S_Model.
From Coq Require Import Lia Lra.
Local Open Scope R_scope.
Local Open Scope res_scope.
Local Open Scope string_scope.

Lemma fit_if_nuis {P} (C : ctx P) w nj b b' : (0 < length (c_dcols C))%nat -> wf C w -> c_cluster C = None -> sens_var_ok C -> no_jobs_or_int nj ->
  (exists sm, m_smpls (w_obj w) = Some sm) ->
  (forall sm r t fs, m_smpls (w_obj w) = Some sm -> nth_error sm r = Some fs -> (t < length (c_dcols C))%nat ->
     exists out, c_nuis C r t fs (fun l => nth r (m_params (w_obj w) l (nth t (c_dcols C) EmptyString)) None) (fun _ => None) = Ok out) ->
  exists w', fit C nj (PBool b) ExtNone (PBool b') w = (w', Ok tt).
Proof.
  intros Hd W Hc Hs Hj (sm & Es) H. apply fit_complete; [exact Hd|exact W| | |].
  - unfold fit_check, check_fit, lift. cbn [snd]. assert (Q : match nj with PNone => true | v => is_int v end = true) by (destruct Hj as [->|(k & ->)]; reflexivity).
    rewrite Q. cbn [require is_bool]. destruct (c_ext_ok C); reflexivity.
  - intros r t Hr Ht. rewrite <- (wf_smpls _ _ W sm Es) in Hr. destruct (nth_error sm r) as [fs|] eqn:Er; [|apply nth_error_None in Er; lia].
    destruct (H sm r t fs Es Er Ht) as (out & Eo). unfold step_fun, nuis_call, cluster_args_of, smpls_rep. rewrite Es, Hc. cbn [set_external bind]. rewrite Er. cbn [bind]. rewrite Eo. cbn [bind]. eexists. reflexivity.
  - apply var_ok_cond, Hs.
Qed.
Section Fit.
Context {E P : Type}.
Variable L : learner E row P.
Variables (f : E -> row -> R) (g : E -> row -> list R).
Variable mc : machinery E P.

Lemma plr_fit_success n dcols iv bin x y d w nj b b' : let C := plr_ctx L mc n dcols iv bin x y d in
  (0 < n)%nat -> dcols <> [] -> soundly_reached C w -> sound_learning L f g mc w -> no_jobs_or_int nj -> (exists sm, m_smpls (w_obj w) = Some sm) ->
  (forall t col, nth_error dcols t = Some col -> ready L g mc w n t col "ml_l" "ml_l" y everyone /\ ready L g mc w n t col "ml_m" "ml_m" (d t) everyone /\
     (iv = true -> forall v, ready L g mc w n t col "ml_g" "ml_g" v everyone) /\ (bin t = true -> soft f g mc "ml_m")) ->
  exists w', fit C nj (PBool b) ExtNone (PBool b') w = (w', Ok tt).
Proof.
  intros C Hn Hd Hw HL Hj Hs H. apply fit_if_nuis; [destruct dcols; [congruence|cbn; lia]|apply reachable_wf, reached_reachable, Hw|reflexivity|apply plr_var_ok|exact Hj|exact Hs|].
  intros sm r t fs Es Er Ht. cbn [C plr_ctx c_dcols c_nuis] in *. destruct (nth_error dcols t) as [col|] eqn:Et; [|apply nth_error_None in Et; lia].
  rewrite (nth_error_nth _ _ _ Et). destruct (H t col Et) as (H1 & H2 & H3 & H4).
  apply (plr_success L f g); [exact Hn|apply (rep_setting L f g mc C w sm r t fs); try assumption; discriminate|intros _ _; exact (H1 sm r fs Es Er)|intros _; exact (H2 sm r fs Es Er)|intros Z v _; exact (H3 Z v sm r fs Es Er)|].
  intros Z e v. exact (H4 Z e v).
Qed.
Lemma irm_fit_success n dcol atte norm bin tr thr wt x y d strata w nj b b' : let C := irm_ctx L mc n dcol atte norm bin tr thr wt x y d strata in
  (0 < n)%nat -> soundly_reached C w -> sound_learning L f g mc w -> no_jobs_or_int nj -> (exists sm, m_smpls (w_obj w) = Some sm) ->
  ready L g mc w n 0 dcol "ml_g0" "ml_g" y (fun i => d i = 0) -> ready L g mc w n 0 dcol "ml_g1" "ml_g" y (fun i => d i = 1) -> ready L g mc w n 0 dcol "ml_m" "ml_m" d everyone ->
  (bin = true -> soft f g mc "ml_g") -> exists w', fit C nj (PBool b) ExtNone (PBool b') w = (w', Ok tt).
Proof.
  intros C Hn Hw HL Hj Hs H0 H1 Hm Hb. apply fit_if_nuis; [cbn; lia|apply reachable_wf, reached_reachable, Hw|reflexivity|apply irm_var_ok|exact Hj|exact Hs|].
  intros sm r t fs Es Er Ht. cbn [C irm_ctx c_dcols c_nuis length] in *. assert (t = 0%nat) as -> by lia. cbn [nth].
  apply (irm_success L f g); [exact Hn|apply (rep_setting L f g mc C w sm r 0 fs); try assumption; discriminate|intros _; exact (H0 sm r fs Es Er)|intros _; exact (H1 sm r fs Es Er)|intros _; exact (Hm sm r fs Es Er)| |].
  - intros Z _ e v. exact (Hb Z e v).
  - intros Z _ e v. exact (Hb Z e v).
Qed.
End Fit.

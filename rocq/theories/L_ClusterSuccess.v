(** Success of the estimation with clustered data. *)
From Verif Require Export L_FitSuccess2.
From Coq Require Import Lia Lra.
Local Open Scope R_scope.
Local Open Scope string_scope.

Lemma fit_if_nuis_cl {P} (C : ctx P) cv w nj b b' : (0 < length (c_dcols C))%nat -> wf C w -> c_cluster C = Some cv -> cv <> [] -> sens_var_ok C -> no_jobs_or_int nj ->
  (exists sm, m_smpls (w_obj w) = Some sm) ->
  (forall sm r t fs, m_smpls (w_obj w) = Some sm -> nth_error sm r = Some fs -> (t < length (c_dcols C))%nat ->
     exists out, c_nuis C r t fs (fun l => nth r (m_params (w_obj w) l (nth t (c_dcols C) EmptyString)) None) (fun _ => None) = Ok out) ->
  exists w', fit C nj (PBool b) ExtNone (PBool b') w = (w', Ok tt).
Proof.
  intros Hd W Hc Hne Hs Hj (sm & Es) H. destruct (wf_smpls_c _ _ W cv sm Hc Es) as (sc & Esc & Lsc). apply fit_complete; [exact Hd|exact W| | |].
  - unfold fit_check, check_fit, lift. cbn [snd]. assert (Q : match nj with PNone => true | v => is_int v end = true) by (destruct Hj as [->|(k & ->)]; reflexivity).
    rewrite Q. cbn [require is_bool]. destruct (c_ext_ok C); reflexivity.
  - intros r t Hr Ht. destruct (nth_error sc r) as [cf|] eqn:Ec; [|apply nth_error_None in Ec; lia]. rewrite <- (wf_smpls _ _ W sm Es) in Hr. destruct (nth_error sm r) as [fs|] eqn:Er; [|apply nth_error_None in Er; lia].
    destruct (H sm r t fs Es Er Ht) as (out & Eo). unfold step_fun, nuis_call, cluster_args_of, smpls_rep. rewrite Es, Esc, Hc. cbn [set_external bind]. rewrite Er. cbn [bind]. rewrite Eo. cbn [bind]. rewrite Ec. cbn [bind].
    pose proof (wf_cv _ _ W cv Hc) as Lv. destruct cv as [|v1 [|v2 [|v3 cv]]]; [congruence|eexists; reflexivity..|cbn in Lv; lia].
  - apply var_ok_cond, Hs.
Qed.
Section Fit.
Context {E P : Type}.
Variable L : learner E row P.
Variables (f : E -> row -> R) (g : E -> row -> list R).
Variable mc : machinery E P.
Lemma plr_cl_fit_success n cv dcols iv bin x y d w nj b b' : let C := clustered cv (plr_ctx L mc n dcols iv bin x y d) in
  (0 < n)%nat -> dcols <> [] -> cv <> [] -> soundly_reached C w -> sound_learning L f g mc w -> no_jobs_or_int nj -> (exists sm, m_smpls (w_obj w) = Some sm) ->
  (forall t col, nth_error dcols t = Some col -> ready L g mc w n t col "ml_l" "ml_l" y everyone /\ ready L g mc w n t col "ml_m" "ml_m" (d t) everyone /\
     (iv = true -> forall v, ready L g mc w n t col "ml_g" "ml_g" v everyone) /\ (bin t = true -> soft f g mc "ml_m")) ->
  exists w', fit C nj (PBool b) ExtNone (PBool b') w = (w', Ok tt).
Proof.
  intros C Hn Hd Hv Hw HL Hj Hs H. eapply (fit_if_nuis_cl C cv); [destruct dcols; [congruence|cbn; lia]|apply reachable_wf, reached_reachable, Hw|reflexivity|exact Hv|exact (plr_var_ok L mc n dcols iv bin x y d)|exact Hj|exact Hs|].
  intros sm r t fs Es Er Ht. cbn [C clustered plr_ctx c_dcols c_nuis] in *. destruct (nth_error dcols t) as [col|] eqn:Et; [|apply nth_error_None in Et; lia].
  rewrite (nth_error_nth _ _ _ Et). destruct (H t col Et) as (H1 & H2 & H3 & H4).
  apply (plr_success L f g); [exact Hn|apply (rep_setting L f g mc C w sm r t fs); try assumption; cbn; congruence|intros _ _; exact (H1 sm r fs Es Er)|intros _; exact (H2 sm r fs Es Er)|intros Z v _; exact (H3 Z v sm r fs Es Er)|].
  intros Z e v. exact (H4 Z e v).
Qed.
Lemma pliv_cl_fit_success n cv dcols iv x y d z w nj b b' : let C := clustered cv (pliv_ctx L mc n dcols iv x y d z) in
  (0 < n)%nat -> dcols <> [] -> cv <> [] -> soundly_reached C w -> sound_learning L f g mc w -> no_jobs_or_int nj -> (exists sm, m_smpls (w_obj w) = Some sm) ->
  (forall t col, nth_error dcols t = Some col -> ready L g mc w n t col "ml_l" "ml_l" y everyone /\ ready L g mc w n t col "ml_m" "ml_m" z everyone /\ ready L g mc w n t col "ml_r" "ml_r" (d t) everyone /\
     (iv = true -> forall v, ready L g mc w n t col "ml_g" "ml_g" v everyone)) ->
  exists w', fit C nj (PBool b) ExtNone (PBool b') w = (w', Ok tt).
Proof.
  intros C Hn Hd Hv Hw HL Hj Hs H. eapply (fit_if_nuis_cl C cv); [destruct dcols; [congruence|cbn; lia]|apply reachable_wf, reached_reachable, Hw|reflexivity|exact Hv|exact Logic.I|exact Hj|exact Hs|].
  intros sm r t fs Es Er Ht. cbn [C clustered pliv_ctx c_dcols c_nuis] in *. destruct (nth_error dcols t) as [col|] eqn:Et; [|apply nth_error_None in Et; lia].
  rewrite (nth_error_nth _ _ _ Et). destruct (H t col Et) as (H1 & H2 & H3 & H4).
  apply (pliv_success L f g); [exact Hn|apply (rep_setting L f g mc C w sm r t fs); try assumption; cbn; congruence|intros _; exact (H1 sm r fs Es Er)|intros _; exact (H2 sm r fs Es Er)|intros _; exact (H3 sm r fs Es Er)|].
  intros Z v _. exact (H4 Z v sm r fs Es Er).
Qed.
End Fit.

(** Losses of objects built by constructor calls. *)
From Verif Require Import L_DataOps L_DataProps.
From Verif Require Export L_Loss L_InitFit.
From Coq Require Import Lia Lra.
Local Open Scope R_scope.
Local Open Scope res_scope.
Local Open Scope string_scope.

Section Rep.
Context {E P : Type}.
Variable L : learner E row P.
Variables (f : E -> row -> R) (g : E -> row -> list R).
Variable mc : machinery E P.

Lemma plr_iv_evaluated (su : setup E P) bt x y d smpls out : setting L f g su smpls -> fit_ok L g su "ml_l" "ml_l" y everyone smpls -> fit_ok L g su "ml_m" "ml_m" d everyone smpls ->
  (forall v, fit_ok L g su "ml_g" "ml_g" v everyone smpls) -> plain_labels su "ml_l" y -> plain_labels su "ml_m" d -> su_proba su "ml_g" = false -> plr_nuis L su true bt x y d smpls = Ok out ->
  exists m, nuisance L f g su "ml_m" "ml_m" x d whole_train smpls m /\ reported su out "ml_m" m /\ evaluated su out "ml_m" d all_of /\
    match su_ext su "ml_g" with
    | Some _ => no_targets out "ml_g" = None /\ no_targets out "ml_l" = None
    | None => exists l theta gg, nuisance L f g su "ml_l" "ml_l" x y whole_train smpls l /\ reported su out "ml_l" l /\ evaluated su out "ml_l" y all_of /\ slope_of su y d d l m m theta /\
        cross_fitted L f g su "ml_g" "ml_g" x (fun i => y i - theta * d i) whole_train smpls gg /\ reported su out "ml_g" gg /\ evaluated su out "ml_g" (fun i => y i - theta * d i) all_of
    end.
Proof.
  intros S Fl Fm Fg Pl Pm Pg H. unfold plr_nuis in H. cbn [andb] in H. inv1 H. inv1 H. inv1 H. inv1 H. inv1 H. subst out.
  pose proof E1 as M. apply (nuis_all L f g) in M as (N2 & K2); [|assumption|exact Fm].
  pose proof E2 as G. apply (nuis_all L f g) in G as (N3 & K3); [|assumption|exact (Fg _)].
  exists (hv h0). split; [exact N2|]. split; [apply out_reported; [reflexivity|exact K2]|]. split; [eapply out_evaluated; [reflexivity|eapply hat_all; eassumption]|].
  pose proof (hat_all L f g su "ml_g" "ml_g" x _ smpls h1 S (Fg _) (or_introl Pg) E2) as Ge.
  unfold nuisance in N3. destruct (su_ext su "ml_g") eqn:Ex.
  - split.
    + unfold hat_evaluated in Ge. rewrite Ex in Ge. exact Ge.
    + cbn. unfold or_ext in E0. destruct (su_ext su "ml_l"); apply ok_inj in E0; subst h; reflexivity.
  - pose proof E0 as Q. apply (nuis_all L f g) in Q as (N1 & K1); [|assumption|exact Fl].
    exists (hv h), (initial_theta (su_n su) y d (h_preds h) (h_preds h0)), (hv h1). split; [exact N1|]. split; [apply out_reported; [reflexivity|exact K1]|].
    split; [eapply out_evaluated; [reflexivity|eapply hat_all; eassumption]|]. split; [apply theta_slope; assumption|]. split; [exact N3|]. split; [apply out_reported; [reflexivity|exact K3]|].
    eapply out_evaluated; [reflexivity|exact Ge].
Qed.

Lemma loss_rep (C : ctx P) w nj store ext smod w' : c_dcols C <> [] -> c_cluster C <> Some [] -> soundly_reached C w -> sound_learning L f g mc w -> fit C nj store ext smod w = (w', Ok tt) ->
  exists out, forall sm r t fs col, m_smpls (w_obj w) = Some sm -> nth_error sm r = Some fs -> nth_error (c_dcols C) t = Some col ->
    exists e, let su := setup_of mc (c_n C) r t (fun l => nth r (m_params (w_obj w) l col) None) e in
      ext_matches C ext col r e /\ setting L f g su fs /\ c_nuis C r t fs (fun l => nth r (m_params (w_obj w) l col) None) e = Ok (out r t) /\
      (forall name v y c G, In name (c_learners C) -> (forall i, c i = true <-> G i) -> reported su (out r t) name v -> evaluated su (out r t) name y c ->
         loss_reported w' r t ext col name (c_classifier C name) (c_n C) v y G) /\
      (forall name v y c G, In name (c_learners C) -> (forall i, c i = true <-> G i) -> reported su (out r t) name v ->
         (exists tg, no_targets (out r t) name = Some tg /\ forall i, (i < c_n C)%nat -> tg i = if c i then Some (y i) else None) -> loss_over w' r t name (c_classifier C name) (c_n C) v y G) /\
      (forall name, In name (c_learners C) -> no_targets (out r t) name = None -> loss_entry w' r t name None).
Proof.
  intros Hd Hc Hw HL H. destruct (fit_reports C w nj store ext smod w' Hd (reached_reachable C w Hw) H) as (out & F & (sm0 & Es0 & Ls & Nr) & _ & _ & _ & Rl & _ & _ & En).
  exists out. intros sm r t fs col Es Hr Ht. assert (sm0 = sm) by congruence. subst sm0.
  assert (Hr' : (r < length sm)%nat) by (apply nth_error_Some; congruence). assert (Ht' : (t < length (c_dcols C))%nat) by (apply nth_error_Some; congruence).
  destruct (Nr r t col) as (e & M & N); [lia|exact Ht|]. rewrite (nth_error_nth _ _ _ Hr) in N. exists e. intro su. split; [exact M|].
  split; [eapply rep_setting; eassumption|]. split; [exact N|]. assert (Hn : (r < m_n_rep (w_obj w'))%nat) by lia.
  split; [|split].
  - intros name v y c G Hi HG Rp Ev. pose proof (M name Hi) as Mn. unfold evaluated in Ev. cbn [su setup_of su_ext] in Ev. destruct (e name) as [u|] eqn:Ee.
    + split; [|intro X; exfalso; exact (X _ Mn)]. intros _. eapply entry_none; eassumption.
    + split; [intros (u & X); exfalso; exact (Mn _ X)|]. intros _. destruct Ev as (tg & Et & Etg). eapply entry_over; eassumption.
  - intros name v y c G Hi HG Rp (tg & Et & Etg). eapply entry_over; eassumption.
  - intros name Hi Et. eapply entry_none; eassumption.
Qed.
End Rep.

Section Made.
Context {E P : Type}.
Variable L : learner E row P.
Variable rd : randomness.
Variable fr : M_Data.frame.
Variable s : M_Data.ddata.
Hypothesis Re : S_Data.reachable fr s.

Lemma clusters_same (C : ctx P) : c_n (with_clusters fr s C) = c_n C /\ c_dcols (with_clusters fr s C) = c_dcols C /\ c_learners (with_clusters fr s C) = c_learners C /\
  c_classifier (with_clusters fr s C) = c_classifier C /\ c_nuis (with_clusters fr s C) = c_nuis C.
Proof. unfold with_clusters. destruct (option_map _ _); cbn; auto. Qed.
Lemma clusters_proper (C : ctx P) : proper_clusters s -> c_cluster C = None -> c_cluster (with_clusters fr s C) <> Some [].
Proof.
  intros Pc Ec. unfold with_clusters. destruct (arrays_r fr s Re) as (_ & _ & _ & _ & Cl & _). rewrite Cl. unfold proper_clusters in Pc. destruct (M_Data.r_cl (M_Data.dd_roles s)) as [[|c l]|]; cbn; [contradiction|discriminate|rewrite Ec; discriminate].
Qed.
(** *** Kinds of the learners *)
Ltac kinds := unfold c_classifier, with_clusters; match goal with |- context [option_map ?f ?o] => destruct (option_map f o) end; cbn; repeat split; reflexivity.
Lemma plr_kinds ml_l ml_m ml_g nf nr sc draw C w0 : plr_init L rd fr s ml_l ml_m ml_g nf nr (PStr sc) draw = Ok (C, w0) ->
  c_classifier C "ml_l" = ly_classifier ml_l /\ c_classifier C "ml_m" = ly_classifier ml_m /\
  (sc = "IV-type" -> c_classifier C "ml_g" = match ml_g with Some l => ly_classifier l | None => ly_classifier ml_l end).
Proof.
  intro H. unfold plr_init in H. bi H w B. ri H Zn. bi H sc' Sc. apply score_iff in Sc as (Q & _). injection Q as <-. bi H cla Ll. bi H mcl Lm. cbv zeta in H. bi H gq G. bi H u Bn. apply ok_inj in H. injection H as <- <-.
  destruct ml_g as [l|], (String.eqb sc "IV-type") eqn:Ei; [bi G lx Lx| | |]; apply ok_inj in G; subst gq; (split; [|split]); try kinds; intros ->; try discriminate Ei; kinds.
Qed.
Lemma irm_kinds ml_g ml_m nf nr sc wa norm rule thr draw C w0 : irm_init L rd fr s ml_g ml_m nf nr (PStr sc) wa norm rule thr draw = Ok (C, w0) ->
  c_classifier C "ml_g0" = ly_classifier ml_g /\ c_classifier C "ml_g1" = ly_classifier ml_g /\ c_classifier C "ml_m" = ly_classifier ml_m.
Proof.
  intro H. unfold irm_init in H. bi H w B. ri H Zn. ri H D. bi H sc' Sc. bi H w' Rw. bi H gc G. bi H mm M. bi H u Og. bi H nm Nm. bi H th T. cbv zeta in H. bi H u' W. apply ok_inj in H. injection H as <- <-. kinds.
Qed.
Lemma apo_kinds ml_g ml_m level nf nr score wa norm rule thr draw C w0 : apo_init L rd fr s ml_g ml_m level nf nr score wa norm rule thr draw = Ok (C, w0) ->
  c_classifier C "ml_g_d_lvl0" = ly_classifier ml_g /\ c_classifier C "ml_g_d_lvl1" = ly_classifier ml_g /\ c_classifier C "ml_m" = ly_classifier ml_m.
Proof.
  intro H. unfold apo_init in H. bi H w B. cbv zeta in H. ri H D. ri H Zn. ri H Tr. bi H sc' Sc. bi H w' Rw. bi H gc G. bi H mm M. bi H u Og. bi H nm Nm. bi H th T. bi H u' W. apply ok_inj in H. injection H as <- <-. kinds.
Qed.
Lemma iivm_kinds ml_g ml_m ml_r nf nr score sg norm rule thr draw C w0 : iivm_init L rd fr s ml_g ml_m ml_r nf nr score sg norm rule thr draw = Ok (C, w0) ->
  c_classifier C "ml_g0" = ly_classifier ml_g /\ c_classifier C "ml_g1" = ly_classifier ml_g /\ c_classifier C "ml_m" = ly_classifier ml_m /\ c_classifier C "ml_r0" = ly_classifier ml_r /\ c_classifier C "ml_r1" = ly_classifier ml_r.
Proof.
  intro H. unfold iivm_init in H. bi H w B. ri H D. destruct (M_Data.c_z s) as [[|z [|z' l]]|]; try discriminate. ri H Zn. bi H sc' Sc. cbv zeta in H. bi H w' Rw. bi H gc G. bi H mm M. bi H rr Mr. bi H u Og. bi H nm Nm. bi H th T. bi H p W. apply ok_inj in H. injection H as <- <-. kinds.
Qed.
Lemma did_kinds ml_g ml_m nf nr sc norm rule thr draw C w0 : did_init L rd fr s ml_g ml_m nf nr (PStr sc) norm rule thr draw = Ok (C, w0) ->
  c_classifier C "ml_g0" = ly_classifier ml_g /\ c_classifier C "ml_g1" = ly_classifier ml_g /\ (sc = "observational" -> forall l, ml_m = Some l -> c_classifier C "ml_m" = ly_classifier l).
Proof.
  intro H. unfold did_init in H. bi H w B. ri H Zn. ri H D. bi H sc' Sc. apply score_iff in Sc as (Q & _). injection Q as <-. bi H nm Nm. bi H w' Rw. cbv zeta in H. bi H ls Ls. bi H th T. apply ok_inj in H. injection H as <- <-.
  unfold did_learners in Ls. bi Ls gc G. bi Ls mm M. bi Ls u Og. apply ok_inj in Ls. subst ls. destruct (String.eqb sc "observational") eqn:Eo.
  - destruct ml_m as [l|]; [|discriminate]. bi M lx Lx. apply ok_inj in M. subst mm. split; [kinds|]. split; [kinds|]. intros _ l' Q. injection Q as <-. kinds.
  - apply ok_inj in M. subst mm. split; [kinds|]. split; [kinds|]. intros ->. discriminate Eo.
Qed.
Lemma cs_kinds ml_g ml_m nf nr sc norm rule thr draw C w0 : cs_init L rd fr s ml_g ml_m nf nr (PStr sc) norm rule thr draw = Ok (C, w0) ->
  (forall name, In name ["ml_g_d0_t0"; "ml_g_d0_t1"; "ml_g_d1_t0"; "ml_g_d1_t1"] -> c_classifier C name = ly_classifier ml_g) /\ (sc = "observational" -> forall l, ml_m = Some l -> c_classifier C "ml_m" = ly_classifier l).
Proof.
  intro H. unfold cs_init in H. bi H w B. ri H Zn. ri H D. destruct (M_Data.c_t s) as [tc|]; [|discriminate]. ri H Zt.
  bi H sc' Sc. apply score_iff in Sc as (Q & _). injection Q as <-. bi H nm Nm. cbv zeta in H. bi H w' Rw. bi H ls Ls. bi H th T. apply ok_inj in H. injection H as <- <-.
  unfold did_learners in Ls. bi Ls gc G. bi Ls mm M. bi Ls u Og. apply ok_inj in Ls. subst ls. destruct (String.eqb sc "observational") eqn:Eo.
  - destruct ml_m as [l|]; [|discriminate]. bi M lx Lx. apply ok_inj in M. subst mm. split; [intros name [<-|[<-|[<-|[<-|[]]]]]; kinds|]. intros _ l' Q. injection Q as <-. kinds.
  - apply ok_inj in M. subst mm. split; [intros name [<-|[<-|[<-|[<-|[]]]]]; kinds|]. intros ->. discriminate Eo.
Qed.
Lemma ssm_kinds tts ml_g ml_pi ml_m nf nr sc norm rule thr draw C w0 : ssm_init L rd fr s tts ml_g ml_pi ml_m nf nr (PStr sc) norm rule thr draw = Ok (C, w0) ->
  c_classifier C "ml_g_d0" = ly_classifier ml_g /\ c_classifier C "ml_g_d1" = ly_classifier ml_g /\ c_classifier C "ml_pi" = ly_classifier ml_pi /\ c_classifier C "ml_m" = ly_classifier ml_m.
Proof.
  intro H. unfold ssm_init in H. bi H w B. bi H th T. ri H Zn. bi H sc' Sc. destruct (M_Data.c_s s) as [sel|]; [|discriminate].
  cbv zeta in H. bi H w' Rw. bi H gc G. bi H pp Mp. bi H mm M. bi H u Og. bi H nm Nm. apply ok_inj in H. injection H as <- <-. destruct (String.eqb sc' "nonignorable"); kinds.
Qed.
Lemma pliv_kinds proj zc ml_l ml_m ml_r ml_g nf nr sc draw C w0 : M_Data.r_z (M_Data.dd_roles s) = Some [zc] -> pliv_init L rd fr s proj ml_l ml_m ml_r ml_g nf nr (PStr sc) draw = Ok (C, w0) ->
  c_classifier C "ml_l" = ly_classifier ml_l /\ c_classifier C "ml_m" = ly_classifier ml_m /\ c_classifier C "ml_r" = ly_classifier ml_r.
Proof.
  intros Ez H. unfold pliv_init in H. bi H w B. destruct (arrays_r fr s Re) as (_ & Az & _). rewrite Az, Ez in H.
  bi H sc' Sc. bi H cla Ll. bi H clb Lm. bi H clc Lr. cbv zeta in H. bi H gq G. apply ok_inj in H. injection H as <- <-.
  destruct ml_g as [l|]; destruct (String.eqb sc' "IV-type"); try discriminate G; [bi G lx Lx| |]; apply ok_inj in G; subst gq; kinds.
Qed.
End Made.

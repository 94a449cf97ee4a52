(** Models whose score is a function of the user. *)
From Verif Require Import L_Data L_DataOps L_DataProps.
From Verif Require Export S_Callable L_InitFit L_LossMore.
From Coq Require Import Lia Lra.
Local Open Scope R_scope.
Local Open Scope res_scope.
Local Open Scope string_scope.

(** ** Nuisance estimation *)
Section Models.
Context {E P : Type}.
Variable L : learner E row P.
Variables (f : E -> row -> R) (g : E -> row -> list R).
Variable su : setup E P.
Notation n := (su_n su).
Notation Nuisance := (nuisance L f g su).
Notation Fit := (fit_ok L g su).
Notation Group := (group_rows n).
Ltac nuis_g E0 Q := apply (nuis_sub L f g su) with (1 := is01_iff _ _) in E0; [|assumption|exact Q]; destruct E0 as (?N & ?K).

Lemma plr_call_spec user hg bt x y d smpls out : setting L f g su smpls -> Fit "ml_l" "ml_l" y everyone smpls -> Fit "ml_m" "ml_m" d everyone smpls ->
  (hg = true -> forall v, Fit "ml_g" "ml_g" v everyone smpls) -> plr_call_nuis L su user hg bt x y d smpls = Ok out ->
  exists l m gg e, Nuisance "ml_l" "ml_l" x y whole_train smpls l /\ Nuisance "ml_m" "ml_m" x d whole_train smpls m /\
    match gg with
    | Some v => hg = true /\ exists theta, slope_of su y d d l m m theta /\ Nuisance "ml_g" "ml_g" x (fun i => y i - theta * d i) whole_train smpls v
    | None => hg = false
    end /\ user y d l m gg smpls = Ok e /\ scored out e.
Proof.
  intros S Fl Fm Fg H. unfold plr_call_nuis in H. inv1 H. inv1 H. inv1 H. inv1 H. inv1 H. inv1 H. subst out.
  apply (nuis_all L f g) in E0 as (N1 & K1); [|assumption|exact Fl]. apply (nuis_all L f g) in E1 as (N2 & K2); [|assumption|exact Fm].
  exists (hv h), (hv h0), (if hg then Some (hv h1) else None), h2. split; [exact N1|]. split; [exact N2|]. split; [|split; [exact E3|apply out_scored]].
  destruct hg; [|reflexivity]. split; [reflexivity|]. apply (nuis_all L f g) in E2 as (N3 & K3); [|assumption|exact (Fg eq_refl _)]. eexists. split; [|exact N3]. apply theta_slope; assumption.
Qed.
Lemma pliv_call_spec user hg x y d z smpls out : setting L f g su smpls -> Fit "ml_l" "ml_l" y everyone smpls -> Fit "ml_m" "ml_m" z everyone smpls -> Fit "ml_r" "ml_r" d everyone smpls ->
  (hg = true -> forall v, Fit "ml_g" "ml_g" v everyone smpls) -> pliv_call_nuis L su user hg x y d z smpls = Ok out ->
  exists l m r gg e, Nuisance "ml_l" "ml_l" x y whole_train smpls l /\ Nuisance "ml_m" "ml_m" x z whole_train smpls m /\ Nuisance "ml_r" "ml_r" x d whole_train smpls r /\
    match gg with
    | Some v => hg = true /\ exists theta, slope_of su y d z l r m theta /\ Nuisance "ml_g" "ml_g" x (fun i => y i - theta * d i) whole_train smpls v
    | None => hg = false
    end /\ user y z d l m r gg smpls = Ok e /\ scored out e.
Proof.
  intros S Fl Fm Fr Fg H. unfold pliv_call_nuis in H. inv1 H. inv1 H. inv1 H. inv1 H. inv1 H. inv1 H. subst out.
  apply (nuis_all L f g) in E0 as (N1 & K1); [|assumption|exact Fl]. apply (nuis_all L f g) in E1 as (N2 & K2); [|assumption|exact Fm]. apply (nuis_all L f g) in E2 as (N3 & K3); [|assumption|exact Fr].
  exists (hv h), (hv h0), (hv h1), (if hg then Some (hv h2) else None), h3. split; [exact N1|]. split; [exact N2|]. split; [exact N3|]. split; [|split; [exact E4|apply out_scored]].
  destruct hg; [|reflexivity]. split; [reflexivity|]. apply (nuis_all L f g) in E3 as (N4 & K4); [|assumption|exact (Fg eq_refl _)]. eexists. split; [|exact N4]. apply theta_iv_slope; assumption.
Qed.
Lemma irm_call_spec user norm bo tr thr x y d smpls out : setting L f g su smpls -> Fit "ml_g0" "ml_g" y (fun j => d j = 0) smpls -> Fit "ml_g1" "ml_g" y (fun j => d j = 1) smpls ->
  Fit "ml_m" "ml_m" d everyone smpls -> irm_call_nuis L su user norm bo tr thr x y d smpls = Ok out ->
  exists g0 g1 m0 m e, Nuisance "ml_g0" "ml_g" x y (Group (fun j => d j = 0)) smpls g0 /\ Nuisance "ml_g1" "ml_g" x y (Group (fun j => d j = 1)) smpls g1 /\
    Nuisance "ml_m" "ml_m" x d whole_train smpls m0 /\ trimmed su tr thr m0 m /\ user y d g0 g1 (ps_adjust n m d norm) smpls = Ok e /\ scored out e.
Proof.
  intros S F0 F1 Fm H. unfold irm_call_nuis in H. inv1 H. inv1 H. inv1 H. inv1 H. inv1 H. inv1 H. subst out.
  assert (E0' : or_ext su "ml_g0" (let! h := fit_checked L su "ml_g0" "ml_g" x y (sub su (is01 d 0) smpls) smpls in Ok (mask (is01 d 0) h)) = Ok h).
  { unfold or_ext in *. destruct (su_ext su "ml_g0"); [exact E0|]. inv1 E0. inv1 E0. inv1 E0. subst h. reflexivity. }
  nuis_g E0' F0. nuis_g E1 F1. apply (nuis_all L f g) in E2 as (N2 & K2); [|assumption|exact Fm].
  exists (hv h), (hv h0), (hv h1), (hv (trim_hat tr thr h1)), h2. split; [exact N|]. split; [exact N0|]. split; [exact N2|]. split; [apply trim_trimmed; exact K2|]. split; [exact E3|apply out_scored].
Qed.
Lemma iivm_call_spec user norm bo at_ nt tr thr x y z d smpls out : setting L f g su smpls -> Fit "ml_g0" "ml_g" y (fun j => z j = 0) smpls -> Fit "ml_g1" "ml_g" y (fun j => z j = 1) smpls ->
  Fit "ml_m" "ml_m" z everyone smpls -> (at_ = true -> Fit "ml_r0" "ml_r" d (fun j => z j = 0) smpls) -> (nt = true -> Fit "ml_r1" "ml_r" d (fun j => z j = 1) smpls) ->
  iivm_call_nuis L su user norm bo at_ nt tr thr x y z d smpls = Ok out ->
  exists g0 g1 m0 m r0 r1 e, Nuisance "ml_g0" "ml_g" x y (Group (fun j => z j = 0)) smpls g0 /\ Nuisance "ml_g1" "ml_g" x y (Group (fun j => z j = 1)) smpls g1 /\
    Nuisance "ml_m" "ml_m" x z whole_train smpls m0 /\ trimmed su tr thr m0 m /\
    taker_fn L f g su at_ "ml_r0" x d (fun j => z j = 0) 0 smpls r0 /\ taker_fn L f g su nt "ml_r1" x d (fun j => z j = 1) 1 smpls r1 /\
    user y z d g0 g1 (iivm_adjust n norm d m) r0 r1 smpls = Ok e /\ scored out e.
Proof.
  intros S F0 F1 Fm R0 R1 H. unfold iivm_call_nuis in H. inv1 H. inv1 H. inv1 H. inv1 H. inv1 H. inv1 H. inv1 H. subst out.
  eapply iivm_g in E0 as (N0 & K0); [|eassumption|exact F0]. eapply iivm_g in E1 as (N1 & K1); [|eassumption|exact F1]. apply (nuis_all L f g) in E2 as (N2 & K2); [|assumption|exact Fm].
  eapply iivm_r in E3 as (N3 & K3); [|eassumption|exact R0]. eapply iivm_r in E4 as (N4 & K4); [|eassumption|exact R1].
  exists (hv h), (hv h0), (hv h1), (hv (trim_hat tr thr h1)), (hv h2), (hv h3), h4. split; [exact N0|]. split; [exact N1|]. split; [exact N2|]. split; [apply trim_trimmed; exact K2|]. split; [exact N3|]. split; [exact N4|]. split; [exact E5|apply out_scored].
Qed.
End Models.

(** ** Complete fits *)
Section Fits.
Context {E P : Type}.
Variable L : learner E row P.
Variables (f : E -> row -> R) (g : E -> row -> list R).
Variable mc : machinery E P.
Notation Used := (used_prediction L f g mc).
Notation Labels := (labels_everywhere L g mc).

Lemma solves_scored (C : ctx P) w out F r t e : (0 < c_n C)%nat -> c_cluster C = None -> reports C w out F -> (r < fw_n_rep F)%nat -> (t < fw_n_thetas F)%nat -> scored (out r t) e -> solves F (c_n C) t r e.
Proof.
  intros Hn Ec Rp Hr Ht (Sa & Sb) Hs. apply (plain_estimate C w out F r t (el_a e) (el_b e) Hn Ec Rp Hr Ht); [|exact Hs]. intros i _. rewrite Sa, Sb. auto.
Qed.
Lemma plr_call_fit user n dcols hg bin x y d w nj store ext smod w' : let C := plr_call_ctx L mc user n dcols hg bin x y d in
  (0 < n)%nat -> dcols <> [] -> soundly_reached C w -> sound_learning L f g mc w ->
  Labels w n "ml_l" y everyone -> (forall t, Labels w n "ml_m" (d t) everyone) -> (hg = true -> mc_proba mc "ml_g" = false) ->
  fit C nj store ext smod w = (w', Ok tt) ->
  exists F sm, fit_done w w' F sm (length dcols) /\
    forall r t fs col, nth_error sm r = Some fs -> nth_error dcols t = Some col -> exists l m gg e,
      Used w n ext r t col "ml_l" "ml_l" (x t) y whole_train fs l /\ Used w n ext r t col "ml_m" "ml_m" (x t) (d t) whole_train fs m /\
      match gg with
      | Some v => hg = true /\ exists th, Used w n ext r t col "ml_g" "ml_g" (x t) (fun i => y i - th * d t i) whole_train fs v /\
          (sumf n (fun i => (d t i - m i) ^ 2) <> 0 -> th = sumf n (fun i => (d t i - m i) * (y i - l i)) / sumf n (fun i => (d t i - m i) ^ 2))
      | None => hg = false
      end /\ user y (d t) l m gg fs = Ok e /\ solves F n t r e.
Proof.
  intros C Hn Hd Hw HL Hl Hm Hg H. start L f g mc C H Hw HL. assert (Es : m_smpls (w_obj w) = Some sm) by apply Fd. intros r t fs col Hr Ht.
  destruct (K r t fs col Hr Ht) as (Hr' & Ht' & e & M & S & N). cbn [C plr_call_ctx c_nuis c_n] in N, S.
  edestruct (plr_call_spec L f g) as (l & m & gg & el & N1 & N2 & N3 & U & Sc); [exact S|lab Hl Es Hr|lab (Hm t) Es Hr|intros Q v _ Zn; cbn [setup_of su_proba] in Zn; specialize (Hg Q); congruence|exact N|].
  assert (I1 : In "ml_l" (c_learners C)) by (destruct hg; cbn; tauto). assert (I2 : In "ml_m" (c_learners C)) by (destruct hg; cbn; tauto).
  exists l, m, gg, el. split; [eapply rep_used; [apply M, I1|exact N1]|]. split; [eapply rep_used; [apply M, I2|exact N2]|]. split; [|split; [exact U|exact (solves_scored C w out F r t el Hn eq_refl Rp Hr' Ht' Sc)]].
  destruct gg as [v|]; [|exact N3]. destruct N3 as (Q & th & Sl & Ng). split; [exact Q|]. exists th. split; [eapply rep_used; [apply M; clear - Q; destruct hg; [cbn; tauto|discriminate Q]|exact Ng]|].
  intro Hs. unfold slope_of in Sl. cbn [setup_of su_n] in Sl. assert (Es2 : sumf n (fun i => (d t i - m i) * (d t i - m i)) = sumf n (fun i => (d t i - m i) ^ 2)) by (apply sumf_ext; intros; ring). rewrite Es2 in Sl. rewrite <- (Sl Hs). field. exact Hs.
Qed.
Lemma pliv_call_fit user n dcols hg x y d z w nj store ext smod w' : let C := pliv_call_ctx L mc user n dcols hg x y d z in
  (0 < n)%nat -> dcols <> [] -> soundly_reached C w -> sound_learning L f g mc w ->
  Labels w n "ml_l" y everyone -> Labels w n "ml_m" z everyone -> (forall t, Labels w n "ml_r" (d t) everyone) -> (hg = true -> mc_proba mc "ml_g" = false) ->
  fit C nj store ext smod w = (w', Ok tt) ->
  exists F sm, fit_done w w' F sm (length dcols) /\
    forall r t fs col, nth_error sm r = Some fs -> nth_error dcols t = Some col -> exists l m q gg e,
      Used w n ext r t col "ml_l" "ml_l" (x t) y whole_train fs l /\ Used w n ext r t col "ml_m" "ml_m" (x t) z whole_train fs m /\ Used w n ext r t col "ml_r" "ml_r" (x t) (d t) whole_train fs q /\
      match gg with
      | Some v => hg = true /\ exists th, Used w n ext r t col "ml_g" "ml_g" (x t) (fun i => y i - th * d t i) whole_train fs v /\
          (sumf n (fun i => (z i - m i) * (d t i - q i)) <> 0 -> th = sumf n (fun i => (z i - m i) * (y i - l i)) / sumf n (fun i => (z i - m i) * (d t i - q i)))
      | None => hg = false
      end /\ user y z (d t) l m q gg fs = Ok e /\ solves F n t r e.
Proof.
  intros C Hn Hd Hw HL Hl Hm Hq Hg H. start L f g mc C H Hw HL. assert (Es : m_smpls (w_obj w) = Some sm) by apply Fd. intros r t fs col Hr Ht.
  destruct (K r t fs col Hr Ht) as (Hr' & Ht' & e & M & S & N). cbn [C pliv_call_ctx c_nuis c_n] in N, S.
  edestruct (pliv_call_spec L f g) as (l & m & q & gg & el & N1 & N2 & N3 & N4 & U & Sc); [exact S|lab Hl Es Hr|lab Hm Es Hr|lab (Hq t) Es Hr|intros Q v _ Zn; cbn [setup_of su_proba] in Zn; specialize (Hg Q); congruence|exact N|].
  assert (I1 : In "ml_l" (c_learners C)) by (destruct hg; cbn; tauto). assert (I2 : In "ml_m" (c_learners C)) by (destruct hg; cbn; tauto). assert (I3 : In "ml_r" (c_learners C)) by (destruct hg; cbn; tauto).
  exists l, m, q, gg, el. split; [eapply rep_used; [apply M, I1|exact N1]|]. split; [eapply rep_used; [apply M, I2|exact N2]|]. split; [eapply rep_used; [apply M, I3|exact N3]|]. split; [|split; [exact U|exact (solves_scored C w out F r t el Hn eq_refl Rp Hr' Ht' Sc)]].
  destruct gg as [v|]; [|exact N4]. destruct N4 as (Q & th & Sl & Ng). split; [exact Q|]. exists th. split; [eapply rep_used; [apply M; clear - Q; destruct hg; [cbn; tauto|discriminate Q]|exact Ng]|].
  intro Hs. unfold slope_of in Sl. cbn [setup_of su_n] in Sl. rewrite <- (Sl Hs). field. exact Hs.
Qed.
Lemma irm_call_fit user n dcol norm bo tr thr x y d strata w nj store ext smod w' : let C := irm_call_ctx L mc user n dcol norm bo tr thr x y d strata in
  (0 < n)%nat -> soundly_reached C w -> sound_learning L f g mc w ->
  Labels w n "ml_g" y (fun j => d j = 0) -> Labels w n "ml_g" y (fun j => d j = 1) -> Labels w n "ml_m" d everyone ->
  fit C nj store ext smod w = (w', Ok tt) ->
  exists F sm, fit_done w w' F sm 1 /\ forall r fs, nth_error sm r = Some fs -> exists g0 g1 m0 m e,
      Used w n ext r 0 dcol "ml_g0" "ml_g" x y (group_rows n (fun j => d j = 0)) fs g0 /\
      Used w n ext r 0 dcol "ml_g1" "ml_g" x y (group_rows n (fun j => d j = 1)) fs g1 /\
      Used w n ext r 0 dcol "ml_m" "ml_m" x d whole_train fs m0 /\ clipped n tr thr m0 m /\ user y d g0 g1 (ps_adjust n m d norm) fs = Ok e /\ solves F n 0 r e.
Proof.
  intros C Hn Hw HL H0 H1 Hm H. start L f g mc C H Hw HL. assert (Es : m_smpls (w_obj w) = Some sm) by apply Fd. intros r fs Hr.
  destruct (K r 0%nat fs dcol Hr eq_refl) as (Hr' & Ht' & e & M & S & N). cbn [C irm_call_ctx c_nuis c_n] in N, S.
  edestruct (irm_call_spec L f g) as (g0 & g1 & m0 & m & el & N1 & N2 & N3 & Tm & U & Sc); [exact S|lab H0 Es Hr|lab H1 Es Hr|lab Hm Es Hr|exact N|].
  exists g0, g1, m0, m, el. split; [used M N1|]. split; [used M N2|]. split; [used M N3|]. split; [exact Tm|]. split; [exact U|]. exact (solves_scored C w out F r 0 el Hn eq_refl Rp Hr' Ht' Sc).
Qed.
Lemma iivm_call_fit user n dcol norm bo at1 nt1 tr thr x y z d strata w nj store ext smod w' : let C := iivm_call_ctx L mc user n dcol norm bo at1 nt1 tr thr x y z d strata in
  (0 < n)%nat -> soundly_reached C w -> sound_learning L f g mc w ->
  (forall v, v = 0 \/ v = 1 -> Labels w n "ml_g" y (fun j => z j = v)) -> Labels w n "ml_m" z everyone -> (forall v, v = 0 /\ at1 = true \/ v = 1 /\ nt1 = true -> Labels w n "ml_r" d (fun j => z j = v)) ->
  fit C nj store ext smod w = (w', Ok tt) ->
  exists F sm, fit_done w w' F sm 1 /\ forall r fs, nth_error sm r = Some fs -> exists g0 g1 m0 m r0 r1 e,
      Used w n ext r 0 dcol "ml_g0" "ml_g" x y (group_rows n (fun j => z j = 0)) fs g0 /\
      Used w n ext r 0 dcol "ml_g1" "ml_g" x y (group_rows n (fun j => z j = 1)) fs g1 /\
      Used w n ext r 0 dcol "ml_m" "ml_m" x z whole_train fs m0 /\ clipped n tr thr m0 m /\
      (if at1 then Used w n ext r 0 dcol "ml_r0" "ml_r" x d (group_rows n (fun j => z j = 0)) fs r0 else forall i, (i < n)%nat -> r0 i = 0) /\
      (if nt1 then Used w n ext r 0 dcol "ml_r1" "ml_r" x d (group_rows n (fun j => z j = 1)) fs r1 else forall i, (i < n)%nat -> r1 i = 1) /\
      user y z d g0 g1 (iivm_adjust n norm d m) r0 r1 fs = Ok e /\ solves F n 0 r e.
Proof.
  intros C Hn Hw HL Hg Hm Hq H. start L f g mc C H Hw HL. assert (Es : m_smpls (w_obj w) = Some sm) by apply Fd. intros r fs Hr.
  destruct (K r 0%nat fs dcol Hr eq_refl) as (Hr' & Ht' & e & M & S & N). cbn [C iivm_call_ctx c_nuis c_n] in N, S.
  edestruct (iivm_call_spec L f g) as (g0 & g1 & m0 & m & r0 & r1 & el & N1 & N2 & N3 & Tm & N4 & N5 & U & Sc);
    [exact S|lab (Hg 0 (or_introl eq_refl)) Es Hr|lab (Hg 1 (or_intror eq_refl)) Es Hr|lab Hm Es Hr|intros Qa; lab (Hq 0 (or_introl (conj eq_refl Qa))) Es Hr|intros Qa; lab (Hq 1 (or_intror (conj eq_refl Qa))) Es Hr|exact N|].
  exists g0, g1, m0, m, r0, r1, el. split; [used M N1|]. split; [used M N2|]. split; [used M N3|]. split; [exact Tm|].
  split; [destruct at1; cbn [taker_fn] in N4; [used M N4|exact N4]|]. split; [destruct nt1; cbn [taker_fn] in N5; [used M N5|exact N5]|]. split; [exact U|]. exact (solves_scored C w out F r 0 el Hn eq_refl Rp Hr' Ht' Sc).
Qed.
End Fits.

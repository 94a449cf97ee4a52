(** Sensitivity elements after complete fits of the model classes. *)
From Verif Require Export L_ClassSens.
From Coq Require Import Lia Lra FunctionalExtensionality.
Local Open Scope R_scope.
Local Open Scope res_scope.
Local Open Scope string_scope.

(** One value for every position of a list. *)
Lemma choose_rows {A B} (b0 : B) (sm : list A) : forall Q : nat -> A -> B -> Prop, (forall r x, nth_error sm r = Some x -> exists v, Q r x v) ->
  exists V, forall r x, nth_error sm r = Some x -> Q r x (V r).
Proof.
  induction sm as [|a sm IH]; intros Q H; [exists (fun _ => b0); intros [|r] x E; discriminate E|].
  destruct (H 0%nat a eq_refl) as (v0 & H0). destruct (IH (fun r => Q (S r)) (fun r x E => H (S r) x E)) as (V & HV).
  exists (fun r => match r with O => v0 | S r => V r end). intros [|r] x E; [injection E as <-; exact H0|exact (HV r x E)].
Qed.
Lemma same_trans n s s' s'' : same_sens n s s' -> same_sens n s' s'' -> same_sens n s s''.
Proof.
  intros (A & B & D) (A' & B' & D'). split; [congruence|]. split; [congruence|]. intros i Hi. destruct (D i Hi) as (E1 & E2 & E3), (D' i Hi) as (F1 & F2 & F3). split; [congruence|]. split; congruence.
Qed.
Lemma pv_at (su_n : nat) out name (v : vec) : (forall i, (i < su_n)%nat -> no_preds out name i = Some (v i)) -> forall i, (i < su_n)%nat -> pv out name i = v i.
Proof. intros H i Hi. unfold pv. now rewrite (H i Hi). Qed.

Section Generic.
Context {E P : Type}.
Variable L : learner E row P.
Variables (f : E -> row -> R) (g : E -> row -> list R).
Variable mc : machinery E P.

Lemma sens_rep (C : ctx P) w nj store ext smod w' est : c_dcols C <> [] -> c_cluster C <> Some [] -> soundly_reached C w -> sound_learning L f g mc w ->
  c_sens C = Some est -> fit C nj store ext smod w = (w', Ok tt) ->
  exists F e sm out, fit_done w w' F sm (length (c_dcols C)) /\ fw_sens F = Some e /\
    (forall r t fs col, nth_error sm r = Some fs -> nth_error (c_dcols C) t = Some col ->
      (r < fw_n_rep F)%nat /\ (t < fw_n_thetas F)%nat /\ at_ (fw_all_thetas F) [t; r] = theta_of C (split_cluster C w r) (out r t) /\ exists e, ext_matches C ext col r e /\
        setting L f g (setup_of mc (c_n C) r t (fun l => nth r (m_params (w_obj w) l col) None) e) fs /\
        c_nuis C r t fs (fun l => nth r (m_params (w_obj w) l col) None) e = Ok (out r t)) /\
    forall t, (t < length (c_dcols C))%nat ->
      let so r := sens_of C est w out r t in
      ((forall r, (r < length sm)%nat -> 0 < so_nu2 (so r)) ->
         forall r, (r < length sm)%nat -> reports_sens w' e (c_n C) r t (so_sigma2 (so r)) (so_nu2 (so r)) (so_psi_sigma2 (so r)) (so_psi_nu2 (so r)) (so_rr (so r))) /\
      ((exists r, (r < length sm)%nat /\ so_nu2 (so r) <= 0) ->
         forall r, (r < length sm)%nat -> reports_sens w' e (c_n C) r t (so_sigma2 (so r)) (meanf (c_n C) (fun i => so_rr (so r) i ^ 2)) (so_psi_sigma2 (so r)) (fun i => so_rr (so r) i ^ 2) (so_rr (so r))).
Proof.
  intros Hd Hc Hw HL Es H. destruct (sens_fit C w nj store ext smod w' est Hd (reached_reachable C w Hw) Es H) as (out & F & e & (sm & Em & Ls & Nr) & Cf & Rp & Fs & K).
  exists F, e, sm, out. assert (Er : fw_n_rep F = length sm) by (rewrite (rp_n_rep _ _ _ _ Rp); symmetry; exact Ls).
  split; [exact (conj Cf (conj (rp_wf _ _ _ _ Rp) (conj (rp_agg _ _ _ _ Rp) (conj Em (conj Er (rp_n_thetas _ _ _ _ Rp))))))|]. split; [exact Fs|]. split; [|rewrite Ls; exact K].
  intros r t fs col Hr Ht. assert (Hr' : (r < length sm)%nat) by (apply nth_error_Some; congruence). assert (Ht' : (t < length (c_dcols C))%nat) by (apply nth_error_Some; congruence).
  assert (Ht2 : (t < fw_n_thetas F)%nat) by (rewrite (rp_n_thetas _ _ _ _ Rp); exact Ht').
  split; [lia|]. split; [exact Ht2|]. split; [apply (rp_theta _ _ _ _ Rp); [lia|exact Ht2]|]. destruct (Nr r t col) as (e' & M & N); [lia|exact Ht|]. rewrite (nth_error_nth _ _ _ Hr) in N.
  exists e'. split; [exact M|]. split; [|exact N]. eapply rep_setting; eassumption.
Qed.

(** From elements of the given form. *)
Lemma sens_centred (w : world P) e n nr t (so : nat -> sens_out) (S0 : nat -> M_Scores.sens_elems) (s2 nu rr : nat -> vec) :
  (forall r, (r < nr)%nat -> so r = so_of (S0 r) /\ same_sens n (S0 r) (centred n (s2 r) (nu r) (rr r))) ->
  ((forall r, (r < nr)%nat -> 0 < so_nu2 (so r)) ->
     forall r, (r < nr)%nat -> reports_sens w e n r t (so_sigma2 (so r)) (so_nu2 (so r)) (so_psi_sigma2 (so r)) (so_psi_nu2 (so r)) (so_rr (so r))) ->
  ((exists r, (r < nr)%nat /\ so_nu2 (so r) <= 0) ->
     forall r, (r < nr)%nat -> reports_sens w e n r t (so_sigma2 (so r)) (meanf n (fun i => so_rr (so r) i ^ 2)) (so_psi_sigma2 (so r)) (fun i => so_rr (so r) i ^ 2) (so_rr (so r))) ->
  sens_reported w e n nr t s2 nu rr.
Proof.
  intros H A B. assert (Nu : forall r, (r < nr)%nat -> so_nu2 (so r) = meanf n (nu r)) by (intros r Hr; destruct (H r Hr) as (-> & _ & N & _); exact N).
  split; intros Hp r Hr; destruct (H r Hr) as (Es & S1 & S2 & S3).
  - assert (Hp' : forall r, (r < nr)%nat -> 0 < so_nu2 (so r)) by (intros r' Hr'; rewrite (Nu r' Hr'); exact (Hp r' Hr')).
    specialize (A Hp' r Hr). rewrite Es in A. cbn [so_of so_sigma2 so_nu2 so_psi_sigma2 so_psi_nu2 so_rr] in A. revert A. apply reports_same; [exact S1|exact S2|exact S3].
  - assert (Hp' : exists r, (r < nr)%nat /\ so_nu2 (so r) <= 0) by (destruct Hp as (r' & Hr' & Hn); exists r'; rewrite (Nu r' Hr'); auto).
    specialize (B Hp' r Hr). rewrite Es in B. cbn [so_of so_sigma2 so_nu2 so_psi_sigma2 so_psi_nu2 so_rr] in B. revert B. apply reports_same; [exact S1| |].
    + apply meanf_ext. intros i Hi. destruct (S3 i Hi) as (_ & _ & ->). reflexivity.
    + intros i Hi. destruct (S3 i Hi) as (E1 & _ & E3). rewrite E3. auto.
Qed.
End Generic.

Ltac sens_start L f g mc C H Hw HL :=
  let Q := fresh "Q" in pose proof (fun a b => sens_rep L f g mc C _ _ _ _ _ _ _ a b Hw HL eq_refl H) as Q;
  destruct Q as (F & e & sm & out & Fd & Fs & K & Z); [try discriminate; try assumption|discriminate|];
  exists F, e, sm; split; [exact Fd|]; split; [exact Fs|].

Section Classes.
Context {E P : Type}.
Variable L : learner E row P.
Variables (f : E -> row -> R) (g : E -> row -> list R).
Variable mc : machinery E P.
Notation Used := (used_prediction L f g mc).
Notation Labels := (labels_everywhere L g mc).

Lemma irm_sens_fit n dcol (atte : bool) norm bo tr thr w_ x y d strata w nj store ext smod w' : let C := irm_ctx L mc n dcol atte norm bo tr thr w_ x y d strata in
  (0 < n)%nat -> soundly_reached C w -> sound_learning L f g mc w ->
  Labels w n "ml_g" y (fun j => d j = 0) -> Labels w n "ml_g" y (fun j => d j = 1) -> Labels w n "ml_m" d everyone ->
  fit C nj store ext smod w = (w', Ok tt) ->
  exists F e sm, fit_done w w' F sm 1 /\ fw_sens F = Some e /\ exists g0 g1 m0 m : nat -> vec,
    (forall r fs, nth_error sm r = Some fs ->
      Used w n ext r 0 dcol "ml_g0" "ml_g" x y (group_rows n (fun j => d j = 0)) fs (g0 r) /\
      Used w n ext r 0 dcol "ml_g1" "ml_g" x y (group_rows n (fun j => d j = 1)) fs (g1 r) /\
      Used w n ext r 0 dcol "ml_m" "ml_m" x d whole_train fs (m0 r) /\ clipped n tr thr (m0 r) (m r)) /\
    let ma r := ps_adjust n (m r) d norm in
    let W r i := if atte then wg (w_ r) i * d i / meanf n (fun i => wg (w_ r) i * d i) else wg (w_ r) i in
    let Wb r i := if atte then wg (w_ r) i * ma r i / meanf n (fun i => wg (w_ r) i * d i) else resid_weights (w_ r) i in
    let rr r i := Wb r i * (d i / ma r i - (1 - d i) / (1 - ma r i)) in
    ((forall r, (r < length sm)%nat -> off_bounds n (ma r) /\ (atte = true -> sumf n (fun i => wg (w_ r) i * d i) <> 0)) ->
     sens_reported w' e n (length sm) 0 (fun r i => (y i - (d i * g1 r i + (1 - d i) * g0 r i)) ^ 2)
       (fun r i => 2 * (W r i * Wb r i * (1 / ma r i + 1 / (1 - ma r i))) - rr r i ^ 2) rr).
Proof.
  intros C Hn Hw HL H0 H1 Hm H. sens_start L f g mc C H Hw HL. assert (Es : m_smpls (w_obj w) = Some sm) by apply Fd.
  destruct (choose_rows (fun _ => 0, fun _ => 0, fun _ => 0, fun _ => 0) sm (fun r fs (v : vec * vec * vec * vec) => let '(g0, g1, m0, m) := v in
     (Used w n ext r 0 dcol "ml_g0" "ml_g" x y (group_rows n (fun j => d j = 0)) fs g0 /\
      Used w n ext r 0 dcol "ml_g1" "ml_g" x y (group_rows n (fun j => d j = 1)) fs g1 /\
      Used w n ext r 0 dcol "ml_m" "ml_m" x d whole_train fs m0 /\ clipped n tr thr m0 m) /\
     (forall i, (i < n)%nat -> pv (out r 0%nat) "ml_g0" i = g0 i) /\ (forall i, (i < n)%nat -> pv (out r 0%nat) "ml_g1" i = g1 i) /\ (forall i, (i < n)%nat -> pv (out r 0%nat) "ml_m" i = m i))) as (V & HV).
  { intros r fs Hr. destruct (K r 0%nat fs dcol Hr eq_refl) as (Hr' & Ht' & _ & ex & M & S & N). cbn [C irm_ctx c_nuis c_n] in N, S.
    edestruct (irm_spec L f g) as (g0 & g1 & m0 & m & N1 & N2 & N3 & Tm & R0 & R1 & R2 & _); [exact S|lab H0 Es Hr|lab H1 Es Hr|lab Hm Es Hr|exact N|].
    exists (g0, g1, m0, m). split; [split; [used M N1|]; split; [used M N2|]; split; [used M N3|exact Tm]|]. split; [exact (pv_at n _ _ _ R0)|]. split; [exact (pv_at n _ _ _ R1)|exact (pv_at n _ _ _ R2)]. }
  exists (fun r => fst (fst (fst (V r)))), (fun r => snd (fst (fst (V r)))), (fun r => snd (fst (V r))), (fun r => snd (V r)).
  split; [intros r fs Hr; specialize (HV r fs Hr); destruct (V r) as [[[g0 g1] m0] m]; cbn [fst snd]; apply HV|].
  intros ma W Wb rr _. destruct (Z 0%nat ltac:(cbn; lia)) as (Z1 & Z2). eapply sens_centred; [|exact Z1|exact Z2].
  intros r Hr. split; [reflexivity|]. destruct (nth_error sm r) as [fs|] eqn:Er; [|apply nth_error_None in Er; lia]. specialize (HV r fs Er).
  unfold rr, Wb, W, ma. destruct (V r) as [[[g0 g1] m0] m]. cbn [fst snd]. destruct HV as (_ & E0 & E1 & E2).
  eapply same_trans; [apply (irm_same n atte norm (w_ r) y d _ g0 _ g1 _ m E0 E1 E2)|]. unfold irm_sens, irm_weights.
  apply centred_same; intros i Hi; destruct atte; cbn [fst snd]; fold (resid_weights (w_ r)); unfold Rdiv; ring.
Qed.

Lemma apo_sens_fit n dcol norm bo tr thr w_ x y d lvl strata w nj store ext smod w' : let C := apo_ctx L mc n dcol norm bo tr thr w_ x y d lvl strata in
  (0 < n)%nat -> soundly_reached C w -> sound_learning L f g mc w ->
  Labels w n "ml_g" y (fun j => lvl j = 0) -> Labels w n "ml_g" y (fun j => lvl j = 1) -> Labels w n "ml_m" lvl everyone ->
  fit C nj store ext smod w = (w', Ok tt) ->
  exists F e sm, fit_done w w' F sm 1 /\ fw_sens F = Some e /\ exists g0 g1 m0 m : nat -> vec,
    (forall r fs, nth_error sm r = Some fs ->
      Used w n ext r 0 dcol "ml_g_d_lvl0" "ml_g" (fun i => d i :: x i) y (group_rows n (fun j => lvl j = 0)) fs (g0 r) /\
      Used w n ext r 0 dcol "ml_g_d_lvl1" "ml_g" x y (group_rows n (fun j => lvl j = 1)) fs (g1 r) /\
      Used w n ext r 0 dcol "ml_m" "ml_m" x lvl whole_train fs (m0 r) /\ clipped n tr thr (m0 r) (m r)) /\
    let ma r := ps_adjust n (m r) lvl norm in
    let rr r i := resid_weights (w_ r) i * (lvl i / ma r i) in
    ((forall r i, (r < length sm)%nat -> (i < n)%nat -> ma r i <> 0) ->
     sens_reported w' e n (length sm) 0 (fun r i => (y i - (lvl i * g1 r i + (1 - lvl i) * g0 r i)) ^ 2)
       (fun r i => 2 * (wg (w_ r) i * resid_weights (w_ r) i / ma r i) - rr r i ^ 2) rr).
Proof.
  intros C Hn Hw HL H0 H1 Hm H. sens_start L f g mc C H Hw HL. assert (Es : m_smpls (w_obj w) = Some sm) by apply Fd.
  destruct (choose_rows (fun _ => 0, fun _ => 0, fun _ => 0, fun _ => 0) sm (fun r fs (v : vec * vec * vec * vec) => let '(g0, g1, m0, m) := v in
     (Used w n ext r 0 dcol "ml_g_d_lvl0" "ml_g" (fun i => d i :: x i) y (group_rows n (fun j => lvl j = 0)) fs g0 /\
      Used w n ext r 0 dcol "ml_g_d_lvl1" "ml_g" x y (group_rows n (fun j => lvl j = 1)) fs g1 /\
      Used w n ext r 0 dcol "ml_m" "ml_m" x lvl whole_train fs m0 /\ clipped n tr thr m0 m) /\
     (forall i, (i < n)%nat -> pv (out r 0%nat) "ml_g_d_lvl0" i = g0 i) /\ (forall i, (i < n)%nat -> pv (out r 0%nat) "ml_g_d_lvl1" i = g1 i) /\ (forall i, (i < n)%nat -> pv (out r 0%nat) "ml_m" i = m i))) as (V & HV).
  { intros r fs Hr. destruct (K r 0%nat fs dcol Hr eq_refl) as (Hr' & Ht' & _ & ex & M & S & N). cbn [C apo_ctx c_nuis c_n] in N, S.
    edestruct (apo_spec L f g) as (g0 & g1 & m0 & m & N1 & N2 & N3 & Tm & R0 & R1 & R2 & _); [exact S|lab H0 Es Hr|lab H1 Es Hr|lab Hm Es Hr|exact N|].
    exists (g0, g1, m0, m). split; [split; [used M N1|]; split; [used M N2|]; split; [used M N3|exact Tm]|]. split; [exact (pv_at n _ _ _ R0)|]. split; [exact (pv_at n _ _ _ R1)|exact (pv_at n _ _ _ R2)]. }
  exists (fun r => fst (fst (fst (V r)))), (fun r => snd (fst (fst (V r)))), (fun r => snd (fst (V r))), (fun r => snd (V r)).
  split; [intros r fs Hr; specialize (HV r fs Hr); destruct (V r) as [[[g0 g1] m0] m]; cbn [fst snd]; apply HV|].
  intros ma rr _. destruct (Z 0%nat ltac:(cbn; lia)) as (Z1 & Z2). eapply sens_centred; [|exact Z1|exact Z2].
  intros r Hr. split; [reflexivity|]. destruct (nth_error sm r) as [fs|] eqn:Er; [|apply nth_error_None in Er; lia]. specialize (HV r fs Er).
  unfold rr, ma. destruct (V r) as [[[g0 g1] m0] m]. cbn [fst snd]. destruct HV as (_ & E0 & E1 & E2).
  eapply same_trans; [apply (apo_same n norm (w_ r) y lvl _ g0 _ g1 _ m E0 E1 E2)|]. unfold apo_sens, apo_weights.
  apply centred_same; intros i Hi; cbn [fst snd]; fold (resid_weights (w_ r)); unfold Rdiv; ring.
Qed.

Lemma did_sens_obs_fit n dcol (norm : bool) tr thr x y d strata w nj store ext smod w' : let C := did_ctx L mc n dcol true norm tr thr x y d strata in
  (0 < n)%nat -> soundly_reached C w -> sound_learning L f g mc w ->
  Labels w n "ml_g" y (fun j => d j = 0) -> Labels w n "ml_g" y (fun j => d j = 1) -> Labels w n "ml_m" d everyone ->
  fit C nj store ext smod w = (w', Ok tt) ->
  exists F e sm, fit_done w w' F sm 1 /\ fw_sens F = Some e /\ exists g0 g1 m0 m : nat -> vec,
    (forall r fs, nth_error sm r = Some fs ->
      Used w n ext r 0 dcol "ml_g0" "ml_g" x y (group_rows n (fun j => d j = 0)) fs (g0 r) /\
      Used w n ext r 0 dcol "ml_g1" "ml_g" x y (group_rows n (fun j => d j = 1)) fs (g1 r) /\
      Used w n ext r 0 dcol "ml_m" "ml_m" x d whole_train fs (m0 r) /\ clipped n tr thr (m0 r) (m r)) /\
    let p := meanf n d in
    let odds r i := m r i / (1 - m r i) in
    let q r := if norm then meanf n (fun i => (1 - d i) * odds r i) else p in
    let rr r i := d i / p - (1 - d i) * odds r i / q r in
    (p <> 0 -> (forall r i, (r < length sm)%nat -> (i < n)%nat -> m r i <> 1 /\ q r <> 0) ->
     sens_reported w' e n (length sm) 0 (fun r i => (y i - (d i * g1 r i + (1 - d i) * g0 r i)) ^ 2)
       (fun r i => 2 * (d i / p * (1 / p + odds r i / q r)) - rr r i ^ 2) rr).
Proof.
  intros C Hn Hw HL H0 H1 Hm H. sens_start L f g mc C H Hw HL. assert (Es : m_smpls (w_obj w) = Some sm) by apply Fd.
  destruct (choose_rows (fun _ => 0, fun _ => 0, fun _ => 0, fun _ => 0) sm (fun r fs (v : vec * vec * vec * vec) => let '(g0, g1, m0, m) := v in
     (Used w n ext r 0 dcol "ml_g0" "ml_g" x y (group_rows n (fun j => d j = 0)) fs g0 /\
      Used w n ext r 0 dcol "ml_g1" "ml_g" x y (group_rows n (fun j => d j = 1)) fs g1 /\
      Used w n ext r 0 dcol "ml_m" "ml_m" x d whole_train fs m0 /\ clipped n tr thr m0 m) /\
     (forall i, (i < n)%nat -> pv (out r 0%nat) "ml_g0" i = g0 i) /\ (forall i, (i < n)%nat -> pv (out r 0%nat) "ml_g1" i = g1 i) /\ (forall i, (i < n)%nat -> pv (out r 0%nat) "ml_m" i = m i))) as (V & HV).
  { intros r fs Hr. destruct (K r 0%nat fs dcol Hr eq_refl) as (Hr' & Ht' & _ & ex & M & S & N). cbn [C did_ctx c_nuis c_n] in N, S.
    edestruct (did_obs L f g) as (g0 & g1 & m0 & m & p & N1 & N2 & N3 & Tm & _ & R0 & R1 & R2 & _); [exact S|lab H0 Es Hr|lab H1 Es Hr|lab Hm Es Hr|exact N|].
    exists (g0, g1, m0, m). split; [split; [used M N1|]; split; [used M N2|]; split; [used M N3|exact Tm]|]. split; [exact (pv_at n _ _ _ R0)|]. split; [exact (pv_at n _ _ _ R1)|exact (pv_at n _ _ _ R2)]. }
  exists (fun r => fst (fst (fst (V r)))), (fun r => snd (fst (fst (V r)))), (fun r => snd (fst (V r))), (fun r => snd (V r)).
  split; [intros r fs Hr; specialize (HV r fs Hr); destruct (V r) as [[[g0 g1] m0] m]; cbn [fst snd]; apply HV|].
  intros p odds q rr _ _. destruct (Z 0%nat ltac:(cbn; lia)) as (Z1 & Z2). eapply sens_centred; [|exact Z1|exact Z2].
  intros r Hr. split; [reflexivity|]. destruct (nth_error sm r) as [fs|] eqn:Er; [|apply nth_error_None in Er; lia]. specialize (HV r fs Er).
  unfold rr, q, odds. destruct (V r) as [[[g0 g1] m0] m]. cbn [fst snd]. destruct HV as (_ & E0 & E1 & E2).
  eapply same_trans; [apply (did_same n true norm y d _ g0 _ g1 _ m E0 E1 (fun _ => E2))|]. unfold did_sens. fold p.
  assert (Ip : / p ^ 2 = / p * / p) by (rewrite <- Rinv_mult; f_equal; ring).
  apply centred_same; intros i Hi; destruct norm; cbn [fst snd]; unfold Rdiv; rewrite ?Ip; ring.
Qed.

Lemma did_sens_exp_fit n dcol norm tr thr x y d strata w nj store ext smod w' : let C := did_ctx L mc n dcol false norm tr thr x y d strata in
  (0 < n)%nat -> soundly_reached C w -> sound_learning L f g mc w ->
  Labels w n "ml_g" y (fun j => d j = 0) -> Labels w n "ml_g" y (fun j => d j = 1) ->
  fit C nj store ext smod w = (w', Ok tt) ->
  exists F e sm, fit_done w w' F sm 1 /\ fw_sens F = Some e /\ exists g0 g1 : nat -> vec,
    (forall r fs, nth_error sm r = Some fs ->
      Used w n ext r 0 dcol "ml_g0" "ml_g" x y (group_rows n (fun j => d j = 0)) fs (g0 r) /\
      Used w n ext r 0 dcol "ml_g1" "ml_g" x y (group_rows n (fun j => d j = 1)) fs (g1 r)) /\
    let p := meanf n d in
    let rr (r : nat) i := d i / p - (1 - d i) / (1 - p) in
    (p <> 0 -> p <> 1 ->
     sens_reported w' e n (length sm) 0 (fun r i => (y i - (d i * g1 r i + (1 - d i) * g0 r i)) ^ 2)
       (fun r i => 2 * (1 / p + 1 / (1 - p)) - rr r i ^ 2) rr).
Proof.
  intros C Hn Hw HL H0 H1 H. sens_start L f g mc C H Hw HL. assert (Es : m_smpls (w_obj w) = Some sm) by apply Fd.
  destruct (choose_rows (fun _ => 0, fun _ => 0) sm (fun r fs (v : vec * vec) => let '(g0, g1) := v in
     (Used w n ext r 0 dcol "ml_g0" "ml_g" x y (group_rows n (fun j => d j = 0)) fs g0 /\
      Used w n ext r 0 dcol "ml_g1" "ml_g" x y (group_rows n (fun j => d j = 1)) fs g1) /\
     (forall i, (i < n)%nat -> pv (out r 0%nat) "ml_g0" i = g0 i) /\ (forall i, (i < n)%nat -> pv (out r 0%nat) "ml_g1" i = g1 i))) as (V & HV).
  { intros r fs Hr. destruct (K r 0%nat fs dcol Hr eq_refl) as (Hr' & Ht' & _ & ex & M & S & N). cbn [C did_ctx c_nuis c_n] in N, S.
    edestruct (did_exp L f g) as (g0 & g1 & p & N1 & N2 & _ & R0 & R1 & _); [exact S|lab H0 Es Hr|lab H1 Es Hr|exact N|].
    exists (g0, g1). split; [split; [used M N1|used M N2]|]. split; [exact (pv_at n _ _ _ R0)|exact (pv_at n _ _ _ R1)]. }
  exists (fun r => fst (V r)), (fun r => snd (V r)).
  split; [intros r fs Hr; specialize (HV r fs Hr); destruct (V r) as [g0 g1]; cbn [fst snd]; apply HV|].
  intros p rr _ _. destruct (Z 0%nat ltac:(cbn; lia)) as (Z1 & Z2). eapply sens_centred; [|exact Z1|exact Z2].
  intros r Hr. split; [reflexivity|]. destruct (nth_error sm r) as [fs|] eqn:Er; [|apply nth_error_None in Er; lia]. specialize (HV r fs Er).
  unfold rr. destruct (V r) as [g0 g1]. cbn [fst snd]. destruct HV as (_ & E0 & E1).
  eapply same_trans; [apply (did_same n false norm y d _ g0 _ g1 _ (fun _ => 0) E0 E1); discriminate|]. unfold did_sens. fold p.
  apply centred_same; intros i Hi; cbn [fst snd]; unfold Rdiv; ring.
Qed.

(** Repeated cross sections: the four cells. *)
Lemma cs_sens_obs_fit n dcol (norm : bool) tr thr x y d t strata w nj store ext smod w' : let C := cs_ctx L mc n dcol true norm tr thr x y d t strata in
  (0 < n)%nat -> soundly_reached C w -> sound_learning L f g mc w ->
  (forall a b, (a = 0 \/ a = 1) -> (b = 0 \/ b = 1) -> Labels w n "ml_g" y (fun j => d j = a /\ t j = b)) -> Labels w n "ml_m" d everyone ->
  fit C nj store ext smod w = (w', Ok tt) ->
  exists F e sm, fit_done w w' F sm 1 /\ fw_sens F = Some e /\ exists g00 g01 g10 g11 m0 m : nat -> vec,
    (forall r fs, nth_error sm r = Some fs ->
      Used w n ext r 0 dcol "ml_g_d0_t0" "ml_g" x y (group_rows n (fun j => d j = 0 /\ t j = 0)) fs (g00 r) /\
      Used w n ext r 0 dcol "ml_g_d0_t1" "ml_g" x y (group_rows n (fun j => d j = 0 /\ t j = 1)) fs (g01 r) /\
      Used w n ext r 0 dcol "ml_g_d1_t0" "ml_g" x y (group_rows n (fun j => d j = 1 /\ t j = 0)) fs (g10 r) /\
      Used w n ext r 0 dcol "ml_g_d1_t1" "ml_g" x y (group_rows n (fun j => d j = 1 /\ t j = 1)) fs (g11 r) /\
      Used w n ext r 0 dcol "ml_m" "ml_m" x d whole_train fs (m0 r) /\ clipped n tr thr (m0 r) (m r)) /\
    let p := meanf n d in let lam := meanf n t in
    let odds r i := m r i / (1 - m r i) in
    let q11 := if norm then meanf n (both d t) else p * lam in
    let q10 := if norm then meanf n (both d (compl t)) else p * (1 - lam) in
    let q01 r := if norm then meanf n (fun i => (1 - d i) * t i * odds r i) else p * lam in
    let q00 r := if norm then meanf n (fun i => (1 - d i) * (1 - t i) * odds r i) else p * (1 - lam) in
    let sg := if norm then -1 else 1 in
    let rr r i := d i * t i / q11 + sg * (d i * (1 - t i) / q10) + sg * ((1 - d i) * t i * odds r i / q01 r) + (1 - d i) * (1 - t i) * odds r i / q00 r in
    (p <> 0 -> q11 <> 0 -> q10 <> 0 -> (forall r i, (r < length sm)%nat -> (i < n)%nat -> m r i <> 1 /\ q01 r <> 0 /\ q00 r <> 0) ->
     sens_reported w' e n (length sm) 0
       (fun r i => (y i - (d i * (t i * g11 r i + (1 - t i) * g10 r i) + (1 - d i) * (t i * g01 r i + (1 - t i) * g00 r i))) ^ 2)
       (fun r i => 2 * (d i / p * (1 / q11 + 1 / q10 + odds r i / q01 r + odds r i / q00 r)) - rr r i ^ 2) rr).
Proof.
  intros C Hn Hw HL Hg Hm H. sens_start L f g mc C H Hw HL. assert (Es : m_smpls (w_obj w) = Some sm) by apply Fd.
  destruct (choose_rows (fun _ => 0, fun _ => 0, fun _ => 0, fun _ => 0, fun _ => 0, fun _ => 0) sm (fun r fs (v : vec * vec * vec * vec * vec * vec) => let '(g00, g01, g10, g11, m0, m) := v in
     (Used w n ext r 0 dcol "ml_g_d0_t0" "ml_g" x y (group_rows n (fun j => d j = 0 /\ t j = 0)) fs g00 /\
      Used w n ext r 0 dcol "ml_g_d0_t1" "ml_g" x y (group_rows n (fun j => d j = 0 /\ t j = 1)) fs g01 /\
      Used w n ext r 0 dcol "ml_g_d1_t0" "ml_g" x y (group_rows n (fun j => d j = 1 /\ t j = 0)) fs g10 /\
      Used w n ext r 0 dcol "ml_g_d1_t1" "ml_g" x y (group_rows n (fun j => d j = 1 /\ t j = 1)) fs g11 /\
      Used w n ext r 0 dcol "ml_m" "ml_m" x d whole_train fs m0 /\ clipped n tr thr m0 m) /\
     (forall i, (i < n)%nat -> pv (out r 0%nat) "ml_g_d0_t0" i = g00 i) /\ (forall i, (i < n)%nat -> pv (out r 0%nat) "ml_g_d0_t1" i = g01 i) /\
     (forall i, (i < n)%nat -> pv (out r 0%nat) "ml_g_d1_t0" i = g10 i) /\ (forall i, (i < n)%nat -> pv (out r 0%nat) "ml_g_d1_t1" i = g11 i) /\
     (forall i, (i < n)%nat -> pv (out r 0%nat) "ml_m" i = m i))) as (V & HV).
  { intros r fs Hr. destruct (K r 0%nat fs dcol Hr eq_refl) as (Hr' & Ht' & _ & ex & M & S & N). cbn [C cs_ctx c_nuis c_n] in N, S.
    edestruct (cs_obs L f g) as (g00 & g01 & g10 & g11 & m0 & m & p & lam & Ng & N2 & Tm & Rm & _ & _ & _); [exact S| |lab Hm Es Hr|exact N|].
    { intros a b name Hin. apply (rep_labels L g mc w sm r 0 fs n) with (t := 0%nat) (r := r); [|exact Es|exact Hr] || (intros _; eapply rep_labels; [apply Hg|exact Es|exact Hr]);
      destruct Hin as [X|[X|[X|[X|[]]]]]; injection X as <- <- <-; auto. }
    destruct (Ng 0 0 "ml_g_d0_t0" g00) as (A1 & B1); [cbn; tauto|]. destruct (Ng 0 1 "ml_g_d0_t1" g01) as (A2 & B2); [cbn; tauto|].
    destruct (Ng 1 0 "ml_g_d1_t0" g10) as (A3 & B3); [cbn; tauto|]. destruct (Ng 1 1 "ml_g_d1_t1" g11) as (A4 & B4); [cbn; tauto|].
    exists (g00, g01, g10, g11, m0, m). split; [split; [used M A1|]; split; [used M A2|]; split; [used M A3|]; split; [used M A4|]; split; [used M N2|exact Tm]|].
    split; [exact (pv_at n _ _ _ B1)|]. split; [exact (pv_at n _ _ _ B2)|]. split; [exact (pv_at n _ _ _ B3)|]. split; [exact (pv_at n _ _ _ B4)|exact (pv_at n _ _ _ Rm)]. }
  exists (fun r => fst (fst (fst (fst (fst (V r)))))), (fun r => snd (fst (fst (fst (fst (V r)))))), (fun r => snd (fst (fst (fst (V r))))), (fun r => snd (fst (fst (V r)))), (fun r => snd (fst (V r))), (fun r => snd (V r)).
  split; [intros r fs Hr; specialize (HV r fs Hr); destruct (V r) as [[[[[g00 g01] g10] g11] m0] m]; cbn [fst snd]; apply HV|].
  intros p lam odds q11 q10 q01 q00 sg rr _ _ _ _. destruct (Z 0%nat ltac:(cbn; lia)) as (Z1 & Z2). eapply sens_centred; [|exact Z1|exact Z2].
  intros r Hr. split; [reflexivity|]. destruct (nth_error sm r) as [fs|] eqn:Er; [|apply nth_error_None in Er; lia]. specialize (HV r fs Er).
  unfold rr, q01, q00, odds. destruct (V r) as [[[[[g00 g01] g10] g11] m0] m]. cbn [fst snd]. destruct HV as (_ & E0 & E1 & E2 & E3 & E4).
  eapply same_trans; [apply (cs_same n true norm y d t _ g00 _ g01 _ g10 _ g11 _ m E0 E1 E2 E3 (fun _ => E4))|]. unfold cs_sens. fold p lam.
  assert (Ip : / p ^ 2 = / p * / p) by (rewrite <- Rinv_mult; f_equal; ring).
  apply centred_same; intros i Hi; unfold q11, q10, sg, both, compl; destruct norm; cbn [fst snd]; unfold Rdiv; rewrite ?Ip, ?Rinv_mult; ring.
Qed.

Lemma cs_sens_exp_fit n dcol (norm : bool) tr thr x y d t strata w nj store ext smod w' : let C := cs_ctx L mc n dcol false norm tr thr x y d t strata in
  (0 < n)%nat -> soundly_reached C w -> sound_learning L f g mc w ->
  (forall a b, (a = 0 \/ a = 1) -> (b = 0 \/ b = 1) -> Labels w n "ml_g" y (fun j => d j = a /\ t j = b)) ->
  fit C nj store ext smod w = (w', Ok tt) ->
  exists F e sm, fit_done w w' F sm 1 /\ fw_sens F = Some e /\ exists g00 g01 g10 g11 : nat -> vec,
    (forall r fs, nth_error sm r = Some fs ->
      Used w n ext r 0 dcol "ml_g_d0_t0" "ml_g" x y (group_rows n (fun j => d j = 0 /\ t j = 0)) fs (g00 r) /\
      Used w n ext r 0 dcol "ml_g_d0_t1" "ml_g" x y (group_rows n (fun j => d j = 0 /\ t j = 1)) fs (g01 r) /\
      Used w n ext r 0 dcol "ml_g_d1_t0" "ml_g" x y (group_rows n (fun j => d j = 1 /\ t j = 0)) fs (g10 r) /\
      Used w n ext r 0 dcol "ml_g_d1_t1" "ml_g" x y (group_rows n (fun j => d j = 1 /\ t j = 1)) fs (g11 r)) /\
    let p := meanf n d in let lam := meanf n t in
    let q11 := if norm then meanf n (both d t) else p * lam in
    let q10 := if norm then meanf n (both d (compl t)) else p * (1 - lam) in
    let q01 := if norm then meanf n (both (compl d) t) else (1 - p) * lam in
    let q00 := if norm then meanf n (both (compl d) (compl t)) else (1 - p) * (1 - lam) in
    let rr (r : nat) i := d i * t i / q11 - d i * (1 - t i) / q10 - (1 - d i) * t i / q01 + (1 - d i) * (1 - t i) / q00 in
    (q11 <> 0 -> q10 <> 0 -> q01 <> 0 -> q00 <> 0 ->
     sens_reported w' e n (length sm) 0
       (fun r i => (y i - (d i * (t i * g11 r i + (1 - t i) * g10 r i) + (1 - d i) * (t i * g01 r i + (1 - t i) * g00 r i))) ^ 2)
       (fun r i => 2 * (1 / q11 + 1 / q10 + 1 / q01 + 1 / q00) - rr r i ^ 2) rr).
Proof.
  intros C Hn Hw HL Hg H. sens_start L f g mc C H Hw HL. assert (Es : m_smpls (w_obj w) = Some sm) by apply Fd.
  destruct (choose_rows (fun _ => 0, fun _ => 0, fun _ => 0, fun _ => 0) sm (fun r fs (v : vec * vec * vec * vec) => let '(g00, g01, g10, g11) := v in
     (Used w n ext r 0 dcol "ml_g_d0_t0" "ml_g" x y (group_rows n (fun j => d j = 0 /\ t j = 0)) fs g00 /\
      Used w n ext r 0 dcol "ml_g_d0_t1" "ml_g" x y (group_rows n (fun j => d j = 0 /\ t j = 1)) fs g01 /\
      Used w n ext r 0 dcol "ml_g_d1_t0" "ml_g" x y (group_rows n (fun j => d j = 1 /\ t j = 0)) fs g10 /\
      Used w n ext r 0 dcol "ml_g_d1_t1" "ml_g" x y (group_rows n (fun j => d j = 1 /\ t j = 1)) fs g11) /\
     (forall i, (i < n)%nat -> pv (out r 0%nat) "ml_g_d0_t0" i = g00 i) /\ (forall i, (i < n)%nat -> pv (out r 0%nat) "ml_g_d0_t1" i = g01 i) /\
     (forall i, (i < n)%nat -> pv (out r 0%nat) "ml_g_d1_t0" i = g10 i) /\ (forall i, (i < n)%nat -> pv (out r 0%nat) "ml_g_d1_t1" i = g11 i))) as (V & HV).
  { intros r fs Hr. destruct (K r 0%nat fs dcol Hr eq_refl) as (Hr' & Ht' & _ & ex & M & S & N). cbn [C cs_ctx c_nuis c_n] in N, S.
    edestruct (cs_exp L f g) as (g00 & g01 & g10 & g11 & p & lam & Ng & _ & _ & _); [exact S| |exact N|].
    { intros a b name Hin. apply (rep_labels L g mc w sm r 0 fs n) with (t := 0%nat) (r := r); [|exact Es|exact Hr] || (intros _; eapply rep_labels; [apply Hg|exact Es|exact Hr]);
      destruct Hin as [X|[X|[X|[X|[]]]]]; injection X as <- <- <-; auto. }
    destruct (Ng 0 0 "ml_g_d0_t0" g00) as (A1 & B1); [cbn; tauto|]. destruct (Ng 0 1 "ml_g_d0_t1" g01) as (A2 & B2); [cbn; tauto|].
    destruct (Ng 1 0 "ml_g_d1_t0" g10) as (A3 & B3); [cbn; tauto|]. destruct (Ng 1 1 "ml_g_d1_t1" g11) as (A4 & B4); [cbn; tauto|].
    exists (g00, g01, g10, g11). split; [split; [used M A1|]; split; [used M A2|]; split; [used M A3|used M A4]|].
    split; [exact (pv_at n _ _ _ B1)|]. split; [exact (pv_at n _ _ _ B2)|]. split; [exact (pv_at n _ _ _ B3)|exact (pv_at n _ _ _ B4)]. }
  exists (fun r => fst (fst (fst (V r)))), (fun r => snd (fst (fst (V r)))), (fun r => snd (fst (V r))), (fun r => snd (V r)).
  split; [intros r fs Hr; specialize (HV r fs Hr); destruct (V r) as [[[g00 g01] g10] g11]; cbn [fst snd]; apply HV|].
  intros p lam q11 q10 q01 q00 rr _ _ _ _. destruct (Z 0%nat ltac:(cbn; lia)) as (Z1 & Z2). eapply sens_centred; [|exact Z1|exact Z2].
  intros r Hr. split; [reflexivity|]. destruct (nth_error sm r) as [fs|] eqn:Er; [|apply nth_error_None in Er; lia]. specialize (HV r fs Er).
  unfold rr. destruct (V r) as [[[g00 g01] g10] g11]. cbn [fst snd]. destruct HV as (_ & E0 & E1 & E2 & E3).
  eapply same_trans; [apply (cs_same n false norm y d t _ g00 _ g01 _ g10 _ g11 _ (fun _ => 0) E0 E1 E2 E3); discriminate|]. unfold cs_sens. fold p lam.
  apply centred_same; intros i Hi; unfold q11, q10, q01, q00, both, compl; destruct norm; cbn [fst snd]; unfold Rdiv; ring.
Qed.

(** Partially linear regression: the residual variance at the estimate. *)
Lemma plr_sens_fit n dcols bin x y d w nj store ext smod w' : let C := plr_ctx L mc n dcols false bin x y d in
  (0 < n)%nat -> dcols <> [] -> soundly_reached C w -> sound_learning L f g mc w ->
  Labels w n "ml_l" y everyone -> (forall t, Labels w n "ml_m" (d t) everyone) ->
  fit C nj store ext smod w = (w', Ok tt) ->
  exists F e sm, fit_done w w' F sm (length dcols) /\ fw_sens F = Some e /\
    forall t col, nth_error dcols t = Some col -> exists l m : nat -> vec,
    (forall r fs, nth_error sm r = Some fs ->
      Used w n ext r t col "ml_l" "ml_l" (x t) y whole_train fs (l r) /\ Used w n ext r t col "ml_m" "ml_m" (x t) (d t) whole_train fs (m r)) /\
    let v r i := d t i - m r i in
    let nu2 r := / meanf n (fun i => v r i ^ 2) in
    let s2 r i := (y i - l r i - at_ (fw_all_thetas F) [t; r] * v r i) ^ 2 in
    ((forall r, (r < length sm)%nat -> meanf n (fun i => v r i ^ 2) <> 0) -> forall r, (r < length sm)%nat ->
     reports_sens w' e n r t (meanf n (s2 r)) (nu2 r) (fun i => s2 r i - meanf n (s2 r)) (fun i => nu2 r - v r i ^ 2 * nu2 r ^ 2) (fun i => v r i * nu2 r)).
Proof.
  intros C Hn Hd Hw HL Hl Hm H. sens_start L f g mc C H Hw HL. assert (Es : m_smpls (w_obj w) = Some sm) by apply Fd. intros t col Ht.
  assert (Ht2 : (t < length dcols)%nat) by (apply nth_error_Some; congruence).
  destruct (choose_rows (fun _ => 0, fun _ => 0) sm (fun r fs (v : vec * vec) => let '(l, m) := v in
     (Used w n ext r t col "ml_l" "ml_l" (x t) y whole_train fs l /\ Used w n ext r t col "ml_m" "ml_m" (x t) (d t) whole_train fs m) /\
     (forall i, (i < n)%nat -> pv (out r t) "ml_l" i = l i) /\ (forall i, (i < n)%nat -> pv (out r t) "ml_m" i = m i))) as (V & HV).
  { intros r fs Hr. destruct (K r t fs col Hr Ht) as (Hr' & Ht' & _ & ex & M & S & N). cbn [C plr_ctx c_nuis c_n] in N, S.
    edestruct (plr_partialling_out L f g) as (l & m & N1 & N2 & R0 & R1 & _); [exact S|intros _; eapply rep_labels; [exact Hl|exact Es|exact Hr]|intros _; eapply rep_labels; [exact (Hm t)|exact Es|exact Hr]|exact N|].
    exists (l, m). split; [split; [used M N1|used M N2]|]. split; [exact (pv_at n _ _ _ R0)|exact (pv_at n _ _ _ R1)]. }
  exists (fun r => fst (V r)), (fun r => snd (V r)).
  split; [intros r fs Hr; specialize (HV r fs Hr); destruct (V r) as [l m]; cbn [fst snd]; apply HV|].
  intros v nu2 s2 Hv r Hr. destruct (Z t Ht2) as (Z1 & _).
  assert (Q : forall r, (r < length sm)%nat -> same_sens n (plr_sens n false y (d t) (pv (out r t) "ml_l") (pv (out r t) "ml_m") (pv (out r t) "ml_g") (theta_of C (split_cluster C w r) (out r t)))
     (plr_sens n false y (d t) (fst (V r)) (snd (V r)) (pv (out r t) "ml_g") (at_ (fw_all_thetas F) [t; r]))).
  { intros q Hq. destruct (nth_error sm q) as [fs|] eqn:Er; [|apply nth_error_None in Er; lia]. specialize (HV q fs Er). destruct (K q t fs col Er Ht) as (_ & _ & -> & _). destruct (V q) as [l m]. cbn [fst snd]. destruct HV as (_ & E0 & E1).
    apply plr_same; [intros _; exact E0|exact E1|discriminate]. }
  assert (Pn : forall r, (r < length sm)%nat -> 0 < so_nu2 (sens_of C (fun r t no theta => so_of (plr_sens n false y (d t) (pv no "ml_l") (pv no "ml_m") (pv no "ml_g") theta)) w out r t)).
  { intros q Hq. destruct (Q q Hq) as (_ & N & _). unfold sens_of. cbn [so_of so_nu2]. rewrite N. cbn [plr_sens sl_nu2]. unfold Rdiv. rewrite Rmult_1_l. apply Rinv_0_lt_compat.
    specialize (Hv q Hq). unfold v in Hv. assert (0 <= meanf n (fun i => (d t i - snd (V q) i) ^ 2)) by apply sq_mean_nonneg. lra. }
  specialize (Z1 Pn r Hr). destruct (Q r Hr) as (Q1 & Q2 & Q3). unfold sens_of in Z1. cbn [so_of so_sigma2 so_nu2 so_psi_sigma2 so_psi_nu2 so_rr] in Z1. revert Z1.
  assert (E1 : nu2 r = 1 / meanf n (fun i => (d t i - snd (V r) i) ^ 2)) by (unfold nu2, v; unfold Rdiv; ring).
  apply reports_same; [rewrite Q1; reflexivity|rewrite Q2; symmetry; exact E1|]. intros i Hi. destruct (Q3 i Hi) as (-> & -> & ->). cbn [plr_sens sl_psi_sigma2 sl_psi_nu2 sl_rr]. rewrite E1. auto.
Qed.

(** The IV-type score: residuals of the outcome equation in levels. *)
Lemma plr_iv_sens_fit n dcols bin x y d w nj store ext smod w' : let C := plr_ctx L mc n dcols true bin x y d in
  (0 < n)%nat -> dcols <> [] -> soundly_reached C w -> sound_learning L f g mc w ->
  Labels w n "ml_l" y everyone -> (forall t, Labels w n "ml_m" (d t) everyone) -> mc_proba mc "ml_g" = false ->
  fit C nj store ext smod w = (w', Ok tt) ->
  exists F e sm, fit_done w w' F sm (length dcols) /\ fw_sens F = Some e /\
    forall t col, nth_error dcols t = Some col -> exists m gg : nat -> vec,
    (forall r fs, nth_error sm r = Some fs ->
      Used w n ext r t col "ml_m" "ml_m" (x t) (d t) whole_train fs (m r) /\
      exists v, Used w n ext r t col "ml_g" "ml_g" (x t) v whole_train fs (gg r) /\
         ((forall e, ~ supplied ext col "ml_g" r e) -> exists l th, Used w n ext r t col "ml_l" "ml_l" (x t) y whole_train fs l /\ v = (fun i => y i - th * d t i) /\
           (sumf n (fun i => (d t i - m r i) ^ 2) <> 0 -> th = sumf n (fun i => (d t i - m r i) * (y i - l i)) / sumf n (fun i => (d t i - m r i) ^ 2)))) /\
    let v r i := d t i - m r i in
    let nu2 r := / meanf n (fun i => v r i ^ 2) in
    let s2 r i := (y i - gg r i - at_ (fw_all_thetas F) [t; r] * d t i) ^ 2 in
    ((forall r, (r < length sm)%nat -> meanf n (fun i => v r i ^ 2) <> 0) -> forall r, (r < length sm)%nat ->
     reports_sens w' e n r t (meanf n (s2 r)) (nu2 r) (fun i => s2 r i - meanf n (s2 r)) (fun i => nu2 r - v r i ^ 2 * nu2 r ^ 2) (fun i => v r i * nu2 r)).
Proof.
  intros C Hn Hd Hw HL Hl Hm Hg H. sens_start L f g mc C H Hw HL. assert (Es : m_smpls (w_obj w) = Some sm) by apply Fd. intros t col Ht.
  assert (Ht2 : (t < length dcols)%nat) by (apply nth_error_Some; congruence).
  destruct (choose_rows (fun _ => 0, fun _ => 0) sm (fun r fs (v : vec * vec) => let '(m, gg) := v in
     (Used w n ext r t col "ml_m" "ml_m" (x t) (d t) whole_train fs m /\
      exists v, Used w n ext r t col "ml_g" "ml_g" (x t) v whole_train fs gg /\
         ((forall e, ~ supplied ext col "ml_g" r e) -> exists l th, Used w n ext r t col "ml_l" "ml_l" (x t) y whole_train fs l /\ v = (fun i => y i - th * d t i) /\
           (sumf n (fun i => (d t i - m i) ^ 2) <> 0 -> th = sumf n (fun i => (d t i - m i) * (y i - l i)) / sumf n (fun i => (d t i - m i) ^ 2)))) /\
     (forall i, (i < n)%nat -> pv (out r t) "ml_m" i = m i) /\ (forall i, (i < n)%nat -> pv (out r t) "ml_g" i = gg i))) as (V & HV).
  { intros r fs Hr. destruct (K r t fs col Hr Ht) as (Hr' & Ht' & _ & ex & M & S & N). cbn [C plr_ctx c_nuis c_n] in N, S.
    edestruct (plr_iv_type L f g) as (m & gg & N1 & R0 & R1 & Ng & _); [exact S|intros _; eapply rep_labels; [exact Hl|exact Es|exact Hr]|intros _; eapply rep_labels; [exact (Hm t)|exact Es|exact Hr]|intros v _ Z2; cbn [setup_of su_proba] in Z2; congruence|exact N|].
    exists (m, gg). split; [split; [used M N1|]|split; [exact (pv_at n _ _ _ R0)|exact (pv_at n _ _ _ R1)]].
    assert (Mg : match ex "ml_g" with Some v => supplied ext col "ml_g" r v | None => forall v, ~ supplied ext col "ml_g" r v end) by (apply M; cbn; tauto).
    cbn [setup_of su_ext] in Ng. destruct (ex "ml_g") as [u|] eqn:Eg.
    + exists y. split; [|intro X; exfalso; exact (X _ Mg)]. eapply (rep_used L f g mc) with (e := ex); [rewrite Eg; exact Mg|]. unfold nuisance. cbn [setup_of su_ext]. rewrite Eg. exact Ng.
    + destruct Ng as (l & th & Nl & _ & Sl & Cr). exists (fun i => y i - th * d t i). split.
      * eapply (rep_used L f g mc) with (e := ex); [rewrite Eg; exact Mg|]. unfold nuisance. cbn [setup_of su_ext]. rewrite Eg. exact Cr.
      * intros _. exists l, th. split; [used M Nl|]. split; [reflexivity|]. unfold slope_of in Sl. cbn [setup_of su_n] in Sl. intro Hs.
        assert (Es2 : sumf n (fun i => (d t i - m i) * (d t i - m i)) = sumf n (fun i => (d t i - m i) ^ 2)) by (apply sumf_ext; intros; ring). rewrite Es2 in Sl.
        rewrite <- (Sl Hs). field. exact Hs. }
  exists (fun r => fst (V r)), (fun r => snd (V r)).
  split; [intros r fs Hr; specialize (HV r fs Hr); destruct (V r) as [m gg]; cbn [fst snd]; apply HV|].
  intros v nu2 s2 Hv r Hr. destruct (Z t Ht2) as (Z1 & _).
  assert (Q : forall r, (r < length sm)%nat -> same_sens n (plr_sens n true y (d t) (pv (out r t) "ml_l") (pv (out r t) "ml_m") (pv (out r t) "ml_g") (theta_of C (split_cluster C w r) (out r t)))
     (plr_sens n true y (d t) (pv (out r t) "ml_l") (fst (V r)) (snd (V r)) (at_ (fw_all_thetas F) [t; r]))).
  { intros q Hq. destruct (nth_error sm q) as [fs|] eqn:Er; [|apply nth_error_None in Er; lia]. specialize (HV q fs Er). destruct (K q t fs col Er Ht) as (_ & _ & -> & _). destruct (V q) as [m gg]. cbn [fst snd]. destruct HV as (_ & E0 & E1).
    apply plr_same; [discriminate|exact E0|intros _; exact E1]. }
  assert (Pn : forall r, (r < length sm)%nat -> 0 < so_nu2 (sens_of C (fun r t no theta => so_of (plr_sens n true y (d t) (pv no "ml_l") (pv no "ml_m") (pv no "ml_g") theta)) w out r t)).
  { intros q Hq. destruct (Q q Hq) as (_ & N & _). unfold sens_of. cbn [so_of so_nu2]. rewrite N. cbn [plr_sens sl_nu2]. unfold Rdiv. rewrite Rmult_1_l. apply Rinv_0_lt_compat.
    specialize (Hv q Hq). unfold v in Hv. assert (0 <= meanf n (fun i => (d t i - fst (V q) i) ^ 2)) by apply sq_mean_nonneg. lra. }
  specialize (Z1 Pn r Hr). destruct (Q r Hr) as (Q1 & Q2 & Q3). unfold sens_of in Z1. cbn [so_of so_sigma2 so_nu2 so_psi_sigma2 so_psi_nu2 so_rr] in Z1. revert Z1.
  assert (E1 : nu2 r = 1 / meanf n (fun i => (d t i - fst (V r) i) ^ 2)) by (unfold nu2, v; unfold Rdiv; ring).
  apply reports_same; [rewrite Q1; reflexivity|rewrite Q2; symmetry; exact E1|]. intros i Hi. destruct (Q3 i Hi) as (-> & -> & ->). cbn [plr_sens sl_psi_sigma2 sl_psi_nu2 sl_rr]. rewrite E1. auto.
Qed.
End Classes.

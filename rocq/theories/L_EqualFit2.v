(** Different formulations of one estimation problem: instruments equal to the treatment. *)
From Verif Require Export L_EqualFit.
From Verif Require Import L_InitFit L_InitMade L_Scores.
From Coq Require Import Lia Lra.
Local Open Scope R_scope.
Local Open Scope string_scope.

Lemma iivm_compliance : forall (E P : Type) (L : learner E row P) f g rd rd' fr fr' s s' dc dc' zc ml_g ml_m ml_r score l nm nf nf' nr nr' draw draw' rule rule' thr C C' w0 w0' w w' nj nj' store store' ext ext' smod smod' w1 w1',
  let n := M_Data.frows fr in let y := outcome fr s in let d := col fr dc in
  S_Data.reachable fr s -> unclustered s -> sound_randomness rd -> (0 < n)%nat -> S_Data.reachable fr' s' -> unclustered s' -> sound_randomness rd' ->
  irm_init L rd fr s ml_g ml_m nf nr (PStr "ATE") WNone (PBool nm) rule (PFloat thr) draw = Ok (C, w0) -> later C w0 w -> reliable L f g rd w ->
  iivm_init L rd' fr' s' ml_g ml_m ml_r nf' nr' score (SgDict l) (PBool nm) rule' (PFloat thr) draw' = Ok (C', w0') -> later C' w0' w' -> reliable L f g rd' w' ->
  dict_get "always_takers" l = Some (PBool false) -> dict_get "never_takers" l = Some (PBool false) ->
  same_problem fr s w fr' s' w' -> M_Data.r_d (M_Data.dd_roles s) = [dc] -> M_Data.r_d (M_Data.dd_roles s') = [dc'] -> M_Data.r_z (M_Data.dd_roles s') = Some [zc] ->
  (forall i, (i < n)%nat -> col fr' dc' i = d i) -> (forall i, (i < n)%nat -> col fr' zc i = d i) -> (forall i, (i < n)%nat -> covariates fr' s' dc' i = covariates fr s dc i) ->
  labels_seen L g (ly_classifier ml_g) w n y (fun j => d j = 0) -> labels_seen L g (ly_classifier ml_g) w n y (fun j => d j = 1) -> labels_seen L g true w n d everyone ->
  fit C nj store ext smod w = (w1, Ok tt) -> fit C' nj' store' ext' smod' w' = (w1', Ok tt) ->
  exists mc F F' sm, runs_on mc "ml_m" ml_m true /\ fit_done w w1 F sm 1 /\ fit_done w' w1' F' sm 1 /\
    forall r fs, nth_error sm r = Some fs -> (r < m_n_rep (w_obj w0))%nat ->
      (forall k, k = "ml_g0" \/ k = "ml_g1" \/ k = "ml_m" -> matched w w' ext ext' dc k dc' k r) ->
      exists m0 m, used_prediction L f g mc w n ext r 0 dc "ml_m" "ml_m" (covariates fr s dc) d whole_train fs m0 /\ clipped n true thr m0 m /\ (off_bounds n (ps_adjust n m d nm) -> signed F F' 0 r 1).
Proof.
  intros until w1'. intros n y d Re Un Rd Hn Re' Un' Rd' H La Rl H' La' Rl' At Nt [T1 T2 T3] Hdc Hdc' Hzc Hd Hz Sc Hl0 Hl1 Hl2 Hf Hf'. fold n in T1, T2.
  assert (Hn' : (0 < M_Data.frows fr')%nat) by (rewrite T1; exact Hn).
  destruct (irm_end E P L f g rd fr s ml_g ml_m nf nr WNone nm rule thr draw C w0 w nj store ext smod w1 Re Un Rd Hn H La) as (dc1 & mc & Bt & O & R1 & R2 & Z).
  destruct (iivm_end E P L f g rd' fr' s' ml_g ml_m ml_r nf' nr' score (SgDict l) nm rule' thr draw' C' w0' w' nj' store' ext' smod' w1' Re' Un' Rd' Hn' H' La') as (dc1' & zc' & mc' & a1 & n1 & Bt' & Bz & _ & O' & R1' & R2' & R3' & (Sa & Sn) & Z'). cbv zeta in Z, Z'.
  assert (Rg : forall sm r fs, m_smpls (w_obj w) = Some sm -> nth_error sm r = Some fs -> forall h j, In h fs -> In j (fst h) -> (j < n)%nat).
  { destruct (irm_made L rd fr s Re Rd _ _ _ _ _ _ _ _ _ _ _ _ H) as (c & mc0 & nm0 & th0 & bo & st & _ & Ec & Sr & _). subst C. rewrite (plain_ctx fr s Re _ Un) in *. apply (ranges_of _ w0 w n Sr La); reflexivity. }
  clear H H' La La'. destruct Bt as (Bd & Bn), Bt' as (Bd' & _). assert (dc1 = dc) as -> by congruence. assert (dc1' = dc') as -> by congruence. assert (zc' = zc) as -> by congruence.
  assert (a1 = false) as -> by congruence. assert (n1 = false) as -> by congruence.
  pose proof (zero_one_binary fr dc Bn : binary n d) as Bi. fold d in Z, Hd. fold y in Z, T2.
  assert (G : forall v j, (j < n)%nat -> col fr' zc j = v <-> d j = v) by (intros v j Hj; rewrite Hz by exact Hj; tauto).
  pose proof (same_affine n y _ T2) as Ay. pose proof (same_affine n d _ Hd) as Ad. pose proof (same_affine n d _ Hz) as Az.
  destruct Z as (F & sm & D & Z); [exact (reliable_sound L f g mc rd w O Rl)|apply (seen_everywhere L g mc w n _ _ _ _ (proj2 R1)), Hl0|apply (seen_everywhere L g mc w n _ _ _ _ (proj2 R1)), Hl1|apply (seen_everywhere L g mc w n _ _ _ _ (proj2 R2)), Hl2|exact Hf|].
  destruct Z' as (F' & sm' & D' & Z'); [exact (reliable_sound L f g mc' rd' w' O' Rl')| | | |exact Hf'|].
  { intros v Qv. apply (seen_everywhere L g mc' w' _ _ _ _ _ (proj2 R1')). refine (seen_twin L g _ w w' n _ 1 0 _ _ (fun j => d j = v) _ T1 T3 Ay _ _); [intros j Hj; apply (G v j Hj)|destruct Qv as [-> | ->]; assumption]. }
  { apply (seen_everywhere L g mc' w' _ _ _ _ _ (proj2 R2')); exact (seen_twin L g _ w w' n _ _ _ _ _ everyone everyone T1 T3 Az (fun _ _ x => x) Hl2). }
  { intros v [(_ & Q)|(_ & Q)]; discriminate Q. }
  assert (Es : m_smpls (w_obj w) = Some sm) by apply D. assert (sm' = sm) as -> by (assert (m_smpls (w_obj w') = Some sm') by apply D'; congruence).
  rewrite T1 in Z'. fold n in Z, Z'. exists mc, F, F', sm. split; [exact R2|]. split; [exact D|]. split; [exact D'|].
  intros r fs Hr Q1 Cx. destruct (Z r fs Hr Q1) as (g0 & g1 & m0 & m & Ug0 & Ug1 & Um & Cp & V). destruct (Z' r fs Hr) as (g0' & g1' & m0' & m' & r0 & r1 & Ug0' & Ug1' & Um' & Cp' & Er0 & Er1 & V').
  pose proof (matched_prediction L f g mc mc' w w' n ext ext' r 0 0 dc dc' "ml_g0" "ml_g0" "ml_g" "ml_g" _ _ _ _ _ _ _ _ fs g0 g0' (proj1 R1) (proj1 R1') (proj2 R1) (proj2 R1') (Rg sm r fs Es Hr) (group_match n _ _ (G 0)) Sc Ug0 Ug0' T2 (Cx "ml_g0" (or_introl eq_refl))) as E0.
  pose proof (matched_prediction L f g mc mc' w w' n ext ext' r 0 0 dc dc' "ml_g1" "ml_g1" "ml_g" "ml_g" _ _ _ _ _ _ _ _ fs g1 g1' (proj1 R1) (proj1 R1') (proj2 R1) (proj2 R1') (Rg sm r fs Es Hr) (group_match n _ _ (G 1)) Sc Ug1 Ug1' T2 (Cx "ml_g1" (or_intror (or_introl eq_refl)))) as E1.
  pose proof (matched_prediction L f g mc mc' w w' n ext ext' r 0 0 dc dc' "ml_m" "ml_m" "ml_m" "ml_m" _ _ _ _ _ _ _ _ fs m0 m0' (proj1 R2) (proj1 R2') (proj2 R2) (proj2 R2') (Rg sm r fs Es Hr) (whole_match n) Sc Um Um' Hz (Cx "ml_m" (or_intror (or_intror eq_refl)))) as Em0.
  pose proof (clipped_same n thr _ _ _ _ (same_affine n _ _ Em0) Cp Cp') as Em. pose proof (adjust_ext n _ _ _ _ nm Em Hd : forall i, (i < n)%nat -> iivm_adjust n nm (col fr' dc') m' i = ps_adjust n m d nm i) as Ea.
  exists m0, m. split; [exact Um|]. split; [exact Cp|]. intro Ob. specialize (V Ob).
  set (ma := ps_adjust n m d nm) in *. set (ma' := iivm_adjust n nm (col fr' dc') m') in *.
  assert (Ob' : off_bounds n ma') by (intros i Hi; rewrite (Ea i Hi); exact (Ob i Hi)).
  assert (Hq : forall i, (i < n)%nat -> dr_signal (col fr' dc') (col fr' zc) r0 r1 ma' i = 1).
  { intros i Hi. unfold dr_signal, dr_level, compl. rewrite (Hd i Hi), (Hz i Hi), (Er0 i Hi), (Er1 i Hi), (Ea i Hi). destruct (Ob i Hi). destruct (Bi i Hi) as [-> | ->]; field; split; lra. }
  assert (J : sumf n (dr_signal (col fr' dc') (col fr' zc) r0 r1 ma') = INR n) by (rewrite (sumf_ext n _ (fun _ => 1) Hq), sumf_const; ring).
  assert (Nn : INR n <> 0) by (apply not_0_INR; lia).
  specialize (V' Ob' ltac:(rewrite J; exact Nn)). rewrite J in V'.
  set (W := weights_of WNone r) in *. set (sg := fun i => wg W i * (g1 i - g0 i) + resid_weights W i * (d i * (y i - g1 i) / ma i - (1 - d i) * (y i - g0 i) / (1 - ma i))) in V.
  assert (W1 : forall i, wg W i = 1) by reflexivity. assert (Mw : meanf n (wg W) = 1) by (exact (meanf_const n 1 Hn)). assert (W2 : forall i, resid_weights W i = 1) by reflexivity.
  assert (Hs : forall i, (i < n)%nat -> dr_signal (outcome fr' s') (col fr' zc) g0' g1' ma' i = sg i).
  { intros i Hi. unfold sg, dr_signal, dr_level, compl. rewrite W1, W2, (Hz i Hi), (Ea i Hi), (T2 i Hi), (E0 i Hi), (E1 i Hi). destruct (Ob i Hi). field. split; lra. }
  assert (Ht : sumf n (dr_signal (outcome fr' s') (col fr' zc) g0' g1' ma') / INR n = meanf n sg) by (unfold meanf; rewrite (sumf_ext n _ _ Hs); reflexivity).
  rewrite Ht in V'.
  eapply (equal_estimate F F' n 0 0 r 1 _ _ _ _ _ _ V V'); [left; reflexivity|reflexivity|ring|].
  intros i Hi. cbv beta. rewrite (Hs i Hi), (Hq i Hi), Mw. unfold sg at 1. rewrite W1. unfold Rdiv. rewrite Rinv_1. ring.
Qed.

Lemma pliv_own_instrument : forall (E P : Type) (L : learner E row P) f g rd rd' fr fr' s s' zc proj ml_l ml_m ml_g ml_g' nf nf' nr nr' draw draw' C C' w0 w0' w w' nj nj' store store' ext ext' smod smod' w1 w1',
  let n := M_Data.frows fr in let dcols := M_Data.r_d (M_Data.dd_roles s) in
  S_Data.reachable fr s -> unclustered s -> sound_randomness rd -> (0 < n)%nat -> S_Data.reachable fr' s' -> unclustered s' -> sound_randomness rd' ->
  plr_init L rd fr s ml_l ml_m ml_g nf nr (PStr "partialling out") draw = Ok (C, w0) -> later C w0 w -> reliable L f g rd w -> ly_classifier ml_m = false ->
  M_Data.r_z (M_Data.dd_roles s') = Some [zc] ->
  pliv_init L rd' fr' s' proj ml_l ml_m ml_m ml_g' nf' nr' (PStr "partialling out") draw' = Ok (C', w0') -> later C' w0' w' -> reliable L f g rd' w' ->
  same_problem fr s w fr' s' w' ->
  fit C nj store ext smod w = (w1, Ok tt) -> fit C' nj' store' ext' smod' w' = (w1', Ok tt) ->
  exists mc F F' sm, runs_on mc "ml_m" ml_m false /\ fit_done w w1 F sm (length dcols) /\ fit_done w' w1' F' sm (length (M_Data.r_d (M_Data.dd_roles s'))) /\
    forall r t t' fs c c', nth_error sm r = Some fs -> nth_error dcols t = Some c -> nth_error (M_Data.r_d (M_Data.dd_roles s')) t' = Some c' ->
      (forall i, (i < n)%nat -> col fr' c' i = col fr c i) -> (forall i, (i < n)%nat -> col fr' zc i = col fr c i) -> (forall i, (i < n)%nat -> covariates fr' s' c' i = covariates fr s c i) ->
      matched w w' ext ext' c "ml_l" c' "ml_l" r -> matched w w' ext ext' c "ml_m" c' "ml_m" r -> matched w w' ext ext' c "ml_m" c' "ml_r" r ->
      exists m, used_prediction L f g mc w n ext r t c "ml_m" "ml_m" (covariates fr s c) (col fr c) whole_train fs m /\
        (sumf n (fun i => (col fr c i - m i) ^ 2) <> 0 ->
         at_ (fw_all_thetas F') [t'; r] = at_ (fw_all_thetas F) [t; r] /\ at_ (fw_all_ses F') [t'; r] = at_ (fw_all_ses F) [t; r]).
Proof.
  intros until w1'. intros n dcols Re Un Rd Hn Re' Un' Rd' H La Rl Cl Hz H' La' Rl' [T1 T2 T3] Hf Hf'. fold n in T1, T2.
  assert (Hn' : (0 < M_Data.frows fr')%nat) by (rewrite T1; exact Hn).
  destruct (plr_end E P L f g rd fr s ml_l ml_m ml_g nf nr draw C w0 w nj store ext smod w1 Re Un Rd Hn H La) as (mc & O & R1 & R2 & Z).
  destruct (pliv_end E P L f g rd' fr' s' zc proj ml_l ml_m ml_m ml_g' nf' nr' draw' C' w0' w' nj' store' ext' smod' w1' Re' Un' Rd' Hn' Hz H' La') as (mc' & O' & R1' & R2' & R3' & Z'). cbv zeta in Z, Z'. rewrite Cl in R2.
  assert (Rg : forall sm r fs, m_smpls (w_obj w) = Some sm -> nth_error sm r = Some fs -> forall h j, In h fs -> In j (fst h) -> (j < n)%nat).
  { destruct (plr_made L rd fr s Re Rd _ _ _ _ _ _ _ _ _ H) as (mc0 & bin & Ec & Sr & _). subst C. rewrite (plain_ctx fr s Re _ Un) in *. apply (ranges_of _ w0 w n Sr La); reflexivity. }
  clear H H' La La'.
  destruct Z as (F & sm & D1 & D2 & D3 & Es & D5 & D6 & Z); [exact (reliable_sound L f g mc rd w O Rl)|apply unseen_everywhere, R1|intros; apply unseen_everywhere, R2|exact Hf|].
  destruct Z' as (F' & sm' & D' & Z'); [exact (reliable_sound L f g mc' rd' w' O' Rl')|apply unseen_everywhere, R1'|apply unseen_everywhere, R2'|intros; apply unseen_everywhere, R3'|exact Hf'|].
  assert (sm' = sm) as -> by (assert (m_smpls (w_obj w') = Some sm') by apply D'; congruence). rewrite T1 in Z'. fold n in Z, Z'.
  exists mc, F, F', sm. split; [exact R2|]. split; [exact (conj D1 (conj D2 (conj D3 (conj Es (conj D5 D6)))))|]. split; [exact D'|].
  intros r t t' fs c c' Hr Ht Ht' Ed Ez Sc Ml Mm Mr. destruct (Z r t fs c Hr Ht) as (l & m & U1 & U2 & V). destruct (Z' r t' fs c' Hr Ht') as (l' & m' & q' & U1' & U2' & U3' & V').
  pose proof (matched_prediction L f g mc mc' w w' n ext ext' r t t' c c' "ml_l" "ml_l" "ml_l" "ml_l" _ _ _ _ _ _ _ _ fs l l' (proj1 R1) (proj1 R1') (proj2 R1) (proj2 R1') (Rg sm r fs Es Hr) (whole_match n) Sc U1 U1' T2 Ml) as El.
  pose proof (matched_prediction L f g mc mc' w w' n ext ext' r t t' c c' "ml_m" "ml_m" "ml_m" "ml_m" _ _ _ _ _ _ _ _ fs m m' (proj1 R2) (proj1 R2') (proj2 R2) (proj2 R2') (Rg sm r fs Es Hr) (whole_match n) Sc U2 U2' Ez Mm) as Em.
  pose proof (matched_prediction L f g mc mc' w w' n ext ext' r t t' c c' "ml_m" "ml_r" "ml_m" "ml_r" _ _ _ _ _ _ _ _ fs m q' (proj1 R2) (proj1 R3') (proj2 R2) (proj2 R3') (Rg sm r fs Es Hr) (whole_match n) Sc U2 U3' Ed Mr) as Eq.
  exists m. split; [exact U2|]. intro N. destruct (V N) as (Vt & Vs).
  assert (J : sumf n (fun i => (col fr' zc i - m' i) * (col fr' c' i - q' i)) = sumf n (fun i => (col fr c i - m i) ^ 2)) by (apply sumf_ext; intros i Hi; rewrite (Ez i Hi), (Em i Hi), (Ed i Hi), (Eq i Hi); ring).
  assert (K : sumf n (fun i => (col fr' zc i - m' i) * (outcome fr' s' i - l' i)) = sumf n (fun i => (col fr c i - m i) * (outcome fr s i - l i))) by (apply sumf_ext; intros i Hi; rewrite (Ez i Hi), (Em i Hi), (T2 i Hi), (El i Hi); ring).
  destruct (V' ltac:(rewrite J; exact N)) as (Vt' & Vs' & _). rewrite J, K in *. rewrite Vt, Vt', Vs, Vs'. split; [reflexivity|].
  rewrite Rabs_pos_eq by (apply sumf_nonneg; intros; apply pow2_ge_0). do 2 f_equal. apply sumf_ext. intros i Hi. rewrite (Ez i Hi), (Em i Hi), (T2 i Hi), (El i Hi), (Ed i Hi), (Eq i Hi). reflexivity.
Qed.

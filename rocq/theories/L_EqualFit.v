(** Different formulations of one estimation problem: fitted objects. *)
From Verif Require Export S_Equal L_Equal.
From Verif Require Import L_InitFit L_InitMade L_Scores.
From Coq Require Import Lia Lra.
Local Open Scope R_scope.
Local Open Scope string_scope.

Lemma zero_one_binary fr c : S_Data.zero_one_column fr c -> binary (M_Data.frows fr) (col fr c).
Proof. intros H i Hi. unfold col. destruct (H i Hi) as [-> | ->]; cbn; auto. Qed.
Lemma level_one n d : binary n d -> forall i, (i < n)%nat -> at_level (PInt 1) d i = d i.
Proof. intros B i Hi. unfold at_level. cbn [level_number]. destruct (Req_EM_T _ _), (B i Hi); lra. Qed.
Lemma level_zero n d : binary n d -> forall i, (i < n)%nat -> at_level (PInt 0) d i = 1 - d i.
Proof. intros B i Hi. unfold at_level. cbn [level_number]. destruct (Req_EM_T _ _), (B i Hi); lra. Qed.
Lemma same_affine n v v' : (forall i, (i < n)%nat -> v' i = v i) -> affine n 1 0 v v'.
Proof. intros H i Hi. rewrite (H i Hi). ring. Qed.
Lemma mirror_affine n v v' : (forall i, (i < n)%nat -> v' i = 1 - v i) -> affine n (-1) 1 v v'.
Proof. intros H i Hi. rewrite (H i Hi). ring. Qed.

Lemma irm_swapped : forall (E P : Type) (L : learner E row P) f g rd rd' fr fr' s s' dc dc' ml_g ml_m wa nm nf nf' nr nr' draw draw' rule rule' thr C C' w0 w0' w w' nj nj' store store' ext ext' smod smod' w1 w1',
  let n := M_Data.frows fr in let y := outcome fr s in let d := col fr dc in
  S_Data.reachable fr s -> unclustered s -> sound_randomness rd -> (0 < n)%nat -> S_Data.reachable fr' s' -> unclustered s' -> sound_randomness rd' ->
  irm_init L rd fr s ml_g ml_m nf nr (PStr "ATE") wa (PBool nm) rule (PFloat thr) draw = Ok (C, w0) -> later C w0 w -> reliable L f g rd w ->
  irm_init L rd' fr' s' ml_g ml_m nf' nr' (PStr "ATE") wa (PBool nm) rule' (PFloat thr) draw' = Ok (C', w0') -> later C' w0' w' -> reliable L f g rd' w' ->
  same_problem fr s w fr' s' w' -> M_Data.r_d (M_Data.dd_roles s) = [dc] -> M_Data.r_d (M_Data.dd_roles s') = [dc'] ->
  (forall i, (i < n)%nat -> col fr' dc' i = 1 - d i) -> (forall i, (i < n)%nat -> covariates fr' s' dc' i = covariates fr s dc i) -> both_groups n d ->
  labels_seen L g (ly_classifier ml_g) w n y (fun j => d j = 0) -> labels_seen L g (ly_classifier ml_g) w n y (fun j => d j = 1) -> labels_seen L g true w n d everyone ->
  fit C nj store ext smod w = (w1, Ok tt) -> fit C' nj' store' ext' smod' w' = (w1', Ok tt) ->
  exists mc F F' sm, runs_on mc "ml_m" ml_m true /\ fit_done w w1 F sm 1 /\ fit_done w' w1' F' sm 1 /\
    forall r fs, nth_error sm r = Some fs -> (r < m_n_rep (w_obj w0))%nat -> (r < m_n_rep (w_obj w0'))%nat ->
      matched w w' ext ext' dc "ml_g0" dc' "ml_g1" r -> matched w w' ext ext' dc "ml_g1" dc' "ml_g0" r -> mirrored L g w w' ext ext' dc "ml_m" dc' "ml_m" r ->
      exists m0 m, used_prediction L f g mc w n ext r 0 dc "ml_m" "ml_m" (covariates fr s dc) d whole_train fs m0 /\ clipped n true thr m0 m /\ (off_bounds n (ps_adjust n m d nm) -> signed F F' 0 r (-1)).
Proof.
  intros until w1'. intros n y d Re Un Rd Hn Re' Un' Rd' H La Rl H' La' Rl' [T1 T2 T3] Hdc Hdc' Hd Sc Bg Hl0 Hl1 Hl2 Hf Hf'. fold n in T1, T2.
  assert (Hn' : (0 < M_Data.frows fr')%nat) by (rewrite T1; exact Hn).
  destruct (irm_end E P L f g rd fr s ml_g ml_m nf nr wa nm rule thr draw C w0 w nj store ext smod w1 Re Un Rd Hn H La) as (dc1 & mc & Bt & O & R1 & R2 & Z).
  destruct (irm_end E P L f g rd' fr' s' ml_g ml_m nf' nr' wa nm rule' thr draw' C' w0' w' nj' store' ext' smod' w1' Re' Un' Rd' Hn' H' La') as (dc1' & mc' & Bt' & O' & R1' & R2' & Z'). cbv zeta in Z, Z'.
  assert (Hx : 0 < thr < 1 / 2 /\ forall sm r fs, m_smpls (w_obj w) = Some sm -> nth_error sm r = Some fs -> forall h j, In h fs -> In j (fst h) -> (j < n)%nat).
  { destruct (irm_made L rd fr s Re Rd _ _ _ _ _ _ _ _ _ _ _ _ H) as (c & mc0 & nm0 & th0 & bo & st & _ & Ec & Sr & _ & _ & _ & _ & Th & Ck & _). split.
    - injection Th as ->. apply check_trimming_iff in Ck as (_ & t & Q & B). injection Q as ->. exact B.
    - subst C. rewrite (plain_ctx fr s Re _ Un) in *. apply (ranges_of _ w0 w n Sr La); reflexivity. }
  destruct Hx as (Th & Rg). clear H H' La La'. destruct Bt as (Bd & Bn), Bt' as (Bd' & _). assert (dc1 = dc) as -> by congruence. assert (dc1' = dc') as -> by congruence.
  pose proof (zero_one_binary fr dc Bn : binary n d) as Bi. fold d in Z, Hd. fold y in Z, T2.
  assert (G0 : forall j, (j < n)%nat -> col fr' dc' j = 1 <-> d j = 0) by (intros j Hj; rewrite Hd by exact Hj; split; lra).
  assert (G1 : forall j, (j < n)%nat -> col fr' dc' j = 0 <-> d j = 1) by (intros j Hj; rewrite Hd by exact Hj; split; lra).
  pose proof (same_affine n y _ T2) as Ay. pose proof (mirror_affine n d _ Hd) as Ad.
  destruct Z as (F & sm & D & Z); [exact (reliable_sound L f g mc rd w O Rl)|apply (seen_everywhere L g mc w n _ _ _ _ (proj2 R1)), Hl0|apply (seen_everywhere L g mc w n _ _ _ _ (proj2 R1)), Hl1|apply (seen_everywhere L g mc w n _ _ _ _ (proj2 R2)), Hl2|exact Hf|].
  destruct Z' as (F' & sm' & D' & Z'); [exact (reliable_sound L f g mc' rd' w' O' Rl')| | | |exact Hf'|].
  { apply (seen_everywhere L g mc' w' _ _ _ _ _ (proj2 R1')); refine (seen_twin L g _ w w' n _ 1 0 _ _ _ _ T1 T3 Ay _ Hl1); intros j Hj; apply (G1 j Hj). }
  { apply (seen_everywhere L g mc' w' _ _ _ _ _ (proj2 R1')); refine (seen_twin L g _ w w' n _ 1 0 _ _ _ _ T1 T3 Ay _ Hl0); intros j Hj; apply (G0 j Hj). }
  { apply (seen_everywhere L g mc' w' _ _ _ _ _ (proj2 R2')); exact (seen_twin L g _ w w' n _ _ _ _ _ everyone everyone T1 T3 Ad (fun _ _ x => x) Hl2). }
  assert (Es : m_smpls (w_obj w) = Some sm) by apply D. assert (sm' = sm) as -> by (assert (m_smpls (w_obj w') = Some sm') by apply D'; congruence).
  rewrite T1 in Z'. fold n in Z, Z'. exists mc, F, F', sm. split; [exact R2|]. split; [exact D|]. split; [exact D'|].
  intros r fs Hr Q1 Q2 C0 C1 Cm. destruct (Z r fs Hr Q1) as (g0 & g1 & m0 & m & Ug0 & Ug1 & Um & Cp & V). destruct (Z' r fs Hr Q2) as (g0' & g1' & m0' & m' & Ug0' & Ug1' & Um' & Cp' & V').
  pose proof (matched_prediction L f g mc mc' w w' n ext ext' r 0 0 dc dc' "ml_g0" "ml_g1" "ml_g" "ml_g" _ _ _ _ _ _ _ _ fs g0 g1' (proj1 R1) (proj1 R1') (proj2 R1) (proj2 R1') (Rg sm r fs Es Hr) (group_match n _ _ G0) Sc Ug0 Ug1' T2 C0) as E0.
  pose proof (matched_prediction L f g mc mc' w w' n ext ext' r 0 0 dc dc' "ml_g1" "ml_g0" "ml_g" "ml_g" _ _ _ _ _ _ _ _ fs g1 g0' (proj1 R1) (proj1 R1') (proj2 R1) (proj2 R1') (Rg sm r fs Es Hr) (group_match n _ _ G1) Sc Ug1 Ug0' T2 C1) as E1.
  pose proof (mirrored_prediction L f g mc mc' w w' n ext ext' r 0 0 dc dc' "ml_m" "ml_m" "ml_m" "ml_m" _ _ _ _ _ _ _ _ fs m0 m0' (proj1 R2) (proj1 R2') (proj2 R2) (proj2 R2') (Rg sm r fs Es Hr) (whole_match n) Sc Um Um' eq_refl Bi Bg Hd Cm) as Em0.
  pose proof (clip_mirror n thr _ _ _ _ Th Em0 Cp Cp') as Em. pose proof (adjust_mirror n _ _ _ _ nm Em Hd) as Ea.
  exists m0, m. split; [exact Um|]. split; [exact Cp|]. intro Ob. specialize (V Ob).
  assert (Ob' : off_bounds n (ps_adjust n m' (col fr' dc') nm)) by (intros i Hi; rewrite (Ea i Hi); destruct (Ob i Hi); split; lra). specialize (V' Ob').
  set (W := weights_of wa r) in *. set (ma := ps_adjust n m d nm) in *. set (ma' := ps_adjust n m' (col fr' dc') nm) in *.
  assert (Hs : forall i, (i < n)%nat -> wg W i * (g1' i - g0' i) + resid_weights W i * (col fr' dc' i * (outcome fr' s' i - g1' i) / ma' i - (1 - col fr' dc' i) * (outcome fr' s' i - g0' i) / (1 - ma' i)) =
    -1 * (wg W i * (g1 i - g0 i) + resid_weights W i * (d i * (y i - g1 i) / ma i - (1 - d i) * (y i - g0 i) / (1 - ma i)))).
  { intros i Hi. rewrite (Hd i Hi), (Ea i Hi), (T2 i Hi), (E0 i Hi), (E1 i Hi). destruct (Ob i Hi). field. split; lra. }
  pose proof (meanf_ext n _ _ Hs) as Ht. rewrite meanf_scal in Ht.
  eapply (equal_estimate F F' n 0 0 r (-1) _ _ _ _ _ _ V V'); [right; reflexivity|reflexivity|exact Ht|].
  intros i Hi. cbv beta. rewrite (Hs i Hi), Ht. unfold Rdiv. ring.
Qed.

Lemma apo_contrast : forall (E P : Type) (L : learner E row P) f g rd rd1 rd0 fr s dc ml_g ml_m sc1 sc0 wa nm nf nf1 nf0 nr nr1 nr0 draw draw1 draw0 rule rule1 rule0 thr C C1 C0 w0 w01 w00 w wa1 wa0 nj nj1 nj0 store store1 store0 ext ext1 ext0 smod smod1 smod0 w1 w1' w0',
  let n := M_Data.frows fr in let y := outcome fr s in let d := col fr dc in
  S_Data.reachable fr s -> unclustered s -> sound_randomness rd -> sound_randomness rd1 -> sound_randomness rd0 -> (0 < n)%nat ->
  irm_init L rd fr s ml_g ml_m nf nr (PStr "ATE") wa (PBool nm) rule (PFloat thr) draw = Ok (C, w0) -> later C w0 w -> reliable L f g rd w ->
  apo_init L rd1 fr s ml_g ml_m (PInt 1) nf1 nr1 sc1 wa (PBool nm) rule1 (PFloat thr) draw1 = Ok (C1, w01) -> later C1 w01 wa1 -> reliable L f g rd1 wa1 ->
  apo_init L rd0 fr s ml_g ml_m (PInt 0) nf0 nr0 sc0 wa (PBool nm) rule0 (PFloat thr) draw0 = Ok (C0, w00) -> later C0 w00 wa0 -> reliable L f g rd0 wa0 ->
  same_problem fr s w fr s wa1 -> same_problem fr s w fr s wa0 -> M_Data.r_d (M_Data.dd_roles s) = [dc] -> both_groups n d ->
  labels_seen L g (ly_classifier ml_g) w n y (fun j => d j = 0) -> labels_seen L g (ly_classifier ml_g) w n y (fun j => d j = 1) -> labels_seen L g true w n d everyone ->
  fit C nj store ext smod w = (w1, Ok tt) -> fit C1 nj1 store1 ext1 smod1 wa1 = (w1', Ok tt) -> fit C0 nj0 store0 ext0 smod0 wa0 = (w0', Ok tt) ->
  exists mc F F1 F0 sm, runs_on mc "ml_m" ml_m true /\ fit_done w w1 F sm 1 /\ fit_done wa1 w1' F1 sm 1 /\ fit_done wa0 w0' F0 sm 1 /\
    forall r fs, nth_error sm r = Some fs -> (r < m_n_rep (w_obj w0))%nat -> (r < m_n_rep (w_obj w01))%nat -> (r < m_n_rep (w_obj w00))%nat ->
      matched w wa1 ext ext1 dc "ml_g1" dc "ml_g_d_lvl1" r -> matched w wa1 ext ext1 dc "ml_m" dc "ml_m" r ->
      matched w wa0 ext ext0 dc "ml_g0" dc "ml_g_d_lvl1" r -> mirrored L g w wa0 ext ext0 dc "ml_m" dc "ml_m" r ->
      exists m0 m, used_prediction L f g mc w n ext r 0 dc "ml_m" "ml_m" (covariates fr s dc) d whole_train fs m0 /\ clipped n true thr m0 m /\ (off_bounds n (ps_adjust n m d nm) -> difference_of n 0 r F F1 F0).
Proof.
  intros until w0'. intros n y d Re Un Rd Rd1 Rd0 Hn H La Rl H1 La1 Rl1 H0 La0 Rl0 [_ _ T1] [_ _ T0] Hdc Bg Hl0 Hl1 Hl2 Hf Hf1 Hf0.
  destruct (irm_end E P L f g rd fr s ml_g ml_m nf nr wa nm rule thr draw C w0 w nj store ext smod w1 Re Un Rd Hn H La) as (dcx & mc & Bt & O & R1 & R2 & Z).
  destruct (apo_end E P L f g rd1 fr s ml_g ml_m (PInt 1) nf1 nr1 sc1 wa nm rule1 thr draw1 C1 w01 wa1 nj1 store1 ext1 smod1 w1' Re Un Rd1 Hn H1 La1) as (dc1 & mc1 & Bd1 & O1 & R11 & R12 & Z1).
  destruct (apo_end E P L f g rd0 fr s ml_g ml_m (PInt 0) nf0 nr0 sc0 wa nm rule0 thr draw0 C0 w00 wa0 nj0 store0 ext0 smod0 w0' Re Un Rd0 Hn H0 La0) as (dc0 & mc0 & Bd0 & O0 & R01 & R02 & Z0). cbv zeta in Z, Z1, Z0.
  assert (Hx : 0 < thr < 1 / 2 /\ forall sm r fs, m_smpls (w_obj w) = Some sm -> nth_error sm r = Some fs -> forall h j, In h fs -> In j (fst h) -> (j < n)%nat).
  { destruct (irm_made L rd fr s Re Rd _ _ _ _ _ _ _ _ _ _ _ _ H) as (c & mcc & nm0 & th0 & bo & st & _ & Ec & Sr & _ & _ & _ & _ & Th & Ck & _). split.
    - injection Th as ->. apply check_trimming_iff in Ck as (_ & t & Q & B). injection Q as ->. exact B.
    - subst C. rewrite (plain_ctx fr s Re _ Un) in *. apply (ranges_of _ w0 w n Sr La); reflexivity. }
  destruct Hx as (Th & Rg). clear H H1 H0 La La1 La0. destruct Bt as (Bd & Bn). assert (dcx = dc) as -> by congruence. assert (dc1 = dc) as -> by congruence. assert (dc0 = dc) as -> by congruence.
  pose proof (zero_one_binary fr dc Bn : binary n d) as Bi. fold n in Z, Z1, Z0. fold d in Z, Z1, Z0. fold y in Z, Z1, Z0.
  pose proof (level_one n d Bi) as D1. pose proof (level_zero n d Bi) as D0. set (d1 := at_level (PInt 1) d) in *. set (d0 := at_level (PInt 0) d) in *.
  assert (G1 : forall z j, (j < n)%nat -> d1 j = z <-> d j = z) by (intros z j Hj; rewrite D1 by exact Hj; tauto).
  assert (G00 : forall j, (j < n)%nat -> d0 j = 1 <-> d j = 0) by (intros j Hj; rewrite D0 by exact Hj; split; lra).
  assert (G01 : forall j, (j < n)%nat -> d0 j = 0 <-> d j = 1) by (intros j Hj; rewrite D0 by exact Hj; split; lra).
  pose proof (same_affine n y y (fun _ _ => eq_refl)) as Ay. pose proof (same_affine n d _ D1) as A1. pose proof (mirror_affine n d _ D0) as A0.
  destruct Z as (F & sm & D & Z); [exact (reliable_sound L f g mc rd w O Rl)|apply (seen_everywhere L g mc w n _ _ _ _ (proj2 R1)), Hl0|apply (seen_everywhere L g mc w n _ _ _ _ (proj2 R1)), Hl1|apply (seen_everywhere L g mc w n _ _ _ _ (proj2 R2)), Hl2|exact Hf|].
  destruct Z1 as (F1 & sm1 & Dn1 & Z1); [exact (reliable_sound L f g mc1 rd1 wa1 O1 Rl1)| | | |exact Hf1|].
  { apply (seen_everywhere L g mc1 wa1 _ _ _ _ _ (proj2 R11)); refine (seen_twin L g _ w wa1 n _ 1 0 _ _ _ _ eq_refl T1 Ay _ Hl0); intros j Hj; apply (G1 0 j Hj). }
  { apply (seen_everywhere L g mc1 wa1 _ _ _ _ _ (proj2 R11)); refine (seen_twin L g _ w wa1 n _ 1 0 _ _ _ _ eq_refl T1 Ay _ Hl1); intros j Hj; apply (G1 1 j Hj). }
  { apply (seen_everywhere L g mc1 wa1 _ _ _ _ _ (proj2 R12)); exact (seen_twin L g _ w wa1 n _ _ _ _ _ everyone everyone eq_refl T1 A1 (fun _ _ x => x) Hl2). }
  destruct Z0 as (F0 & sm0 & Dn0 & Z0); [exact (reliable_sound L f g mc0 rd0 wa0 O0 Rl0)| | | |exact Hf0|].
  { apply (seen_everywhere L g mc0 wa0 _ _ _ _ _ (proj2 R01)); refine (seen_twin L g _ w wa0 n _ 1 0 _ _ _ _ eq_refl T0 Ay _ Hl1); intros j Hj; apply (G01 j Hj). }
  { apply (seen_everywhere L g mc0 wa0 _ _ _ _ _ (proj2 R01)); refine (seen_twin L g _ w wa0 n _ 1 0 _ _ _ _ eq_refl T0 Ay _ Hl0); intros j Hj; apply (G00 j Hj). }
  { apply (seen_everywhere L g mc0 wa0 _ _ _ _ _ (proj2 R02)); exact (seen_twin L g _ w wa0 n _ _ _ _ _ everyone everyone eq_refl T0 A0 (fun _ _ x => x) Hl2). }
  assert (Es : m_smpls (w_obj w) = Some sm) by apply D. assert (sm1 = sm) as -> by (assert (m_smpls (w_obj wa1) = Some sm1) by apply Dn1; congruence). assert (sm0 = sm) as -> by (assert (m_smpls (w_obj wa0) = Some sm0) by apply Dn0; congruence).
  exists mc, F, F1, F0, sm. split; [exact R2|]. split; [exact D|]. split; [exact Dn1|]. split; [exact Dn0|].
  intros r fs Hr Q Q1 Q0 Cg1 Cm1 Cg0 Cm0. destruct (Z r fs Hr Q) as (g0 & g1 & m0 & m & Ug0 & Ug1 & Um & Cp & V). destruct (Z1 r fs Hr Q1) as (h1 & q1 & p1 & Uh1 & Uq1 & Cp1 & V1). destruct (Z0 r fs Hr Q0) as (h0 & q0 & p0 & Uh0 & Uq0 & Cp0 & V0).
  assert (Sc : forall i, (i < n)%nat -> covariates fr s dc i = covariates fr s dc i) by reflexivity. assert (Ye : forall i, (i < n)%nat -> y i = y i) by reflexivity.
  pose proof (matched_prediction L f g mc mc1 w wa1 n ext ext1 r 0 0 dc dc "ml_g1" "ml_g_d_lvl1" "ml_g" "ml_g" _ _ _ _ _ _ _ _ fs g1 h1 (proj1 R1) (proj1 R11) (proj2 R1) (proj2 R11) (Rg sm r fs Es Hr) (group_match n _ _ (G1 1)) Sc Ug1 Uh1 Ye Cg1) as E1.
  pose proof (matched_prediction L f g mc mc0 w wa0 n ext ext0 r 0 0 dc dc "ml_g0" "ml_g_d_lvl1" "ml_g" "ml_g" _ _ _ _ _ _ _ _ fs g0 h0 (proj1 R1) (proj1 R01) (proj2 R1) (proj2 R01) (Rg sm r fs Es Hr) (group_match n _ _ G00) Sc Ug0 Uh0 Ye Cg0) as E0.
  pose proof (matched_prediction L f g mc mc1 w wa1 n ext ext1 r 0 0 dc dc "ml_m" "ml_m" "ml_m" "ml_m" _ _ _ _ _ _ _ _ fs m0 q1 (proj1 R2) (proj1 R12) (proj2 R2) (proj2 R12) (Rg sm r fs Es Hr) (whole_match n) Sc Um Uq1 D1 Cm1) as Eq1.
  pose proof (mirrored_prediction L f g mc mc0 w wa0 n ext ext0 r 0 0 dc dc "ml_m" "ml_m" "ml_m" "ml_m" _ _ _ _ _ _ _ _ fs m0 q0 (proj1 R2) (proj1 R02) (proj2 R2) (proj2 R02) (Rg sm r fs Es Hr) (whole_match n) Sc Um Uq0 eq_refl Bi Bg D0 Cm0) as Eq0.
  pose proof (clipped_same n thr _ _ _ _ (same_affine n _ _ Eq1) Cp Cp1) as Em1. pose proof (adjust_ext n _ _ _ _ nm Em1 D1) as Ea1.
  pose proof (clip_mirror n thr _ _ _ _ Th Eq0 Cp Cp0) as Em0. pose proof (adjust_mirror n _ _ _ _ nm Em0 D0) as Ea0.
  exists m0, m. split; [exact Um|]. split; [exact Cp|]. intro Ob. specialize (V Ob).
  assert (Ob1 : forall i, (i < n)%nat -> ps_adjust n p1 d1 nm i <> 0) by (intros i Hi; rewrite (Ea1 i Hi); apply (Ob i Hi)). specialize (V1 Ob1).
  assert (Ob0 : forall i, (i < n)%nat -> ps_adjust n p0 d0 nm i <> 0) by (intros i Hi; rewrite (Ea0 i Hi); destruct (Ob i Hi); lra). specialize (V0 Ob0).
  set (W := weights_of wa r) in *. set (ma := ps_adjust n m d nm) in *. set (ma1 := ps_adjust n p1 d1 nm) in *. set (ma0 := ps_adjust n p0 d0 nm) in *.
  assert (Hs : forall i, (i < n)%nat -> wg W i * (g1 i - g0 i) + resid_weights W i * (d i * (y i - g1 i) / ma i - (1 - d i) * (y i - g0 i) / (1 - ma i)) =
    (wg W i * h1 i + resid_weights W i * (d1 i * (y i - h1 i) / ma1 i)) - (wg W i * h0 i + resid_weights W i * (d0 i * (y i - h0 i) / ma0 i))).
  { intros i Hi. rewrite (D1 i Hi), (D0 i Hi), (Ea1 i Hi), (Ea0 i Hi), (E1 i Hi), (E0 i Hi). destruct (Ob i Hi). field. split; lra. }
  pose proof (eq_trans (meanf_ext n _ _ Hs) (meanf_minus n (fun i => wg W i * h1 i + _) (fun i => wg W i * h0 i + _))) as Ht.
  destruct V as (V & _ & Vp), V1 as (V1 & _ & Vp1), V0 as (V0 & _ & Vp0). unfold difference_of. rewrite V, V1, V0. split; [exact Ht|].
  intros i Hi. rewrite (Vp i Hi), (Vp1 i Hi), (Vp0 i Hi). cbv beta. rewrite (Hs i Hi), Ht. unfold Rdiv. ring.
Qed.

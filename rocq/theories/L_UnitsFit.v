(** Units of measurement: estimates and standard errors of fitted models. *)
From Verif Require Export L_Units.
From Coq Require Import Lia Lra.
Local Open Scope R_scope.
Local Open Scope string_scope.

Lemma plr_units : forall (E P : Type) (L : learner E row P) f g rd rd' fr fr' s s' ml_l ml_m ml_g ml_g' nf nf' nr nr' draw draw' C C' w0 w0' w w' nj nj' store store' ext ext' smod smod' w1 w1' a b,
  let n := M_Data.frows fr in let dcols := M_Data.r_d (M_Data.dd_roles s) in
  S_Data.reachable fr s -> unclustered s -> sound_randomness rd -> (0 < n)%nat -> S_Data.reachable fr' s' -> unclustered s' -> sound_randomness rd' ->
  plr_init L rd fr s ml_l ml_m ml_g nf nr (PStr "partialling out") draw = Ok (C, w0) -> later C w0 w -> reliable L f g rd w ->
  plr_init L rd' fr' s' ml_l ml_m ml_g' nf' nr' (PStr "partialling out") draw' = Ok (C', w0') -> later C' w0' w' -> reliable L f g rd' w' ->
  twins fr s w fr' s' w' -> affine n a b (outcome fr s) (outcome fr' s') -> (forall c, In c dcols -> exists k h, affine n k h (col fr c) (col fr' c)) ->
  (forall c, In c dcols -> labels_seen L g (ly_classifier ml_m) w n (col fr c) everyone) ->
  fit C nj store ext smod w = (w1, Ok tt) -> fit C' nj' store' ext' smod' w' = (w1', Ok tt) ->
  exists mc F F' sm, runs_on mc "ml_m" ml_m (ly_classifier ml_m) /\ fit_done w w1 F sm (length dcols) /\ fit_done w' w1' F' sm (length dcols) /\
    forall r t fs c k h, nth_error sm r = Some fs -> nth_error dcols t = Some c -> same_covariates fr s fr' s' c -> affine n k h (col fr c) (col fr' c) -> k <> 0 ->
      carried L f false ext ext' c "ml_l" r a b -> carried L f (ly_classifier ml_m) ext ext' c "ml_m" r k h ->
      exists m, used_prediction L f g mc w n ext r t c "ml_m" "ml_m" (covariates fr s c) (col fr c) whole_train fs m /\
        (sumf n (fun i => (col fr c i - m i) ^ 2) <> 0 -> rescaled F F' t r (a / k) 0).
Proof.
  intros until b. intros n dcols Re Un Rd Hn Re' Un' Rd' H La Rl H' La' Rl' Tw Hy Hd Hl Hf Hf'.
  destruct Tw as [T1 T2 T3 T4]. assert (Hn' : (0 < M_Data.frows fr')%nat) by (rewrite T1; exact Hn).
  destruct (plr_end E P L f g rd fr s ml_l ml_m ml_g nf nr draw C w0 w nj store ext smod w1 Re Un Rd Hn H La) as (mc & O & R1 & R2 & Z).
  destruct (plr_end E P L f g rd' fr' s' ml_l ml_m ml_g' nf' nr' draw' C' w0' w' nj' store' ext' smod' w1' Re' Un' Rd' Hn' H' La') as (mc' & O' & R1' & R2' & Z'). cbv zeta in Z, Z'.
  assert (Rg : forall sm r fs, m_smpls (w_obj w) = Some sm -> nth_error sm r = Some fs -> forall h j, In h fs -> In j (fst h) -> (j < n)%nat).
  { destruct (plr_made L rd fr s Re Rd _ _ _ _ _ _ _ _ _ H) as (mc0 & bin & Ec & Sr & _). subst C. rewrite (plain_ctx fr s Re _ Un) in *. apply (ranges_of _ w0 w n Sr La); reflexivity. }
  clear H H' La La'.
  destruct Z as (F & sm & D1 & D2 & D3 & D4 & D5 & D6 & Z); [exact (reliable_sound L f g mc rd w O Rl)|apply unseen_everywhere, R1| |exact Hf|].
  { intros c Ic. apply (seen_everywhere L g mc w n "ml_m" _ _ _ (proj2 R2)), Hl, Ic. }
  destruct Z' as (F' & sm' & D1' & D2' & D3' & D4' & D5' & D6' & Z'); [exact (reliable_sound L f g mc' rd' w' O' Rl')|apply unseen_everywhere, R1'| |exact Hf'|].
  { intros c Ic. rewrite T2 in Ic. destruct (Hd c Ic) as (k & h & Ak). apply (seen_everywhere L g mc' w' _ "ml_m" _ _ _ (proj2 R2')). exact (seen_twin L g _ w w' n _ k h _ _ everyone everyone T1 T3 Ak (fun _ _ x => x) (Hl c Ic)). }
  assert (sm' = sm) as -> by congruence. rewrite T2 in D6', Z'. rewrite T1 in Z'. fold n in Z, Z'. fold dcols in D6, D6', Z, Z'.
  exists mc, F, F', sm. split; [exact R2|]. split; [exact (conj D1 (conj D2 (conj D3 (conj D4 (conj D5 D6)))))|]. split; [exact (conj D1' (conj D2' (conj D3' (conj D4' (conj D5' D6')))))|].
  intros r t fs c k h Hr Ht Sc Ak Nk Cl Cm. destruct (Z r t fs c Hr Ht) as (l & m & U1 & U2 & V). destruct (Z' r t fs c Hr Ht) as (l' & m' & U1' & U2' & V').
  pose proof (carried_prediction L f g mc mc' w w' n ext ext' r t c "ml_l" "ml_l" _ _ _ _ _ _ _ _ fs l l' a b (proj1 R1) (proj1 R1') (proj2 R1) (proj2 R1') T4 (Rg sm r fs D4 Hr) (whole_match n) Sc Hy Cl U1 U1') as Al.
  pose proof (carried_prediction L f g mc mc' w w' n ext ext' r t c "ml_m" "ml_m" _ _ _ _ _ _ _ _ fs m m' k h (proj1 R2) (proj1 R2') (proj2 R2) (proj2 R2') T4 (Rg sm r fs D4 Hr) (whole_match n) Sc Ak Cm U2 U2') as Am.
  exists m. split; [exact U2|]. intro N. specialize (V N). destruct V as (V1 & V2).
  assert (J : sumf n (fun i => (col fr' c i - m' i) ^ 2) = k ^ 2 * sumf n (fun i => (col fr c i - m i) ^ 2)).
  { rewrite <- sumf_scal. apply sumf_ext. intros i Hi. rewrite (Ak i Hi), (Am i Hi). ring. }
  assert (J' : sumf n (fun i => (col fr' c i - m' i) * (outcome fr' s' i - l' i)) = k * a * sumf n (fun i => (col fr c i - m i) * (outcome fr s i - l i))).
  { rewrite <- sumf_scal. apply sumf_ext. intros i Hi. rewrite (Ak i Hi), (Am i Hi), (Hy i Hi), (Al i Hi). ring. }
  destruct V' as (V1' & V2'). { rewrite J. apply Rmult_integral_contrapositive_currified; [apply pow_nonzero, Nk|exact N]. }
  rewrite J, J' in V1', V2'. set (S := sumf n (fun i => (col fr c i - m i) ^ 2)) in *. set (T := sumf n (fun i => (col fr c i - m i) * (outcome fr s i - l i))) in *.
  assert (Et : k * a * T / (k ^ 2 * S) = a / k * (T / S)) by (field; auto).
  unfold rescaled. rewrite V1, V2, V1', V2', Et. split; [ring|].
  rewrite (sumf_ext n _ (fun i => (a * k) ^ 2 * ((col fr c i - m i) * (outcome fr s i - l i - T / S * (col fr c i - m i))) ^ 2)).
  2: { intros i Hi. rewrite (Ak i Hi), (Am i Hi), (Hy i Hi), (Al i Hi). field. auto. }
  rewrite sumf_scal, sqrt_mult; [|apply pow2_ge_0|apply sumf_nonneg; intros; apply pow2_ge_0]. rewrite <- (Rsqr_pow2 (a * k)), sqrt_Rsqr_abs. unfold Rdiv. rewrite !Rabs_mult, Rabs_inv.
  rewrite <- (Rsqr_pow2 k), (Rsqr_abs k). unfold Rsqr. field. split; [exact N|apply Rabs_no_R0, Nk].
Qed.

Lemma pliv_units : forall (E P : Type) (L : learner E row P) f g rd rd' fr fr' s s' zc zc' proj proj' ml_l ml_m ml_r ml_g ml_g' nf nf' nr nr' draw draw' C C' w0 w0' w w' nj nj' store store' ext ext' smod smod' w1 w1' a b u v,
  let n := M_Data.frows fr in let dcols := M_Data.r_d (M_Data.dd_roles s) in
  S_Data.reachable fr s -> unclustered s -> sound_randomness rd -> (0 < n)%nat -> S_Data.reachable fr' s' -> unclustered s' -> sound_randomness rd' ->
  M_Data.r_z (M_Data.dd_roles s) = Some [zc] -> M_Data.r_z (M_Data.dd_roles s') = Some [zc'] ->
  pliv_init L rd fr s proj ml_l ml_m ml_r ml_g nf nr (PStr "partialling out") draw = Ok (C, w0) -> later C w0 w -> reliable L f g rd w ->
  pliv_init L rd' fr' s' proj' ml_l ml_m ml_r ml_g' nf' nr' (PStr "partialling out") draw' = Ok (C', w0') -> later C' w0' w' -> reliable L f g rd' w' ->
  twins fr s w fr' s' w' -> affine n a b (outcome fr s) (outcome fr' s') -> affine n u v (col fr zc) (col fr' zc') -> u <> 0 ->
  fit C nj store ext smod w = (w1, Ok tt) -> fit C' nj' store' ext' smod' w' = (w1', Ok tt) ->
  exists mc F F' sm, runs_on mc "ml_m" ml_m false /\ runs_on mc "ml_r" ml_r false /\ fit_done w w1 F sm (length dcols) /\ fit_done w' w1' F' sm (length dcols) /\
    forall r t fs c k h, nth_error sm r = Some fs -> nth_error dcols t = Some c -> same_covariates fr s fr' s' c -> affine n k h (col fr c) (col fr' c) -> k <> 0 ->
      carried L f false ext ext' c "ml_l" r a b -> carried L f false ext ext' c "ml_m" r u v -> carried L f false ext ext' c "ml_r" r k h ->
      exists m q, used_prediction L f g mc w n ext r t c "ml_m" "ml_m" (covariates fr s c) (col fr zc) whole_train fs m /\
        used_prediction L f g mc w n ext r t c "ml_r" "ml_r" (covariates fr s c) (col fr c) whole_train fs q /\
        (sumf n (fun i => (col fr zc i - m i) * (col fr c i - q i)) <> 0 -> rescaled F F' t r (a / k) 0).
Proof.
  intros until v. intros n dcols Re Un Rd Hn Re' Un' Rd' Hz Hz' H La Rl H' La' Rl' Tw Hy Az Nu Hf Hf'.
  destruct Tw as [T1 T2 T3 T4]. assert (Hn' : (0 < M_Data.frows fr')%nat) by (rewrite T1; exact Hn).
  destruct (pliv_end E P L f g rd fr s zc proj ml_l ml_m ml_r ml_g nf nr draw C w0 w nj store ext smod w1 Re Un Rd Hn Hz H La) as (mc & O & R1 & R2 & R3 & Z).
  destruct (pliv_end E P L f g rd' fr' s' zc' proj' ml_l ml_m ml_r ml_g' nf' nr' draw' C' w0' w' nj' store' ext' smod' w1' Re' Un' Rd' Hn' Hz' H' La') as (mc' & O' & R1' & R2' & R3' & Z'). cbv zeta in Z, Z'.
  assert (Rg : forall sm r fs, m_smpls (w_obj w) = Some sm -> nth_error sm r = Some fs -> forall h j, In h fs -> In j (fst h) -> (j < n)%nat).
  { destruct (pliv_made L rd fr s Re Rd _ _ _ _ _ _ _ _ _ _ _ H) as (z0 & more & mc0 & Ez & _ & Ec & Sr & _). rewrite Hz in Ez. injection Ez as <- <-. subst C. rewrite (plain_ctx fr s Re _ Un) in *. apply (ranges_of _ w0 w n Sr La); reflexivity. }
  clear H H' La La'.
  destruct Z as (F & sm & D & Z); [exact (reliable_sound L f g mc rd w O Rl)|apply unseen_everywhere, R1|apply unseen_everywhere, R2|intros; apply unseen_everywhere, R3|exact Hf|].
  destruct Z' as (F' & sm' & D' & Z'); [exact (reliable_sound L f g mc' rd' w' O' Rl')|apply unseen_everywhere, R1'|apply unseen_everywhere, R2'|intros; apply unseen_everywhere, R3'|exact Hf'|].
  assert (Es : m_smpls (w_obj w) = Some sm) by apply D. assert (sm' = sm) as -> by (assert (m_smpls (w_obj w') = Some sm') by apply D'; congruence).
  rewrite T2 in D', Z'. rewrite T1 in Z'. fold n in Z, Z'. fold dcols in D, D', Z, Z'.
  exists mc, F, F', sm. split; [exact R2|]. split; [exact R3|]. split; [exact D|]. split; [exact D'|].
  intros r t fs c k h Hr Ht Sc Ak Nk Cl Cm Cr. destruct (Z r t fs c Hr Ht) as (l & m & q & U1 & U2 & U3 & V). destruct (Z' r t fs c Hr Ht) as (l' & m' & q' & U1' & U2' & U3' & V').
  pose proof (carried_prediction L f g mc mc' w w' n ext ext' r t c "ml_l" "ml_l" _ _ _ _ _ _ _ _ fs l l' a b (proj1 R1) (proj1 R1') (proj2 R1) (proj2 R1') T4 (Rg sm r fs Es Hr) (whole_match n) Sc Hy Cl U1 U1') as Al.
  pose proof (carried_prediction L f g mc mc' w w' n ext ext' r t c "ml_m" "ml_m" _ _ _ _ _ _ _ _ fs m m' u v (proj1 R2) (proj1 R2') (proj2 R2) (proj2 R2') T4 (Rg sm r fs Es Hr) (whole_match n) Sc Az Cm U2 U2') as Am.
  pose proof (carried_prediction L f g mc mc' w w' n ext ext' r t c "ml_r" "ml_r" _ _ _ _ _ _ _ _ fs q q' k h (proj1 R3) (proj1 R3') (proj2 R3) (proj2 R3') T4 (Rg sm r fs Es Hr) (whole_match n) Sc Ak Cr U3 U3') as Aq.
  exists m, q. split; [exact U2|]. split; [exact U3|]. intro N. specialize (V N).
  assert (J : sumf n (fun i => (col fr' zc' i - m' i) * (col fr' c i - q' i)) = u * k * sumf n (fun i => (col fr zc i - m i) * (col fr c i - q i))).
  { rewrite <- sumf_scal. apply sumf_ext. intros i Hi. rewrite (Ak i Hi), (Am i Hi), (Az i Hi), (Aq i Hi). ring. }
  assert (J' : sumf n (fun i => (col fr' zc' i - m' i) * (outcome fr' s' i - l' i)) = u * a * sumf n (fun i => (col fr zc i - m i) * (outcome fr s i - l i))).
  { rewrite <- sumf_scal. apply sumf_ext. intros i Hi. rewrite (Az i Hi), (Am i Hi), (Hy i Hi), (Al i Hi). ring. }
  assert (Nuk : u * k <> 0) by (apply Rmult_integral_contrapositive_currified; assumption).
  assert (N' : sumf n (fun i => (col fr' zc' i - m' i) * (col fr' c i - q' i)) <> 0) by (rewrite J; apply Rmult_integral_contrapositive_currified; assumption).
  specialize (V' N'). assert (Et : u * a * sumf n (fun i => (col fr zc i - m i) * (outcome fr s i - l i)) / (u * k * sumf n (fun i => (col fr zc i - m i) * (col fr c i - q i))) =
    a / k * (sumf n (fun i => (col fr zc i - m i) * (outcome fr s i - l i)) / sumf n (fun i => (col fr zc i - m i) * (col fr c i - q i)))) by (field; auto).
  eapply (scaled_estimate F F' n t r (a / k) 0 _ _ _ _ _ _ (u * k) V V' N Nuk J).
  - rewrite J, J', Et. ring.
  - intros i Hi. cbv beta. rewrite J, J', Et, (Ak i Hi), (Am i Hi), (Az i Hi), (Aq i Hi), (Hy i Hi), (Al i Hi). field. auto.
Qed.

Lemma irm_units : forall (E P : Type) (L : learner E row P) f g rd rd' fr fr' s s' ml_g ml_m wa nm nf nf' nr nr' draw draw' rule rule' thr C C' w0 w0' w w' nj nj' store store' ext ext' smod smod' w1 w1' a b,
  let n := M_Data.frows fr in
  S_Data.reachable fr s -> unclustered s -> sound_randomness rd -> (0 < n)%nat -> S_Data.reachable fr' s' -> unclustered s' -> sound_randomness rd' ->
  irm_init L rd fr s ml_g ml_m nf nr (PStr "ATE") wa (PBool nm) rule (PFloat thr) draw = Ok (C, w0) -> later C w0 w -> reliable L f g rd w ->
  irm_init L rd' fr' s' ml_g ml_m nf' nr' (PStr "ATE") wa (PBool nm) rule' (PFloat thr) draw' = Ok (C', w0') -> later C' w0' w' -> reliable L f g rd' w' ->
  twins fr s w fr' s' w' -> affine n a b (outcome fr s) (outcome fr' s') -> (forall c, In c (M_Data.r_d (M_Data.dd_roles s)) -> affine n 1 0 (col fr c) (col fr' c) /\ same_covariates fr s fr' s' c) ->
  (forall c, In c (M_Data.r_d (M_Data.dd_roles s)) -> labels_seen L g (ly_classifier ml_g) w n (outcome fr s) (fun j => col fr c j = 0) /\ labels_seen L g (ly_classifier ml_g) w n (outcome fr s) (fun j => col fr c j = 1) /\ labels_seen L g true w n (col fr c) everyone) ->
  fit C nj store ext smod w = (w1, Ok tt) -> fit C' nj' store' ext' smod' w' = (w1', Ok tt) ->
  exists dcol mc F F' sm, M_Data.r_d (M_Data.dd_roles s) = [dcol] /\ runs_on mc "ml_m" ml_m true /\ fit_done w w1 F sm 1 /\ fit_done w' w1' F' sm 1 /\
    forall r fs, nth_error sm r = Some fs -> (r < m_n_rep (w_obj w0))%nat -> (r < m_n_rep (w_obj w0'))%nat ->
      carried L f (ly_classifier ml_g) ext ext' dcol "ml_g0" r a b -> carried L f (ly_classifier ml_g) ext ext' dcol "ml_g1" r a b -> carried L f true ext ext' dcol "ml_m" r 1 0 ->
      exists m0 m, used_prediction L f g mc w n ext r 0 dcol "ml_m" "ml_m" (covariates fr s dcol) (col fr dcol) whole_train fs m0 /\ clipped n true thr m0 m /\ (off_bounds n (ps_adjust n m (col fr dcol) nm) -> rescaled F F' 0 r a 0).
Proof.
  intros until b. intros n Re Un Rd Hn Re' Un' Rd' H La Rl H' La' Rl' Tw Hy Hd Hl Hf Hf'.
  destruct Tw as [T1 T2 T3 T4]. assert (Hn' : (0 < M_Data.frows fr')%nat) by (rewrite T1; exact Hn).
  destruct (irm_end E P L f g rd fr s ml_g ml_m nf nr wa nm rule thr draw C w0 w nj store ext smod w1 Re Un Rd Hn H La) as (dc & mc & Bt & O & R1 & R2 & Z).
  destruct (irm_end E P L f g rd' fr' s' ml_g ml_m nf' nr' wa nm rule' thr draw' C' w0' w' nj' store' ext' smod' w1' Re' Un' Rd' Hn' H' La') as (dc' & mc' & Bt' & O' & R1' & R2' & Z'). cbv zeta in Z, Z'.
  assert (Rg : forall sm r fs, m_smpls (w_obj w) = Some sm -> nth_error sm r = Some fs -> forall h j, In h fs -> In j (fst h) -> (j < n)%nat).
  { destruct (irm_made L rd fr s Re Rd _ _ _ _ _ _ _ _ _ _ _ _ H) as (c & mc0 & nm0 & th0 & bo & st & _ & Ec & Sr & _). subst C. rewrite (plain_ctx fr s Re _ Un) in *. apply (ranges_of _ w0 w n Sr La); reflexivity. }
  clear H H' La La'. destruct Bt as (Bd & _), Bt' as (Bd' & _). rewrite T2 in Bd'.
  assert (dc' = dc) as -> by congruence. destruct (Hd dc) as (Ad & Sc); [rewrite Bd; left; reflexivity|]. specialize (Hl dc ltac:(rewrite Bd; left; reflexivity)). pose proof (affine_same _ _ _ Ad) as Ed.
  pose proof Ad as Al. pose proof Ed as El.
  assert (G0 : forall z j, (j < n)%nat -> col fr' dc j = z <-> col fr dc j = z) by (intros z j Hj; rewrite El by exact Hj; tauto).
  destruct Hl as (Hl0 & Hl1 & Hl2).
  destruct Z as (F & sm & D & Z); [exact (reliable_sound L f g mc rd w O Rl)|apply (seen_everywhere L g mc w n _ _ _ _ (proj2 R1)), Hl0|apply (seen_everywhere L g mc w n _ _ _ _ (proj2 R1)), Hl1|apply (seen_everywhere L g mc w n _ _ _ _ (proj2 R2)), Hl2|exact Hf|].
  destruct Z' as (F' & sm' & D' & Z'); [exact (reliable_sound L f g mc' rd' w' O' Rl')|apply (seen_everywhere L g mc' w' _ _ _ _ _ (proj2 R1')); refine (seen_twin L g _ w w' n _ a b _ _ _ _ T1 T3 Hy _ Hl0); intros j Hj; apply (G0 0 j Hj)|apply (seen_everywhere L g mc' w' _ _ _ _ _ (proj2 R1')); refine (seen_twin L g _ w w' n _ a b _ _ _ _ T1 T3 Hy _ Hl1); intros j Hj; apply (G0 1 j Hj)|apply (seen_everywhere L g mc' w' _ _ _ _ _ (proj2 R2')); exact (seen_twin L g _ w w' n _ 1 0 _ _ everyone everyone T1 T3 Al (fun _ _ x => x) Hl2)|exact Hf'|].
  assert (Es : m_smpls (w_obj w) = Some sm) by apply D. assert (sm' = sm) as -> by (assert (m_smpls (w_obj w') = Some sm') by apply D'; congruence).
  rewrite T1 in Z'. fold n in Z, Z'.
  exists dc, mc, F, F', sm. split; [exact Bd|]. split; [exact R2|]. split; [exact D|]. split; [exact D'|].
  intros r fs Hr Q1 Q2 Cg0 Cg1 Cm0. destruct (Z r fs Hr Q1) as (g0 & g1 & m0 & m & Ug0 & Ug1 & Um0 & Cp & V). destruct (Z' r fs Hr Q2) as (g0' & g1' & m0' & m' & Ug0' & Ug1' & Um0' & Cp' & V').
  pose proof (carried_prediction L f g mc mc' w w' n ext ext' r 0 dc "ml_g0" "ml_g" _ _ _ _ _ _ _ _ fs g0 g0' a b (proj1 R1) (proj1 R1') (proj2 R1) (proj2 R1') T4 (Rg sm r fs Es Hr) (group_match n _ _ (G0 0)) Sc Hy Cg0 Ug0 Ug0') as Ag0.
  pose proof (carried_prediction L f g mc mc' w w' n ext ext' r 0 dc "ml_g1" "ml_g" _ _ _ _ _ _ _ _ fs g1 g1' a b (proj1 R1) (proj1 R1') (proj2 R1) (proj2 R1') T4 (Rg sm r fs Es Hr) (group_match n _ _ (G0 1)) Sc Hy Cg1 Ug1 Ug1') as Ag1.
  pose proof (carried_prediction L f g mc mc' w w' n ext ext' r 0 dc "ml_m" "ml_m" _ _ _ _ _ _ _ _ fs m0 m0' 1 0 (proj1 R2) (proj1 R2') (proj2 R2) (proj2 R2') T4 (Rg sm r fs Es Hr) (whole_match n) Sc Ad Cm0 Um0 Um0') as Am0.
  pose proof (clipped_same n thr _ _ _ _ Am0 Cp Cp') as Em. pose proof (adjust_ext n _ _ _ _ nm Em Ed) as Ema.
  exists m0, m. split; [exact Um0|]. split; [exact Cp|]. intro Ob. specialize (V Ob).
  assert (Ob' : off_bounds n (ps_adjust n m' (col fr' dc) nm)) by (intros i Hi; rewrite (Ema i Hi); exact (Ob i Hi)). specialize (V' Ob').
  set (W := weights_of wa r) in *.
  assert (Hs : forall i, (i < n)%nat -> wg W i * (g1' i - g0' i) + resid_weights W i * (col fr' dc i * (outcome fr' s' i - g1' i) / ps_adjust n m' (col fr' dc) nm i - (1 - col fr' dc i) * (outcome fr' s' i - g0' i) / (1 - ps_adjust n m' (col fr' dc) nm i)) =
    a * (wg W i * (g1 i - g0 i) + resid_weights W i * (col fr dc i * (outcome fr s i - g1 i) / ps_adjust n m (col fr dc) nm i - (1 - col fr dc i) * (outcome fr s i - g0 i) / (1 - ps_adjust n m (col fr dc) nm i)))).
  { intros i Hi. rewrite (Ed i Hi), (Ema i Hi), (Hy i Hi), (Ag0 i Hi), (Ag1 i Hi). destruct (Ob i Hi). field. split; [lra|assumption]. }
  pose proof (meanf_ext n _ _ Hs) as Ht. rewrite meanf_scal in Ht.
  eapply (scaled_estimate F F' n 0 r a 0 _ _ _ _ _ _ 1 V V'); [apply not_0_INR; lia|lra|ring|rewrite Ht; ring|].
  intros i Hi. cbv beta. rewrite (Hs i Hi), Ht. unfold Rdiv. ring.
Qed.

Lemma atte_units : forall (E P : Type) (L : learner E row P) f g rd rd' fr fr' s s' ml_g ml_m wa nm nf nf' nr nr' draw draw' rule rule' thr C C' w0 w0' w w' nj nj' store store' ext ext' smod smod' w1 w1' a b,
  let n := M_Data.frows fr in
  S_Data.reachable fr s -> unclustered s -> sound_randomness rd -> (0 < n)%nat -> S_Data.reachable fr' s' -> unclustered s' -> sound_randomness rd' ->
  irm_init L rd fr s ml_g ml_m nf nr (PStr "ATTE") wa (PBool nm) rule (PFloat thr) draw = Ok (C, w0) -> later C w0 w -> reliable L f g rd w ->
  irm_init L rd' fr' s' ml_g ml_m nf' nr' (PStr "ATTE") wa (PBool nm) rule' (PFloat thr) draw' = Ok (C', w0') -> later C' w0' w' -> reliable L f g rd' w' ->
  twins fr s w fr' s' w' -> affine n a b (outcome fr s) (outcome fr' s') -> (forall c, In c (M_Data.r_d (M_Data.dd_roles s)) -> affine n 1 0 (col fr c) (col fr' c) /\ same_covariates fr s fr' s' c) ->
  (forall c, In c (M_Data.r_d (M_Data.dd_roles s)) -> labels_seen L g (ly_classifier ml_g) w n (outcome fr s) (fun j => col fr c j = 0) /\ labels_seen L g (ly_classifier ml_g) w n (outcome fr s) (fun j => col fr c j = 1) /\ labels_seen L g true w n (col fr c) everyone) ->
  fit C nj store ext smod w = (w1, Ok tt) -> fit C' nj' store' ext' smod' w' = (w1', Ok tt) ->
  exists dcol mc F F' sm, M_Data.r_d (M_Data.dd_roles s) = [dcol] /\ runs_on mc "ml_m" ml_m true /\ fit_done w w1 F sm 1 /\ fit_done w' w1' F' sm 1 /\
    forall r fs, nth_error sm r = Some fs -> 
      carried L f (ly_classifier ml_g) ext ext' dcol "ml_g0" r a b -> carried L f true ext ext' dcol "ml_m" r 1 0 ->
      exists m0 m, used_prediction L f g mc w n ext r 0 dcol "ml_m" "ml_m" (covariates fr s dcol) (col fr dcol) whole_train fs m0 /\ clipped n true thr m0 m /\ (sumf n (fun i => wg (weights_of wa r) i * col fr dcol i) <> 0 -> off_bounds n (ps_adjust n m (col fr dcol) nm) -> rescaled F F' 0 r a 0).
Proof.
  intros until b. intros n Re Un Rd Hn Re' Un' Rd' H La Rl H' La' Rl' Tw Hy Hd Hl Hf Hf'.
  destruct Tw as [T1 T2 T3 T4]. assert (Hn' : (0 < M_Data.frows fr')%nat) by (rewrite T1; exact Hn).
  destruct (atte_end E P L f g rd fr s ml_g ml_m nf nr wa nm rule thr draw C w0 w nj store ext smod w1 Re Un Rd Hn H La) as (dc & mc & Bt & O & R1 & R2 & Z).
  destruct (atte_end E P L f g rd' fr' s' ml_g ml_m nf' nr' wa nm rule' thr draw' C' w0' w' nj' store' ext' smod' w1' Re' Un' Rd' Hn' H' La') as (dc' & mc' & Bt' & O' & R1' & R2' & Z'). cbv zeta in Z, Z'.
  assert (Rg : forall sm r fs, m_smpls (w_obj w) = Some sm -> nth_error sm r = Some fs -> forall h j, In h fs -> In j (fst h) -> (j < n)%nat).
  { destruct (irm_made L rd fr s Re Rd _ _ _ _ _ _ _ _ _ _ _ _ H) as (c & mc0 & nm0 & th0 & bo & st & _ & Ec & Sr & _). subst C. rewrite (plain_ctx fr s Re _ Un) in *. apply (ranges_of _ w0 w n Sr La); reflexivity. }
  clear H H' La La'. destruct Bt as (Bd & _), Bt' as (Bd' & _). rewrite T2 in Bd'.
  assert (dc' = dc) as -> by congruence. destruct (Hd dc) as (Ad & Sc); [rewrite Bd; left; reflexivity|]. specialize (Hl dc ltac:(rewrite Bd; left; reflexivity)). pose proof (affine_same _ _ _ Ad) as Ed.
  pose proof Ad as Al. pose proof Ed as El.
  assert (G0 : forall z j, (j < n)%nat -> col fr' dc j = z <-> col fr dc j = z) by (intros z j Hj; rewrite El by exact Hj; tauto).
  destruct Hl as (Hl0 & Hl1 & Hl2).
  destruct Z as (F & sm & D & Z); [exact (reliable_sound L f g mc rd w O Rl)|apply (seen_everywhere L g mc w n _ _ _ _ (proj2 R1)), Hl0|apply (seen_everywhere L g mc w n _ _ _ _ (proj2 R1)), Hl1|apply (seen_everywhere L g mc w n _ _ _ _ (proj2 R2)), Hl2|exact Hf|].
  destruct Z' as (F' & sm' & D' & Z'); [exact (reliable_sound L f g mc' rd' w' O' Rl')|apply (seen_everywhere L g mc' w' _ _ _ _ _ (proj2 R1')); refine (seen_twin L g _ w w' n _ a b _ _ _ _ T1 T3 Hy _ Hl0); intros j Hj; apply (G0 0 j Hj)|apply (seen_everywhere L g mc' w' _ _ _ _ _ (proj2 R1')); refine (seen_twin L g _ w w' n _ a b _ _ _ _ T1 T3 Hy _ Hl1); intros j Hj; apply (G0 1 j Hj)|apply (seen_everywhere L g mc' w' _ _ _ _ _ (proj2 R2')); exact (seen_twin L g _ w w' n _ 1 0 _ _ everyone everyone T1 T3 Al (fun _ _ x => x) Hl2)|exact Hf'|].
  assert (Es : m_smpls (w_obj w) = Some sm) by apply D. assert (sm' = sm) as -> by (assert (m_smpls (w_obj w') = Some sm') by apply D'; congruence).
  rewrite T1 in Z'. fold n in Z, Z'.
  exists dc, mc, F, F', sm. split; [exact Bd|]. split; [exact R2|]. split; [exact D|]. split; [exact D'|].
  intros r fs Hr Cg0 Cm0. destruct (Z r fs Hr) as (g0 & g1 & m0 & m & Ug0 & Ug1 & Um0 & Cp & V). destruct (Z' r fs Hr) as (g0' & g1' & m0' & m' & Ug0' & Ug1' & Um0' & Cp' & V').
  pose proof (carried_prediction L f g mc mc' w w' n ext ext' r 0 dc "ml_g0" "ml_g" _ _ _ _ _ _ _ _ fs g0 g0' a b (proj1 R1) (proj1 R1') (proj2 R1) (proj2 R1') T4 (Rg sm r fs Es Hr) (group_match n _ _ (G0 0)) Sc Hy Cg0 Ug0 Ug0') as Ag0.
  pose proof (carried_prediction L f g mc mc' w w' n ext ext' r 0 dc "ml_m" "ml_m" _ _ _ _ _ _ _ _ fs m0 m0' 1 0 (proj1 R2) (proj1 R2') (proj2 R2) (proj2 R2') T4 (Rg sm r fs Es Hr) (whole_match n) Sc Ad Cm0 Um0 Um0') as Am0.
  pose proof (clipped_same n thr _ _ _ _ Am0 Cp Cp') as Em. pose proof (adjust_ext n _ _ _ _ nm Em Ed) as Ema.
  exists m0, m. split; [exact Um0|]. split; [exact Cp|]. set (W := wg (weights_of wa r)) in *. intros N Ob. specialize (V N Ob).
  assert (Ob' : off_bounds n (ps_adjust n m' (col fr' dc) nm)) by (intros i Hi; rewrite (Ema i Hi); exact (Ob i Hi)).
  assert (J : sumf n (fun i => W i * col fr' dc i) = sumf n (fun i => W i * col fr dc i)) by (apply sumf_ext; intros i Hi; rewrite (Ed i Hi); reflexivity).
  assert (N' : sumf n (fun i => W i * col fr' dc i) <> 0) by (rewrite J; exact N). specialize (V' N' Ob').
  assert (Hs : forall i, (i < n)%nat -> W i * (col fr' dc i * (outcome fr' s' i - g0' i) - (1 - col fr' dc i) * (ps_adjust n m' (col fr' dc) nm i / (1 - ps_adjust n m' (col fr' dc) nm i)) * (outcome fr' s' i - g0' i)) =
    a * (W i * (col fr dc i * (outcome fr s i - g0 i) - (1 - col fr dc i) * (ps_adjust n m (col fr dc) nm i / (1 - ps_adjust n m (col fr dc) nm i)) * (outcome fr s i - g0 i)))).
  { intros i Hi. rewrite (Ed i Hi), (Ema i Hi), (Hy i Hi), (Ag0 i Hi). destruct (Ob i Hi). field. lra. }
  pose proof (sumf_ext n _ _ Hs) as Ht. rewrite sumf_scal in Ht.
  eapply (scaled_estimate F F' n 0 r a 0 _ _ _ _ _ _ 1 V V' N); [lra|rewrite J; ring|rewrite J, Ht; unfold Rdiv; ring|].
  intros i Hi. cbv beta. rewrite (Hs i Hi), J, Ht, (Ed i Hi). unfold Rdiv. ring.
Qed.

Lemma apo_units : forall (E P : Type) (L : learner E row P) f g rd rd' fr fr' s s' ml_g ml_m level score wa nm nf nf' nr nr' draw draw' rule rule' thr C C' w0 w0' w w' nj nj' store store' ext ext' smod smod' w1 w1' a b,
  let n := M_Data.frows fr in
  S_Data.reachable fr s -> unclustered s -> sound_randomness rd -> (0 < n)%nat -> S_Data.reachable fr' s' -> unclustered s' -> sound_randomness rd' ->
  apo_init L rd fr s ml_g ml_m level nf nr score wa (PBool nm) rule (PFloat thr) draw = Ok (C, w0) -> later C w0 w -> reliable L f g rd w ->
  apo_init L rd' fr' s' ml_g ml_m level nf' nr' score wa (PBool nm) rule' (PFloat thr) draw' = Ok (C', w0') -> later C' w0' w' -> reliable L f g rd' w' ->
  twins fr s w fr' s' w' -> affine n a b (outcome fr s) (outcome fr' s') -> (forall c, In c (M_Data.r_d (M_Data.dd_roles s)) -> affine n 1 0 (col fr c) (col fr' c) /\ same_covariates fr s fr' s' c) ->
  (forall c, In c (M_Data.r_d (M_Data.dd_roles s)) -> labels_seen L g (ly_classifier ml_g) w n (outcome fr s) (fun j => at_level level (col fr c) j = 0) /\ labels_seen L g (ly_classifier ml_g) w n (outcome fr s) (fun j => at_level level (col fr c) j = 1) /\ labels_seen L g true w n (at_level level (col fr c)) everyone) ->
  fit C nj store ext smod w = (w1, Ok tt) -> fit C' nj' store' ext' smod' w' = (w1', Ok tt) ->
  exists dcol mc F F' sm, M_Data.r_d (M_Data.dd_roles s) = [dcol] /\ runs_on mc "ml_m" ml_m true /\ fit_done w w1 F sm 1 /\ fit_done w' w1' F' sm 1 /\
    forall r fs, nth_error sm r = Some fs -> (r < m_n_rep (w_obj w0))%nat -> (r < m_n_rep (w_obj w0'))%nat ->
      carried L f (ly_classifier ml_g) ext ext' dcol "ml_g_d_lvl1" r a b -> carried L f true ext ext' dcol "ml_m" r 1 0 ->
      exists m0 m, used_prediction L f g mc w n ext r 0 dcol "ml_m" "ml_m" (covariates fr s dcol) (at_level level (col fr dcol)) whole_train fs m0 /\ clipped n true thr m0 m /\
        ((forall i, (i < n)%nat -> ps_adjust n m (at_level level (col fr dcol)) nm i <> 0) -> meanf n (wg (weights_of wa r)) <> 0 -> rescaled F F' 0 r a (b * meanf n (wg (weights_of wa r)))).
Proof.
  intros until b. intros n Re Un Rd Hn Re' Un' Rd' H La Rl H' La' Rl' Tw Hy Hd Hl Hf Hf'.
  destruct Tw as [T1 T2 T3 T4]. assert (Hn' : (0 < M_Data.frows fr')%nat) by (rewrite T1; exact Hn).
  destruct (apo_end E P L f g rd fr s ml_g ml_m level nf nr score wa nm rule thr draw C w0 w nj store ext smod w1 Re Un Rd Hn H La) as (dc & mc & Bt & O & R1 & R2 & Z).
  destruct (apo_end E P L f g rd' fr' s' ml_g ml_m level nf' nr' score wa nm rule' thr draw' C' w0' w' nj' store' ext' smod' w1' Re' Un' Rd' Hn' H' La') as (dc' & mc' & Bt' & O' & R1' & R2' & Z'). cbv zeta in Z, Z'.
  assert (Rg : forall sm r fs, m_smpls (w_obj w) = Some sm -> nth_error sm r = Some fs -> forall h j, In h fs -> In j (fst h) -> (j < n)%nat).
  { destruct (apo_made L rd fr s Re Rd _ _ _ _ _ _ _ _ _ _ _ _ _ H) as (c & mc0 & nm0 & th0 & bo & st & _ & Ec & Sr & _). subst C. rewrite (plain_ctx fr s Re _ Un) in *. apply (ranges_of _ w0 w n Sr La); reflexivity. }
  clear H H' La La'. rename Bt into Bd. rename Bt' into Bd'. rewrite T2 in Bd'.
  assert (dc' = dc) as -> by congruence. destruct (Hd dc) as (Ad & Sc); [rewrite Bd; left; reflexivity|]. specialize (Hl dc ltac:(rewrite Bd; left; reflexivity)). pose proof (affine_same _ _ _ Ad) as Ed.
  assert (El : forall i, (i < n)%nat -> at_level level (col fr' dc) i = at_level level (col fr dc) i) by (intros i Hi; unfold at_level; rewrite (Ed i Hi); reflexivity).
  assert (Al : affine n 1 0 (at_level level (col fr dc)) (at_level level (col fr' dc))) by (intros i Hi; rewrite (El i Hi); ring).
  assert (G0 : forall z j, (j < n)%nat -> at_level level (col fr' dc) j = z <-> at_level level (col fr dc) j = z) by (intros z j Hj; rewrite El by exact Hj; tauto).
  destruct Hl as (Hl0 & Hl1 & Hl2).
  destruct Z as (F & sm & D & Z); [exact (reliable_sound L f g mc rd w O Rl)|apply (seen_everywhere L g mc w n _ _ _ _ (proj2 R1)), Hl0|apply (seen_everywhere L g mc w n _ _ _ _ (proj2 R1)), Hl1|apply (seen_everywhere L g mc w n _ _ _ _ (proj2 R2)), Hl2|exact Hf|].
  destruct Z' as (F' & sm' & D' & Z'); [exact (reliable_sound L f g mc' rd' w' O' Rl')|apply (seen_everywhere L g mc' w' _ _ _ _ _ (proj2 R1')); refine (seen_twin L g _ w w' n _ a b _ _ _ _ T1 T3 Hy _ Hl0); intros j Hj; apply (G0 0 j Hj)|apply (seen_everywhere L g mc' w' _ _ _ _ _ (proj2 R1')); refine (seen_twin L g _ w w' n _ a b _ _ _ _ T1 T3 Hy _ Hl1); intros j Hj; apply (G0 1 j Hj)|apply (seen_everywhere L g mc' w' _ _ _ _ _ (proj2 R2')); exact (seen_twin L g _ w w' n _ 1 0 _ _ everyone everyone T1 T3 Al (fun _ _ x => x) Hl2)|exact Hf'|].
  assert (Es : m_smpls (w_obj w) = Some sm) by apply D. assert (sm' = sm) as -> by (assert (m_smpls (w_obj w') = Some sm') by apply D'; congruence).
  rewrite T1 in Z'. fold n in Z, Z'.
  exists dc, mc, F, F', sm. split; [exact Bd|]. split; [exact R2|]. split; [exact D|]. split; [exact D'|].
  intros r fs Hr Q1 Q2 Cg1 Cm0. destruct (Z r fs Hr Q1) as (g1 & m0 & m & Ug1 & Um0 & Cp & V). destruct (Z' r fs Hr Q2) as (g1' & m0' & m' & Ug1' & Um0' & Cp' & V').
  pose proof (carried_prediction L f g mc mc' w w' n ext ext' r 0 dc "ml_g_d_lvl1" "ml_g" _ _ _ _ _ _ _ _ fs g1 g1' a b (proj1 R1) (proj1 R1') (proj2 R1) (proj2 R1') T4 (Rg sm r fs Es Hr) (group_match n _ _ (G0 1)) Sc Hy Cg1 Ug1 Ug1') as Ag1.
  pose proof (carried_prediction L f g mc mc' w w' n ext ext' r 0 dc "ml_m" "ml_m" _ _ _ _ _ _ _ _ fs m0 m0' 1 0 (proj1 R2) (proj1 R2') (proj2 R2) (proj2 R2') T4 (Rg sm r fs Es Hr) (whole_match n) Sc Al Cm0 Um0 Um0') as Am0.
  pose proof (clipped_same n thr _ _ _ _ Am0 Cp Cp') as Em. pose proof (adjust_ext n _ _ _ _ nm Em El) as Ema.
  exists m0, m. split; [exact Um0|]. split; [exact Cp|]. intros Ob Nw. specialize (V Ob).
  assert (Ob' : forall i, (i < n)%nat -> ps_adjust n m' (at_level level (col fr' dc)) nm i <> 0) by (intros i Hi; rewrite (Ema i Hi); exact (Ob i Hi)). specialize (V' Ob').
  set (W := weights_of wa r) in *.
  assert (Hs : forall i, (i < n)%nat -> wg W i * g1' i + resid_weights W i * (at_level level (col fr' dc) i * (outcome fr' s' i - g1' i) / ps_adjust n m' (at_level level (col fr' dc)) nm i) =
    a * (wg W i * g1 i + resid_weights W i * (at_level level (col fr dc) i * (outcome fr s i - g1 i) / ps_adjust n m (at_level level (col fr dc)) nm i)) + b * wg W i).
  { intros i Hi. rewrite (El i Hi), (Ema i Hi), (Hy i Hi), (Ag1 i Hi). pose proof (Ob i Hi). field. assumption. }
  pose proof (eq_trans (meanf_ext n _ _ Hs) (meanf_plus n (fun i => a * _) (fun i => b * wg W i))) as Ht. rewrite (meanf_scal n a), (meanf_scal n b) in Ht.
  eapply (scaled_estimate F F' n 0 r a (b * meanf n (wg W)) _ _ _ _ _ _ 1 V V'); [apply not_0_INR; lia|lra|ring|rewrite Ht; ring|].
  intros i Hi. cbv beta. rewrite (Hs i Hi), Ht. field. split; [exact Nw|exact (Ob i Hi)].
Qed.

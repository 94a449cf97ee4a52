(** Units of measurement: difference-in-differences and interactive instrumental variable models. *)
From Verif Require Export L_UnitsFit.
From Coq Require Import Lia Lra.
Local Open Scope R_scope.
Local Open Scope string_scope.

Lemma did_units : forall (E P : Type) (L : learner E row P) f g rd rd' fr fr' s s' ml_g ml_m nm nf nf' nr nr' draw draw' rule rule' thr C C' w0 w0' w w' nj nj' store store' ext ext' smod smod' w1 w1' a b,
  let n := M_Data.frows fr in
  S_Data.reachable fr s -> unclustered s -> sound_randomness rd -> (0 < n)%nat -> S_Data.reachable fr' s' -> unclustered s' -> sound_randomness rd' ->
  did_init L rd fr s ml_g (Some ml_m) nf nr (PStr "observational") (PBool nm) rule (PFloat thr) draw = Ok (C, w0) -> later C w0 w -> reliable L f g rd w ->
  did_init L rd' fr' s' ml_g (Some ml_m) nf' nr' (PStr "observational") (PBool nm) rule' (PFloat thr) draw' = Ok (C', w0') -> later C' w0' w' -> reliable L f g rd' w' ->
  twins fr s w fr' s' w' -> affine n a b (outcome fr s) (outcome fr' s') -> (forall c, In c (M_Data.r_d (M_Data.dd_roles s)) -> affine n 1 0 (col fr c) (col fr' c) /\ same_covariates fr s fr' s' c) ->
  (forall c, In c (M_Data.r_d (M_Data.dd_roles s)) -> labels_seen L g (ly_classifier ml_g) w n (outcome fr s) (fun j => col fr c j = 0) /\ labels_seen L g (ly_classifier ml_g) w n (outcome fr s) (fun j => col fr c j = 1) /\ labels_seen L g true w n (col fr c) everyone) ->
  fit C nj store ext smod w = (w1, Ok tt) -> fit C' nj' store' ext' smod' w' = (w1', Ok tt) ->
  exists dcol mc F F' sm, M_Data.r_d (M_Data.dd_roles s) = [dcol] /\ runs_on mc "ml_m" ml_m true /\ fit_done w w1 F sm 1 /\ fit_done w' w1' F' sm 1 /\
    forall r fs, nth_error sm r = Some fs -> carried L f (ly_classifier ml_g) ext ext' dcol "ml_g0" r a b -> carried L f true ext ext' dcol "ml_m" r 1 0 ->
      exists m0 m p, used_prediction L f g mc w n ext r 0 dcol "ml_m" "ml_m" (covariates fr s dcol) (col fr dcol) whole_train fs m0 /\ clipped n true thr m0 m /\ share_of fs (col fr dcol) p /\
        (share_ok n nm (col fr dcol) p -> share_ok n nm (fun i => (1 - col fr dcol i) * (m i / (1 - m i))) p -> sumf n (share_weight n nm (col fr dcol) p) <> 0 -> rescaled F F' 0 r a 0).
Proof.
  intros until b. intros n Re Un Rd Hn Re' Un' Rd' H La Rl H' La' Rl' Tw Hy Hd Hl Hf Hf'.
  destruct Tw as [T1 T2 T3 T4]. assert (Hn' : (0 < M_Data.frows fr')%nat) by (rewrite T1; exact Hn).
  destruct (did_obs_end E P L f g rd fr s ml_g _ nf nr nm rule thr draw C w0 w nj store ext smod w1 Re Un Rd Hn H La) as (dc & mc & Bt & O & R1 & (lm & Q & R2) & Z). injection Q as <-.
  destruct (did_obs_end E P L f g rd' fr' s' ml_g _ nf' nr' nm rule' thr draw' C' w0' w' nj' store' ext' smod' w1' Re' Un' Rd' Hn' H' La') as (dc' & mc' & Bt' & O' & R1' & (lm & Q & R2') & Z'). injection Q as <-. cbv zeta in Z, Z'.
  assert (Rg : (forall sm r fs, m_smpls (w_obj w) = Some sm -> nth_error sm r = Some fs -> forall h j, In h fs -> In j (fst h) -> (j < n)%nat) /\ (forall sm r fs, m_smpls (w_obj w) = Some sm -> nth_error sm r = Some fs -> partition_of n fs)).
  { destruct (did_made L rd fr s Re Rd _ _ _ _ _ _ _ _ _ _ _ H) as (c & mc0 & nm0 & th0 & st & _ & Ec & Sr & _). subst C. rewrite (plain_ctx fr s Re _ Un) in *. split; [apply (ranges_of _ w0 w n Sr La)|apply (partition_reached _ w0 w n Sr La)]; reflexivity. }
  destruct Rg as (Rg & Pt). clear H H' La La'. destruct Bt as (Bd & _), Bt' as (Bd' & _). rewrite T2 in Bd'.
  assert (dc' = dc) as -> by congruence. destruct (Hd dc) as (Ad & Sc); [rewrite Bd; left; reflexivity|]. specialize (Hl dc ltac:(rewrite Bd; left; reflexivity)). pose proof (affine_same _ _ _ Ad) as Ed.
  assert (G0 : forall z j, (j < n)%nat -> col fr' dc j = z <-> col fr dc j = z) by (intros z j Hj; rewrite Ed by exact Hj; tauto).
  destruct Hl as (Hl0 & Hl1 & Hl2).
  destruct Z as (F & sm & D & Z); [exact (reliable_sound L f g mc rd w O Rl)|apply (seen_everywhere L g mc w n _ _ _ _ (proj2 R1)), Hl0|apply (seen_everywhere L g mc w n _ _ _ _ (proj2 R1)), Hl1|apply (seen_everywhere L g mc w n _ _ _ _ (proj2 R2)), Hl2|exact Hf|].
  destruct Z' as (F' & sm' & D' & Z'); [exact (reliable_sound L f g mc' rd' w' O' Rl')| | | |exact Hf'|].
  { apply (seen_everywhere L g mc' w' _ _ _ _ _ (proj2 R1')); refine (seen_twin L g _ w w' n _ a b _ _ _ _ T1 T3 Hy _ Hl0); intros j Hj; apply (G0 0 j Hj). }
  { apply (seen_everywhere L g mc' w' _ _ _ _ _ (proj2 R1')); refine (seen_twin L g _ w w' n _ a b _ _ _ _ T1 T3 Hy _ Hl1); intros j Hj; apply (G0 1 j Hj). }
  { apply (seen_everywhere L g mc' w' _ _ _ _ _ (proj2 R2')); exact (seen_twin L g _ w w' n _ 1 0 _ _ everyone everyone T1 T3 Ad (fun _ _ x => x) Hl2). }
  assert (Es : m_smpls (w_obj w) = Some sm) by apply D. assert (sm' = sm) as -> by (assert (m_smpls (w_obj w') = Some sm') by apply D'; congruence).
  rewrite T1 in Z'. fold n in Z, Z'.
  exists dc, mc, F, F', sm. split; [exact Bd|]. split; [exact R2|]. split; [exact D|]. split; [exact D'|].
  intros r fs Hr Cg0 Cm0. destruct (Z r fs Hr) as (g0 & m0 & m & p & Ug0 & Um0 & Cp & Sh & V). destruct (Z' r fs Hr) as (g0' & m0' & m' & p' & Ug0' & Um0' & Cp' & Sh' & V').
  pose proof (carried_prediction L f g mc mc' w w' n ext ext' r 0 dc "ml_g0" "ml_g" _ _ _ _ _ _ _ _ fs g0 g0' a b (proj1 R1) (proj1 R1') (proj2 R1) (proj2 R1') T4 (Rg sm r fs Es Hr) (group_match n _ _ (G0 0)) Sc Hy Cg0 Ug0 Ug0') as Ag0.
  pose proof (carried_prediction L f g mc mc' w w' n ext ext' r 0 dc "ml_m" "ml_m" _ _ _ _ _ _ _ _ fs m0 m0' 1 0 (proj1 R2) (proj1 R2') (proj2 R2) (proj2 R2') T4 (Rg sm r fs Es Hr) (whole_match n) Sc Ad Cm0 Um0 Um0') as Am0.
  pose proof (clipped_same n thr _ _ _ _ Am0 Cp Cp') as Em. pose proof (share_same n fs _ _ _ _ (Pt sm r fs Es Hr) (Rg sm r fs Es Hr) Ed Sh Sh') as Ep.
  destruct (share_weight_ext n nm _ _ _ _ Ed Ep) as (Wa & Oa).
  destruct (share_weight_ext n nm (fun i => (1 - col fr dc i) * (m i / (1 - m i))) (fun i => (1 - col fr' dc i) * (m' i / (1 - m' i))) p p' ltac:(intros i Hi; cbv beta; rewrite (Ed i Hi), (Em i Hi); reflexivity) Ep) as (Wo & Oo).
  exists m0, m, p. split; [exact Um0|]. split; [exact Cp|]. split; [exact Sh|]. intros K1 K2 N. specialize (V K1 K2 N).
  pose proof (sumf_ext n _ _ Wa) as J. assert (N' : sumf n (share_weight n nm (col fr' dc) p') <> 0) by (rewrite J; exact N). specialize (V' (Oa K1) (Oo K2) N').
  assert (Hs : forall i, (i < n)%nat -> (share_weight n nm (col fr' dc) p' i - share_weight n nm (fun i => (1 - col fr' dc i) * (m' i / (1 - m' i))) p' i) * (outcome fr' s' i - g0' i) =
    a * ((share_weight n nm (col fr dc) p i - share_weight n nm (fun i => (1 - col fr dc i) * (m i / (1 - m i))) p i) * (outcome fr s i - g0 i))).
  { intros i Hi. rewrite (Wa i Hi), (Wo i Hi), (Hy i Hi), (Ag0 i Hi). ring. }
  pose proof (sumf_ext n _ _ Hs) as Ht. rewrite sumf_scal in Ht.
  eapply (scaled_estimate F F' n 0 r a 0 _ _ _ _ _ _ 1 V V' N); [lra|rewrite J; ring|rewrite J, Ht; unfold Rdiv; ring|].
  intros i Hi. cbv beta. rewrite (Hs i Hi), J, Ht, (Wa i Hi). unfold Rdiv. ring.
Qed.

Lemma subgroups_fun sg a b a' b' : subgroups_are sg a b -> subgroups_are sg a' b' -> a' = a /\ b' = b.
Proof. destruct sg as [|l|]; cbn; [intros (-> & ->) (-> & ->); auto|intros (A & B) (C & D); split; congruence|tauto]. Qed.
Lemma iivm_units : forall (E P : Type) (L : learner E row P) f g rd rd' fr fr' s s' ml_g ml_m ml_r score score' sg nm nf nf' nr nr' draw draw' rule rule' thr C C' w0 w0' w w' nj nj' store store' ext ext' smod smod' w1 w1' a b,
  let n := M_Data.frows fr in
  S_Data.reachable fr s -> unclustered s -> sound_randomness rd -> (0 < n)%nat -> S_Data.reachable fr' s' -> unclustered s' -> sound_randomness rd' ->
  iivm_init L rd fr s ml_g ml_m ml_r nf nr score sg (PBool nm) rule (PFloat thr) draw = Ok (C, w0) -> later C w0 w -> reliable L f g rd w ->
  iivm_init L rd' fr' s' ml_g ml_m ml_r nf' nr' score' sg (PBool nm) rule' (PFloat thr) draw' = Ok (C', w0') -> later C' w0' w' -> reliable L f g rd' w' ->
  twins fr s w fr' s' w' -> affine n a b (outcome fr s) (outcome fr' s') -> (forall c, In c (M_Data.r_d (M_Data.dd_roles s)) -> affine n 1 0 (col fr c) (col fr' c) /\ same_covariates fr s fr' s' c) ->
  M_Data.r_z (M_Data.dd_roles s') = M_Data.r_z (M_Data.dd_roles s) -> (forall z, M_Data.r_z (M_Data.dd_roles s) = Some [z] -> affine n 1 0 (col fr z) (col fr' z)) ->
  (forall c z v, M_Data.r_d (M_Data.dd_roles s) = [c] -> M_Data.r_z (M_Data.dd_roles s) = Some [z] -> v = 0 \/ v = 1 ->
    labels_seen L g (ly_classifier ml_g) w n (outcome fr s) (fun j => col fr z j = v) /\ labels_seen L g true w n (col fr z) everyone) ->
  (forall c z v at1 nt1, M_Data.r_d (M_Data.dd_roles s) = [c] -> M_Data.r_z (M_Data.dd_roles s) = Some [z] -> subgroups_are sg at1 nt1 -> v = 0 /\ at1 = true \/ v = 1 /\ nt1 = true ->
    labels_seen L g true w n (col fr c) (fun j => col fr z j = v)) ->
  fit C nj store ext smod w = (w1, Ok tt) -> fit C' nj' store' ext' smod' w' = (w1', Ok tt) ->
  exists dcol zcol mc at1 nt1 F F' sm, M_Data.r_d (M_Data.dd_roles s) = [dcol] /\ M_Data.r_z (M_Data.dd_roles s) = Some [zcol] /\ runs_on mc "ml_m" ml_m true /\ runs_on mc "ml_r" ml_r true /\ subgroups_are sg at1 nt1 /\
    fit_done w w1 F sm 1 /\ fit_done w' w1' F' sm 1 /\
    forall r fs, nth_error sm r = Some fs -> let x := covariates fr s dcol in let d := col fr dcol in let z := col fr zcol in
      (forall k, k = "ml_g0" \/ k = "ml_g1" -> carried L f (ly_classifier ml_g) ext ext' dcol k r a b) -> (forall k, k = "ml_m" \/ k = "ml_r0" \/ k = "ml_r1" -> carried L f true ext ext' dcol k r 1 0) ->
      exists m0 m r0 r1, used_prediction L f g mc w n ext r 0 dcol "ml_m" "ml_m" x z whole_train fs m0 /\ clipped n true thr m0 m /\
        (if at1 then used_prediction L f g mc w n ext r 0 dcol "ml_r0" "ml_r" x d (group_rows n (fun j => z j = 0)) fs r0 else forall i, (i < n)%nat -> r0 i = 0) /\
        (if nt1 then used_prediction L f g mc w n ext r 0 dcol "ml_r1" "ml_r" x d (group_rows n (fun j => z j = 1)) fs r1 else forall i, (i < n)%nat -> r1 i = 1) /\
        (off_bounds n (iivm_adjust n nm d m) -> sumf n (dr_signal d z r0 r1 (iivm_adjust n nm d m)) <> 0 -> rescaled F F' 0 r a 0).
Proof.
  intros until b. intros n Re Un Rd Hn Re' Un' Rd' H La Rl H' La' Rl' Tw Hy Hd Hrz Hz Hl Hlr Hf Hf'.
  destruct Tw as [T1 T2 T3 T4]. assert (Hn' : (0 < M_Data.frows fr')%nat) by (rewrite T1; exact Hn).
  destruct (iivm_end E P L f g rd fr s ml_g ml_m ml_r nf nr score sg nm rule thr draw C w0 w nj store ext smod w1 Re Un Rd Hn H La) as (dc & zc & mc & a1 & n1 & Bt & Bz & _ & O & R1 & R2 & R3 & Sg & Z).
  destruct (iivm_end E P L f g rd' fr' s' ml_g ml_m ml_r nf' nr' score' sg nm rule' thr draw' C' w0' w' nj' store' ext' smod' w1' Re' Un' Rd' Hn' H' La') as (dc' & zc' & mc' & a1' & n1' & Bt' & Bz' & _ & O' & R1' & R2' & R3' & Sg' & Z'). cbv zeta in Z, Z'.
  assert (Rg : forall sm r fs, m_smpls (w_obj w) = Some sm -> nth_error sm r = Some fs -> forall h j, In h fs -> In j (fst h) -> (j < n)%nat).
  { destruct (iivm_made L rd fr s Re Rd _ _ _ _ _ _ _ _ _ _ _ _ _ H) as (c & z0 & mc0 & nm0 & th0 & bo & a2 & n2 & st & _ & _ & _ & Ec & Sr & _). subst C. rewrite (plain_ctx fr s Re _ Un) in *. apply (ranges_of _ w0 w n Sr La); reflexivity. }
  clear H H' La La'. destruct Bt as (Bd & _), Bt' as (Bd' & _). rewrite T2 in Bd'. rewrite Hrz in Bz'.
  assert (dc' = dc) as -> by congruence. assert (zc' = zc) as -> by congruence. destruct (subgroups_fun _ _ _ _ _ Sg Sg') as (-> & ->).
  destruct (Hd dc) as (Ad & Sc); [rewrite Bd; left; reflexivity|]. pose proof (fun v => Hl dc zc v Bd Bz) as Hv. pose proof (fun v => Hlr dc zc v a1 n1 Bd Bz Sg) as Hw. specialize (Hz zc Bz). pose proof (affine_same _ _ _ Ad) as Ed. pose proof (affine_same _ _ _ Hz) as Ez.
  assert (G0 : forall z j, (j < n)%nat -> col fr' zc j = z <-> col fr zc j = z) by (intros z j Hj; rewrite Ez by exact Hj; tauto).
  destruct Z as (F & sm & D & Z); [exact (reliable_sound L f g mc rd w O Rl)|intros v Qv; apply (seen_everywhere L g mc w n _ _ _ _ (proj2 R1)), (Hv v Qv)|apply (seen_everywhere L g mc w n _ _ _ _ (proj2 R2)), (Hv 0); left; reflexivity|intros v Qv; apply (seen_everywhere L g mc w n _ _ _ _ (proj2 R3)), (Hw v Qv)|exact Hf|].
  destruct Z' as (F' & sm' & D' & Z'); [exact (reliable_sound L f g mc' rd' w' O' Rl')| | | |exact Hf'|].
  { intros v Qv. apply (seen_everywhere L g mc' w' _ _ _ _ _ (proj2 R1')); refine (seen_twin L g _ w w' n _ a b _ _ _ _ T1 T3 Hy _ (proj1 (Hv v Qv))); intros j Hj; apply (G0 v j Hj). }
  { apply (seen_everywhere L g mc' w' _ _ _ _ _ (proj2 R2')); exact (seen_twin L g _ w w' n _ 1 0 _ _ everyone everyone T1 T3 Hz (fun _ _ x => x) (proj2 (Hv 0 (or_introl eq_refl)))). }
  { intros v Qv. apply (seen_everywhere L g mc' w' _ _ _ _ _ (proj2 R3')); refine (seen_twin L g _ w w' n _ 1 0 _ _ _ _ T1 T3 Ad _ (Hw v Qv)); intros j Hj; apply (G0 v j Hj). }
  assert (Es : m_smpls (w_obj w) = Some sm) by apply D. assert (sm' = sm) as -> by (assert (m_smpls (w_obj w') = Some sm') by apply D'; congruence).
  rewrite T1 in Z'. fold n in Z, Z'.
  exists dc, zc, mc, a1, n1, F, F', sm. split; [exact Bd|]. split; [exact Bz|]. split; [exact R2|]. split; [exact R3|]. split; [exact Sg|]. split; [exact D|]. split; [exact D'|].
  intros r fs Hr x d z Cg Cm. destruct (Z r fs Hr) as (g0 & g1 & m0 & m & r0 & r1 & Ug0 & Ug1 & Um0 & Cp & Ur0 & Ur1 & V). destruct (Z' r fs Hr) as (g0' & g1' & m0' & m' & r0' & r1' & Ug0' & Ug1' & Um0' & Cp' & Ur0' & Ur1' & V').
  pose proof (carried_prediction L f g mc mc' w w' n ext ext' r 0 dc "ml_g0" "ml_g" _ _ _ _ _ _ _ _ fs g0 g0' a b (proj1 R1) (proj1 R1') (proj2 R1) (proj2 R1') T4 (Rg sm r fs Es Hr) (group_match n _ _ (G0 0)) Sc Hy (Cg "ml_g0" (or_introl eq_refl)) Ug0 Ug0') as Ag0.
  pose proof (carried_prediction L f g mc mc' w w' n ext ext' r 0 dc "ml_g1" "ml_g" _ _ _ _ _ _ _ _ fs g1 g1' a b (proj1 R1) (proj1 R1') (proj2 R1) (proj2 R1') T4 (Rg sm r fs Es Hr) (group_match n _ _ (G0 1)) Sc Hy (Cg "ml_g1" (or_intror eq_refl)) Ug1 Ug1') as Ag1.
  pose proof (carried_prediction L f g mc mc' w w' n ext ext' r 0 dc "ml_m" "ml_m" _ _ _ _ _ _ _ _ fs m0 m0' 1 0 (proj1 R2) (proj1 R2') (proj2 R2) (proj2 R2') T4 (Rg sm r fs Es Hr) (whole_match n) Sc Hz (Cm "ml_m" (or_introl eq_refl)) Um0 Um0') as Am0.
  assert (Er0 : forall i, (i < n)%nat -> r0' i = r0 i).
  { destruct a1; [|intros i Hi; rewrite (Ur0 i Hi); exact (Ur0' i Hi)]. apply affine_same. exact (carried_prediction L f g mc mc' w w' n ext ext' r 0 dc "ml_r0" "ml_r" _ _ _ _ _ _ _ _ fs r0 r0' 1 0 (proj1 R3) (proj1 R3') (proj2 R3) (proj2 R3') T4 (Rg sm r fs Es Hr) (group_match n _ _ (G0 0)) Sc Ad (Cm "ml_r0" (or_intror (or_introl eq_refl))) Ur0 Ur0'). }
  assert (Er1 : forall i, (i < n)%nat -> r1' i = r1 i).
  { destruct n1; [|intros i Hi; rewrite (Ur1 i Hi); exact (Ur1' i Hi)]. apply affine_same. exact (carried_prediction L f g mc mc' w w' n ext ext' r 0 dc "ml_r1" "ml_r" _ _ _ _ _ _ _ _ fs r1 r1' 1 0 (proj1 R3) (proj1 R3') (proj2 R3) (proj2 R3') T4 (Rg sm r fs Es Hr) (group_match n _ _ (G0 1)) Sc Ad (Cm "ml_r1" (or_intror (or_intror eq_refl))) Ur1 Ur1'). }
  pose proof (clipped_same n thr _ _ _ _ Am0 Cp Cp') as Em. pose proof (adjust_ext n _ _ _ _ nm Em Ed : forall i, (i < n)%nat -> iivm_adjust n nm (col fr' dc) m' i = iivm_adjust n nm (col fr dc) m i) as Ema.
  exists m0, m, r0, r1. split; [exact Um0|]. split; [exact Cp|]. split; [exact Ur0|]. split; [exact Ur1|]. subst x d z. intros Ob N. specialize (V Ob N).
  assert (Ob' : off_bounds n (iivm_adjust n nm (col fr' dc) m')) by (intros i Hi; rewrite (Ema i Hi); exact (Ob i Hi)).
  assert (Hs : forall i, (i < n)%nat -> dr_signal (outcome fr' s') (col fr' zc) g0' g1' (iivm_adjust n nm (col fr' dc) m') i = a * dr_signal (outcome fr s) (col fr zc) g0 g1 (iivm_adjust n nm (col fr dc) m) i).
  { intros i Hi. unfold dr_signal, dr_level, compl. rewrite (Ez i Hi), (Ema i Hi), (Hy i Hi), (Ag0 i Hi), (Ag1 i Hi). destruct (Ob i Hi). field. split; [lra|assumption]. }
  assert (Hq : forall i, (i < n)%nat -> dr_signal (col fr' dc) (col fr' zc) r0' r1' (iivm_adjust n nm (col fr' dc) m') i = dr_signal (col fr dc) (col fr zc) r0 r1 (iivm_adjust n nm (col fr dc) m) i).
  { intros i Hi. unfold dr_signal, dr_level, compl. rewrite (Ez i Hi), (Ema i Hi), (Ed i Hi), (Er0 i Hi), (Er1 i Hi). reflexivity. }
  pose proof (sumf_ext n _ _ Hq) as J. assert (N' : sumf n (dr_signal (col fr' dc) (col fr' zc) r0' r1' (iivm_adjust n nm (col fr' dc) m')) <> 0) by (rewrite J; exact N). specialize (V' Ob' N').
  pose proof (sumf_ext n _ _ Hs) as Ht. rewrite sumf_scal in Ht.
  eapply (scaled_estimate F F' n 0 r a 0 _ _ _ _ _ _ 1 V V' N); [lra|rewrite J; ring|rewrite J, Ht; unfold Rdiv; ring|].
  intros i Hi. cbv beta. rewrite (Hs i Hi), (Hq i Hi), J, Ht. unfold Rdiv. ring.
Qed.

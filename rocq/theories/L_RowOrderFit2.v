(** Order of the rows: models with instruments and difference in differences. *)
From Verif Require Export L_RowOrderFit.
From Verif Require Import L_UnitsFit2 L_InitMade.
From Coq Require Import Lia Lra.
Local Open Scope R_scope.
Local Open Scope string_scope.

Lemma moved_share_weight n pm : rearrangement n pm -> forall nm v v' p p', moved n pm v v' -> moved n pm p p' ->
  moved n pm (share_weight n nm v p) (share_weight n nm v' p') /\ (share_ok n nm v p -> share_ok n nm v' p').
Proof.
  intros Om nm v v' p p' Hv Hp. unfold share_weight, share_ok. destruct nm; (split; [intros i Hi|]).
  - rewrite (moved_mean n pm Om v v' Hv), (Hv i Hi). reflexivity.
  - rewrite (moved_mean n pm Om v v' Hv). exact (fun x => x).
  - rewrite (Hv i Hi), (Hp i Hi). reflexivity.
  - intros H j Hj. destruct (moved_from n pm Om j Hj) as (i & Hi & <-). rewrite (Hp i Hi). exact (H i Hi).
Qed.
Lemma pliv_order : forall (E P : Type) (L : learner E row P) f g rd rd' fr fr' s s' zc zc' proj proj' ml_l ml_m ml_r ml_g ml_g' nf nf' nr nr' draw draw' C C' w0 w0' w w' nj nj' store store' ext ext' smod smod' w1 w1' pm om ro,
  let n := M_Data.frows fr in let dcols := M_Data.r_d (M_Data.dd_roles s) in
  S_Data.reachable fr s -> unclustered s -> sound_randomness rd -> (0 < n)%nat -> S_Data.reachable fr' s' -> unclustered s' -> sound_randomness rd' ->
  M_Data.r_z (M_Data.dd_roles s) = Some [zc] -> M_Data.r_z (M_Data.dd_roles s') = Some [zc'] ->
  pliv_init L rd fr s proj ml_l ml_m ml_r ml_g nf nr (PStr "partialling out") draw = Ok (C, w0) -> later C w0 w -> reliable L f g rd w ->
  pliv_init L rd' fr' s' proj' ml_l ml_m ml_r ml_g' nf' nr' (PStr "partialling out") draw' = Ok (C', w0') -> later C' w0' w' -> reliable L f g rd' w' ->
  rearranged pm om ro fr s w fr' s' w' -> moved n pm (col fr zc) (col fr' zc') ->
  fit C nj store ext smod w = (w1, Ok tt) -> fit C' nj' store' ext' smod' w' = (w1', Ok tt) ->
  exists mc F F' sm sm', runs_on mc "ml_m" ml_m false /\ runs_on mc "ml_r" ml_r false /\ fit_done w w1 F sm (length dcols) /\ fit_done w' w1' F' sm' (length dcols) /\ same_aggregates F F' ro (length sm) (length dcols) /\
    forall r t fs c, nth_error sm r = Some fs -> nth_error dcols t = Some c ->
      followed L f g n pm ext ext' c "ml_l" r (ro r) -> followed L f g n pm ext ext' c "ml_m" r (ro r) -> followed L f g n pm ext ext' c "ml_r" r (ro r) ->
      exists m q, used_prediction L f g mc w n ext r t c "ml_m" "ml_m" (covariates fr s c) (col fr zc) whole_train fs m /\
        used_prediction L f g mc w n ext r t c "ml_r" "ml_r" (covariates fr s c) (col fr c) whole_train fs q /\
        (sumf n (fun i => (col fr zc i - m i) * (col fr c i - q i)) <> 0 -> same_estimates_at F F' t r (ro r)).
Proof.
  intros until ro. intros n dcols Re Un Rd Hn Re' Un' Rd' Hz Hz' H La Rl H' La' Rl' Tw Az Hf Hf'.
  destruct Tw as [Om T1 T2 Hy Hd T3 T4]. fold n in Om, Hy, Hd. assert (Hn' : (0 < M_Data.frows fr')%nat) by (rewrite T1; exact Hn).
  destruct (pliv_end E P L f g rd fr s zc proj ml_l ml_m ml_r ml_g nf nr draw C w0 w nj store ext smod w1 Re Un Rd Hn Hz H La) as (mc & O & R1 & R2 & R3 & Z).
  destruct (pliv_end E P L f g rd' fr' s' zc' proj' ml_l ml_m ml_r ml_g' nf' nr' draw' C' w0' w' nj' store' ext' smod' w1' Re' Un' Rd' Hn' Hz' H' La') as (mc' & O' & R1' & R2' & R3' & Z'). cbv zeta in Z, Z'.
  assert (Rg : forall sm r fs, m_smpls (w_obj w) = Some sm -> nth_error sm r = Some fs -> forall h j, In h fs -> In j (fst h) -> (j < n)%nat).
  { destruct (pliv_made L rd fr s Re Rd _ _ _ _ _ _ _ _ _ _ _ H) as (z0 & more & mc0 & Ez & _ & Ec & Sr & _). rewrite Hz in Ez. injection Ez as <- <-. subst C. rewrite (plain_ctx fr s Re _ Un) in *. apply (ranges_of _ w0 w n Sr La); reflexivity. }
  assert (Vs : forall F, current_fw w1 F -> plain_results F n).
  { destruct (pliv_made L rd fr s Re Rd _ _ _ _ _ _ _ _ _ _ _ H) as (z0 & more & mc0 & Ez & _ & Ec & Sr & _). rewrite Hz in Ez. injection Ez as <- <-. subst C. rewrite (plain_ctx fr s Re _ Un) in *. refine (plain_vs _ w nj store ext smod w1 n _ _ Hn _ (reached_later _ _ _ Sr La) Hf); [first [discriminate|exact (some_treatment fr s Re)]|reflexivity|reflexivity]. }
  assert (Vs' : forall F, current_fw w1' F -> plain_results F n).
  { destruct (pliv_made L rd' fr' s' Re' Rd' _ _ _ _ _ _ _ _ _ _ _ H') as (z0 & more & mc0 & Ez & _ & Ec & Sr & _). rewrite Hz' in Ez. injection Ez as <- <-. subst C'. rewrite (plain_ctx fr' s' Re' _ Un') in *. refine (plain_vs _ w' nj' store' ext' smod' w1' n _ _ Hn _ (reached_later _ _ _ Sr La') Hf'); [first [discriminate|exact (some_treatment fr' s' Re')]|reflexivity|exact T1]. }
  clear H H' La La'.
  destruct Z as (F & sm & D & Z); [exact (reliable_sound L f g mc rd w O Rl)|apply unseen_everywhere, R1|apply unseen_everywhere, R2|intros; apply unseen_everywhere, R3|exact Hf|].
  assert (Es : m_smpls (w_obj w) = Some sm) by apply D.
  destruct Z' as (F' & sm' & D' & Z'); [exact (reliable_sound L f g mc' rd' w' O' Rl')|apply unseen_everywhere, R1'|apply unseen_everywhere, R2'|intros; apply unseen_everywhere, R3'|exact Hf'|].
  assert (Em' : m_smpls (w_obj w') = Some sm') by apply D'. assert (Ms : moved_split pm om ro sm sm') by (destruct (T3 sm Es) as (sm2 & Q2 & Ms); congruence).
  rewrite T2 in D', Z'. rewrite T1 in Z'. fold n in Z, Z'. fold dcols in D, D', Z, Z'.
  exists mc, F, F', sm, sm'. split; [exact R2|]. split; [exact R3|]. split; [exact D|]. split; [exact D'|].
  split; [exact (moved_aggregates w w1 w' w1' F F' n _ pm om ro sm sm' D D' (Vs F (proj1 D)) (Vs' F' (proj1 D')) Ms)|].
  intros r t fs c Hr Ht Cl Cm Cr. destruct (Z r t fs c Hr Ht) as (l & m & q & U1 & U2 & U3 & V). destruct (proj2 (proj2 Ms) r fs Hr) as (fs' & Hr' & Fs). destruct (Hd c (nth_error_In _ _ Ht)) as (Ak & Sc). destruct (Z' (ro r) t fs' c Hr' Ht) as (l' & m' & q' & U1' & U2' & U3' & V').
  pose proof (moved_prediction n pm Om L f g mc mc' w w' ext ext' (om r) r (ro r) t c "ml_l" "ml_l" _ _ _ _ _ _ _ _ fs fs' l l' (proj1 R1) (proj1 R1') (proj2 R1) (proj2 R1') (fun l c => T4 l c r) (Rg sm r fs Es Hr) Fs (whole_moved n pm) Sc Hy Cl U1 U1') as Al.
  pose proof (moved_prediction n pm Om L f g mc mc' w w' ext ext' (om r) r (ro r) t c "ml_m" "ml_m" _ _ _ _ _ _ _ _ fs fs' m m' (proj1 R2) (proj1 R2') (proj2 R2) (proj2 R2') (fun l c => T4 l c r) (Rg sm r fs Es Hr) Fs (whole_moved n pm) Sc Az Cm U2 U2') as Am.
  pose proof (moved_prediction n pm Om L f g mc mc' w w' ext ext' (om r) r (ro r) t c "ml_r" "ml_r" _ _ _ _ _ _ _ _ fs fs' q q' (proj1 R3) (proj1 R3') (proj2 R3) (proj2 R3') (fun l c => T4 l c r) (Rg sm r fs Es Hr) Fs (whole_moved n pm) Sc Ak Cr U3 U3') as Aq.
  exists m, q. split; [exact U2|]. split; [exact U3|]. intro N. specialize (V N).
  assert (J : sumf n (fun i => (col fr' zc' i - m' i) * (col fr' c i - q' i)) = sumf n (fun i => (col fr zc i - m i) * (col fr c i - q i))) by (apply (moved_sum n pm Om); intros i Hi; rewrite (Ak i Hi), (Am i Hi), (Az i Hi), (Aq i Hi); reflexivity).
  assert (J' : sumf n (fun i => (col fr' zc' i - m' i) * (outcome fr' s' i - l' i)) = sumf n (fun i => (col fr zc i - m i) * (outcome fr s i - l i))) by (apply (moved_sum n pm Om); intros i Hi; rewrite (Az i Hi), (Am i Hi), (Hy i Hi), (Al i Hi); reflexivity).
  assert (N' : sumf n (fun i => (col fr' zc' i - m' i) * (col fr' c i - q' i)) <> 0) by (rewrite J; exact N). specialize (V' N').
  eapply (moved_estimate n pm Om F F' t r (ro r) _ _ _ _ _ _ V V'); [rewrite J; reflexivity|rewrite J, J'; reflexivity|].
  intros i Hi. cbv beta. rewrite J, J', (Az i Hi), (Am i Hi), (Hy i Hi), (Al i Hi), (Ak i Hi), (Aq i Hi). reflexivity.
Qed.

Lemma did_order : forall (E P : Type) (L : learner E row P) f g rd rd' fr fr' s s' ml_g ml_m nm nf nf' nr nr' draw draw' rule rule' thr C C' w0 w0' w w' nj nj' store store' ext ext' smod smod' w1 w1' pm om ro,
  let n := M_Data.frows fr in
  S_Data.reachable fr s -> unclustered s -> sound_randomness rd -> (0 < n)%nat -> S_Data.reachable fr' s' -> unclustered s' -> sound_randomness rd' ->
  did_init L rd fr s ml_g (Some ml_m) nf nr (PStr "observational") (PBool nm) rule (PFloat thr) draw = Ok (C, w0) -> later C w0 w -> reliable L f g rd w ->
  did_init L rd' fr' s' ml_g (Some ml_m) nf' nr' (PStr "observational") (PBool nm) rule' (PFloat thr) draw' = Ok (C', w0') -> later C' w0' w' -> reliable L f g rd' w' ->
  rearranged pm om ro fr s w fr' s' w' ->
  (forall c, In c (M_Data.r_d (M_Data.dd_roles s)) -> labels_seen L g (ly_classifier ml_g) w n (outcome fr s) (fun j => col fr c j = 0) /\ labels_seen L g (ly_classifier ml_g) w n (outcome fr s) (fun j => col fr c j = 1) /\ labels_seen L g true w n (col fr c) everyone) ->
  fit C nj store ext smod w = (w1, Ok tt) -> fit C' nj' store' ext' smod' w' = (w1', Ok tt) ->
  exists dcol mc F F' sm sm', M_Data.r_d (M_Data.dd_roles s) = [dcol] /\ runs_on mc "ml_m" ml_m true /\ fit_done w w1 F sm 1 /\ fit_done w' w1' F' sm' 1 /\ same_aggregates F F' ro (length sm) 1 /\
    forall r fs, nth_error sm r = Some fs -> followed L f g n pm ext ext' dcol "ml_g0" r (ro r) -> followed L f g n pm ext ext' dcol "ml_m" r (ro r) ->
      exists m0 m p, used_prediction L f g mc w n ext r 0 dcol "ml_m" "ml_m" (covariates fr s dcol) (col fr dcol) whole_train fs m0 /\ clipped n true thr m0 m /\ share_of fs (col fr dcol) p /\
        (share_ok n nm (col fr dcol) p -> share_ok n nm (fun i => (1 - col fr dcol i) * (m i / (1 - m i))) p -> sumf n (share_weight n nm (col fr dcol) p) <> 0 -> same_estimates_at F F' 0 r (ro r)).
Proof.
  intros until ro. intros n Re Un Rd Hn Re' Un' Rd' H La Rl H' La' Rl' Tw Hl Hf Hf'.
  destruct Tw as [Om T1 T2 Hy Hd T3 T4]. fold n in Om, Hy, Hd. assert (Hn' : (0 < M_Data.frows fr')%nat) by (rewrite T1; exact Hn).
  destruct (did_obs_end E P L f g rd fr s ml_g _ nf nr nm rule thr draw C w0 w nj store ext smod w1 Re Un Rd Hn H La) as (dc & mc & Bt & O & R1 & (lm & Q & R2) & Z). injection Q as <-.
  destruct (did_obs_end E P L f g rd' fr' s' ml_g _ nf' nr' nm rule' thr draw' C' w0' w' nj' store' ext' smod' w1' Re' Un' Rd' Hn' H' La') as (dc' & mc' & Bt' & O' & R1' & (lm & Q & R2') & Z'). injection Q as <-. cbv zeta in Z, Z'.
  assert (Rg : (forall sm r fs, m_smpls (w_obj w) = Some sm -> nth_error sm r = Some fs -> forall h j, In h fs -> In j (fst h) -> (j < n)%nat) /\ (forall sm r fs, m_smpls (w_obj w) = Some sm -> nth_error sm r = Some fs -> partition_of n fs)).
  { destruct (did_made L rd fr s Re Rd _ _ _ _ _ _ _ _ _ _ _ H) as (c & mc0 & nm0 & th0 & st & _ & Ec & Sr & _). subst C. rewrite (plain_ctx fr s Re _ Un) in *. split; [apply (ranges_of _ w0 w n Sr La)|apply (partition_reached _ w0 w n Sr La)]; reflexivity. }
  assert (Pt' : forall sm r fs, m_smpls (w_obj w') = Some sm -> nth_error sm r = Some fs -> partition_of n fs).
  { destruct (did_made L rd' fr' s' Re' Rd' _ _ _ _ _ _ _ _ _ _ _ H') as (c & mc0 & nm0 & th0 & st & _ & Ec & Sr & _). subst C'. rewrite (plain_ctx fr' s' Re' _ Un') in *. subst n. rewrite <- T1. apply (partition_reached _ w0' w' _ Sr La'); reflexivity. }
  assert (Vs : forall F, current_fw w1 F -> plain_results F n).
  { destruct (did_made L rd fr s Re Rd _ _ _ _ _ _ _ _ _ _ _ H) as (c & mc0 & nm0 & th0 & st & _ & Ec & Sr & _). subst C. rewrite (plain_ctx fr s Re _ Un) in *. refine (plain_vs _ w nj store ext smod w1 n _ _ Hn _ (reached_later _ _ _ Sr La) Hf); [first [discriminate|exact (some_treatment fr s Re)]|reflexivity|reflexivity]. }
  assert (Vs' : forall F, current_fw w1' F -> plain_results F n).
  { destruct (did_made L rd' fr' s' Re' Rd' _ _ _ _ _ _ _ _ _ _ _ H') as (c & mc0 & nm0 & th0 & st & _ & Ec & Sr & _). subst C'. rewrite (plain_ctx fr' s' Re' _ Un') in *. refine (plain_vs _ w' nj' store' ext' smod' w1' n _ _ Hn _ (reached_later _ _ _ Sr La') Hf'); [first [discriminate|exact (some_treatment fr' s' Re')]|reflexivity|exact T1]. }
  destruct Rg as (Rg & Pt). clear H H' La La'. destruct Bt as (Bd & _), Bt' as (Bd' & _). rewrite T2 in Bd'.
  assert (dc' = dc) as -> by congruence. destruct (Hd dc) as (Ad & Sc); [rewrite Bd; left; reflexivity|]. specialize (Hl dc ltac:(rewrite Bd; left; reflexivity)). pose proof Ad as Ed.
  assert (G0 : forall z j, (j < n)%nat -> col fr' dc (pm j) = z <-> col fr dc j = z) by (intros z j Hj; rewrite (Ed j Hj); tauto).
  destruct Hl as (Hl0 & Hl1 & Hl2).
  destruct Z as (F & sm & D & Z); [exact (reliable_sound L f g mc rd w O Rl)|apply (seen_everywhere L g mc w n _ _ _ _ (proj2 R1)), Hl0|apply (seen_everywhere L g mc w n _ _ _ _ (proj2 R1)), Hl1|apply (seen_everywhere L g mc w n _ _ _ _ (proj2 R2)), Hl2|exact Hf|].
  assert (Es : m_smpls (w_obj w) = Some sm) by apply D.
  destruct Z' as (F' & sm' & D' & Z'); [exact (reliable_sound L f g mc' rd' w' O' Rl')| | | |exact Hf'|].
  { apply (seen_everywhere L g mc' w' _ _ _ _ _ (proj2 R1')); refine (moved_seen n pm Om L g om ro _ w w' _ _ _ _ _ T1 T3 (ex_intro _ sm Es) Hy _ Hl0); intros j Hj; apply (G0 0 j Hj). }
  { apply (seen_everywhere L g mc' w' _ _ _ _ _ (proj2 R1')); refine (moved_seen n pm Om L g om ro _ w w' _ _ _ _ _ T1 T3 (ex_intro _ sm Es) Hy _ Hl1); intros j Hj; apply (G0 1 j Hj). }
  { apply (seen_everywhere L g mc' w' _ _ _ _ _ (proj2 R2')); exact (moved_seen n pm Om L g om ro _ w w' _ _ _ everyone everyone T1 T3 (ex_intro _ sm Es) Ad (fun _ _ x => x) Hl2). }
  assert (Em' : m_smpls (w_obj w') = Some sm') by apply D'. assert (Ms : moved_split pm om ro sm sm') by (destruct (T3 sm Es) as (sm2 & Q2 & Ms); congruence).
  rewrite T1 in Z'. fold n in Z, Z'.
  exists dc, mc, F, F', sm, sm'. split; [exact Bd|]. split; [exact R2|]. split; [exact D|]. split; [exact D'|].
  split; [exact (moved_aggregates w w1 w' w1' F F' n _ pm om ro sm sm' D D' (Vs F (proj1 D)) (Vs' F' (proj1 D')) Ms)|].
  intros r fs Hr Cg0 Cm0. destruct (Z r fs Hr) as (g0 & m0 & m & p & Ug0 & Um0 & Cp & Sh & V). destruct (proj2 (proj2 Ms) r fs Hr) as (fs' & Hr' & Fs). destruct (Z' (ro r) fs' Hr') as (g0' & m0' & m' & p' & Ug0' & Um0' & Cp' & Sh' & V').
  pose proof (moved_prediction n pm Om L f g mc mc' w w' ext ext' (om r) r (ro r) 0 dc "ml_g0" "ml_g" _ _ _ _ _ _ _ _ fs fs' g0 g0' (proj1 R1) (proj1 R1') (proj2 R1) (proj2 R1') (fun l c => T4 l c r) (Rg sm r fs Es Hr) Fs (group_moved n pm Om _ _ (G0 0)) Sc Hy Cg0 Ug0 Ug0') as Ag0.
  pose proof (moved_prediction n pm Om L f g mc mc' w w' ext ext' (om r) r (ro r) 0 dc "ml_m" "ml_m" _ _ _ _ _ _ _ _ fs fs' m0 m0' (proj1 R2) (proj1 R2') (proj2 R2) (proj2 R2') (fun l c => T4 l c r) (Rg sm r fs Es Hr) Fs (whole_moved n pm) Sc Ad Cm0 Um0 Um0') as Am0.
  pose proof (moved_clip n pm Om thr _ _ _ _ Am0 Cp Cp') as Em. pose proof (moved_share n pm Om (om r) fs fs' _ _ _ _ (Pt sm r fs Es Hr) (Rg sm r fs Es Hr) Fs (Pt' sm' (ro r) fs' Em' Hr') Ed Sh Sh') as Ep.
  destruct (moved_share_weight n pm Om nm _ _ _ _ Ed Ep) as (Wa & Oa).
  destruct (moved_share_weight n pm Om nm (fun i => (1 - col fr dc i) * (m i / (1 - m i))) (fun i => (1 - col fr' dc i) * (m' i / (1 - m' i))) p p' ltac:(intros i Hi; cbv beta; rewrite (Ed i Hi), (Em i Hi); reflexivity) Ep) as (Wo & Oo).
  exists m0, m, p. split; [exact Um0|]. split; [exact Cp|]. split; [exact Sh|]. intros K1 K2 N. specialize (V K1 K2 N).
  pose proof (moved_sum n pm Om _ _ Wa) as J. assert (N' : sumf n (share_weight n nm (col fr' dc) p') <> 0) by (rewrite J; exact N). specialize (V' (Oa K1) (Oo K2) N').
  assert (Hs : moved n pm (fun i => (share_weight n nm (col fr dc) p i - share_weight n nm (fun i => (1 - col fr dc i) * (m i / (1 - m i))) p i) * (outcome fr s i - g0 i))
    (fun i => (share_weight n nm (col fr' dc) p' i - share_weight n nm (fun i => (1 - col fr' dc i) * (m' i / (1 - m' i))) p' i) * (outcome fr' s' i - g0' i))).
  { intros i Hi. rewrite (Wa i Hi), (Wo i Hi), (Hy i Hi), (Ag0 i Hi). reflexivity. }
  pose proof (moved_sum n pm Om _ _ Hs) as Ht.
  eapply (moved_estimate n pm Om F F' 0 r (ro r) _ _ _ _ _ _ V V'); [rewrite J; reflexivity|rewrite J, Ht; reflexivity|].
  intros i Hi. pose proof (Hs i Hi) as Hi'. cbv beta in Hi' |- *. rewrite Hi', J, Ht, (Wa i Hi). reflexivity.
Qed.

Lemma iivm_order : forall (E P : Type) (L : learner E row P) f g rd rd' fr fr' s s' ml_g ml_m ml_r score score' sg nm nf nf' nr nr' draw draw' rule rule' thr C C' w0 w0' w w' nj nj' store store' ext ext' smod smod' w1 w1' pm om ro,
  let n := M_Data.frows fr in
  S_Data.reachable fr s -> unclustered s -> sound_randomness rd -> (0 < n)%nat -> S_Data.reachable fr' s' -> unclustered s' -> sound_randomness rd' ->
  iivm_init L rd fr s ml_g ml_m ml_r nf nr score sg (PBool nm) rule (PFloat thr) draw = Ok (C, w0) -> later C w0 w -> reliable L f g rd w ->
  iivm_init L rd' fr' s' ml_g ml_m ml_r nf' nr' score' sg (PBool nm) rule' (PFloat thr) draw' = Ok (C', w0') -> later C' w0' w' -> reliable L f g rd' w' ->
  rearranged pm om ro fr s w fr' s' w' ->
  M_Data.r_z (M_Data.dd_roles s') = M_Data.r_z (M_Data.dd_roles s) -> (forall z, M_Data.r_z (M_Data.dd_roles s) = Some [z] -> moved n pm (col fr z) (col fr' z)) ->
  (forall c z v, M_Data.r_d (M_Data.dd_roles s) = [c] -> M_Data.r_z (M_Data.dd_roles s) = Some [z] -> v = 0 \/ v = 1 ->
    labels_seen L g (ly_classifier ml_g) w n (outcome fr s) (fun j => col fr z j = v) /\ labels_seen L g true w n (col fr z) everyone) ->
  (forall c z v at1 nt1, M_Data.r_d (M_Data.dd_roles s) = [c] -> M_Data.r_z (M_Data.dd_roles s) = Some [z] -> subgroups_are sg at1 nt1 -> v = 0 /\ at1 = true \/ v = 1 /\ nt1 = true ->
    labels_seen L g true w n (col fr c) (fun j => col fr z j = v)) ->
  fit C nj store ext smod w = (w1, Ok tt) -> fit C' nj' store' ext' smod' w' = (w1', Ok tt) ->
  exists dcol zcol mc at1 nt1 F F' sm sm', M_Data.r_d (M_Data.dd_roles s) = [dcol] /\ M_Data.r_z (M_Data.dd_roles s) = Some [zcol] /\ runs_on mc "ml_m" ml_m true /\ runs_on mc "ml_r" ml_r true /\ subgroups_are sg at1 nt1 /\
    fit_done w w1 F sm 1 /\ fit_done w' w1' F' sm' 1 /\ same_aggregates F F' ro (length sm) 1 /\
    forall r fs, nth_error sm r = Some fs -> let x := covariates fr s dcol in let d := col fr dcol in let z := col fr zcol in
      (forall k, k = "ml_g0" \/ k = "ml_g1" -> followed L f g n pm ext ext' dcol k r (ro r)) -> (forall k, k = "ml_m" \/ k = "ml_r0" \/ k = "ml_r1" -> followed L f g n pm ext ext' dcol k r (ro r)) ->
      exists m0 m r0 r1, used_prediction L f g mc w n ext r 0 dcol "ml_m" "ml_m" x z whole_train fs m0 /\ clipped n true thr m0 m /\
        (if at1 then used_prediction L f g mc w n ext r 0 dcol "ml_r0" "ml_r" x d (group_rows n (fun j => z j = 0)) fs r0 else forall i, (i < n)%nat -> r0 i = 0) /\
        (if nt1 then used_prediction L f g mc w n ext r 0 dcol "ml_r1" "ml_r" x d (group_rows n (fun j => z j = 1)) fs r1 else forall i, (i < n)%nat -> r1 i = 1) /\
        (off_bounds n (iivm_adjust n nm d m) -> sumf n (dr_signal d z r0 r1 (iivm_adjust n nm d m)) <> 0 -> same_estimates_at F F' 0 r (ro r)).
Proof.
  intros until ro. intros n Re Un Rd Hn Re' Un' Rd' H La Rl H' La' Rl' Tw Hrz Hz Hl Hlr Hf Hf'.
  destruct Tw as [Om T1 T2 Hy Hd T3 T4]. fold n in Om, Hy, Hd. assert (Hn' : (0 < M_Data.frows fr')%nat) by (rewrite T1; exact Hn).
  destruct (iivm_end E P L f g rd fr s ml_g ml_m ml_r nf nr score sg nm rule thr draw C w0 w nj store ext smod w1 Re Un Rd Hn H La) as (dc & zc & mc & a1 & n1 & Bt & Bz & _ & O & R1 & R2 & R3 & Sg & Z).
  destruct (iivm_end E P L f g rd' fr' s' ml_g ml_m ml_r nf' nr' score' sg nm rule' thr draw' C' w0' w' nj' store' ext' smod' w1' Re' Un' Rd' Hn' H' La') as (dc' & zc' & mc' & a1' & n1' & Bt' & Bz' & _ & O' & R1' & R2' & R3' & Sg' & Z'). cbv zeta in Z, Z'.
  assert (Rg : forall sm r fs, m_smpls (w_obj w) = Some sm -> nth_error sm r = Some fs -> forall h j, In h fs -> In j (fst h) -> (j < n)%nat).
  { destruct (iivm_made L rd fr s Re Rd _ _ _ _ _ _ _ _ _ _ _ _ _ H) as (c & z0 & mc0 & nm0 & th0 & bo & a2 & n2 & st & _ & _ & _ & Ec & Sr & _). subst C. rewrite (plain_ctx fr s Re _ Un) in *. apply (ranges_of _ w0 w n Sr La); reflexivity. }
  assert (Vs : forall F, current_fw w1 F -> plain_results F n).
  { destruct (iivm_made L rd fr s Re Rd _ _ _ _ _ _ _ _ _ _ _ _ _ H) as (c & z0 & mc0 & nm0 & th0 & bo & a2 & n2 & st & _ & _ & _ & Ec & Sr & _). subst C. rewrite (plain_ctx fr s Re _ Un) in *. refine (plain_vs _ w nj store ext smod w1 n _ _ Hn _ (reached_later _ _ _ Sr La) Hf); [first [discriminate|exact (some_treatment fr s Re)]|reflexivity|reflexivity]. }
  assert (Vs' : forall F, current_fw w1' F -> plain_results F n).
  { destruct (iivm_made L rd' fr' s' Re' Rd' _ _ _ _ _ _ _ _ _ _ _ _ _ H') as (c & z0 & mc0 & nm0 & th0 & bo & a2 & n2 & st & _ & _ & _ & Ec & Sr & _). subst C'. rewrite (plain_ctx fr' s' Re' _ Un') in *. refine (plain_vs _ w' nj' store' ext' smod' w1' n _ _ Hn _ (reached_later _ _ _ Sr La') Hf'); [first [discriminate|exact (some_treatment fr' s' Re')]|reflexivity|exact T1]. }
  clear H H' La La'. destruct Bt as (Bd & _), Bt' as (Bd' & _). rewrite T2 in Bd'. rewrite Hrz in Bz'.
  assert (dc' = dc) as -> by congruence. assert (zc' = zc) as -> by congruence. destruct (subgroups_fun _ _ _ _ _ Sg Sg') as (-> & ->).
  destruct (Hd dc) as (Ad & Sc); [rewrite Bd; left; reflexivity|]. pose proof (fun v => Hl dc zc v Bd Bz) as Hv. pose proof (fun v => Hlr dc zc v a1 n1 Bd Bz Sg) as Hw. specialize (Hz zc Bz). pose proof Ad as Ed. pose proof Hz as Ez.
  assert (G0 : forall z j, (j < n)%nat -> col fr' zc (pm j) = z <-> col fr zc j = z) by (intros z j Hj; rewrite (Ez j Hj); tauto).
  destruct Z as (F & sm & D & Z); [exact (reliable_sound L f g mc rd w O Rl)|intros v Qv; apply (seen_everywhere L g mc w n _ _ _ _ (proj2 R1)), (Hv v Qv)|apply (seen_everywhere L g mc w n _ _ _ _ (proj2 R2)), (Hv 0); left; reflexivity|intros v Qv; apply (seen_everywhere L g mc w n _ _ _ _ (proj2 R3)), (Hw v Qv)|exact Hf|].
  assert (Es : m_smpls (w_obj w) = Some sm) by apply D.
  destruct Z' as (F' & sm' & D' & Z'); [exact (reliable_sound L f g mc' rd' w' O' Rl')| | | |exact Hf'|].
  { intros v Qv. apply (seen_everywhere L g mc' w' _ _ _ _ _ (proj2 R1')); refine (moved_seen n pm Om L g om ro _ w w' _ _ _ _ _ T1 T3 (ex_intro _ sm Es) Hy _ (proj1 (Hv v Qv))); intros j Hj; apply (G0 v j Hj). }
  { apply (seen_everywhere L g mc' w' _ _ _ _ _ (proj2 R2')); exact (moved_seen n pm Om L g om ro _ w w' _ _ _ everyone everyone T1 T3 (ex_intro _ sm Es) Hz (fun _ _ x => x) (proj2 (Hv 0 (or_introl eq_refl)))). }
  { intros v Qv. apply (seen_everywhere L g mc' w' _ _ _ _ _ (proj2 R3')); refine (moved_seen n pm Om L g om ro _ w w' _ _ _ _ _ T1 T3 (ex_intro _ sm Es) Ad _ (Hw v Qv)); intros j Hj; apply (G0 v j Hj). }
  assert (Em' : m_smpls (w_obj w') = Some sm') by apply D'. assert (Ms : moved_split pm om ro sm sm') by (destruct (T3 sm Es) as (sm2 & Q2 & Ms); congruence).
  rewrite T1 in Z'. fold n in Z, Z'.
  exists dc, zc, mc, a1, n1, F, F', sm, sm'. split; [exact Bd|]. split; [exact Bz|]. split; [exact R2|]. split; [exact R3|]. split; [exact Sg|]. split; [exact D|]. split; [exact D'|].
  split; [exact (moved_aggregates w w1 w' w1' F F' n _ pm om ro sm sm' D D' (Vs F (proj1 D)) (Vs' F' (proj1 D')) Ms)|].
  intros r fs Hr x d z Cg Cm. destruct (Z r fs Hr) as (g0 & g1 & m0 & m & r0 & r1 & Ug0 & Ug1 & Um0 & Cp & Ur0 & Ur1 & V). destruct (proj2 (proj2 Ms) r fs Hr) as (fs' & Hr' & Fs). destruct (Z' (ro r) fs' Hr') as (g0' & g1' & m0' & m' & r0' & r1' & Ug0' & Ug1' & Um0' & Cp' & Ur0' & Ur1' & V').
  pose proof (moved_prediction n pm Om L f g mc mc' w w' ext ext' (om r) r (ro r) 0 dc "ml_g0" "ml_g" _ _ _ _ _ _ _ _ fs fs' g0 g0' (proj1 R1) (proj1 R1') (proj2 R1) (proj2 R1') (fun l c => T4 l c r) (Rg sm r fs Es Hr) Fs (group_moved n pm Om _ _ (G0 0)) Sc Hy (Cg "ml_g0" (or_introl eq_refl)) Ug0 Ug0') as Ag0.
  pose proof (moved_prediction n pm Om L f g mc mc' w w' ext ext' (om r) r (ro r) 0 dc "ml_g1" "ml_g" _ _ _ _ _ _ _ _ fs fs' g1 g1' (proj1 R1) (proj1 R1') (proj2 R1) (proj2 R1') (fun l c => T4 l c r) (Rg sm r fs Es Hr) Fs (group_moved n pm Om _ _ (G0 1)) Sc Hy (Cg "ml_g1" (or_intror eq_refl)) Ug1 Ug1') as Ag1.
  pose proof (moved_prediction n pm Om L f g mc mc' w w' ext ext' (om r) r (ro r) 0 dc "ml_m" "ml_m" _ _ _ _ _ _ _ _ fs fs' m0 m0' (proj1 R2) (proj1 R2') (proj2 R2) (proj2 R2') (fun l c => T4 l c r) (Rg sm r fs Es Hr) Fs (whole_moved n pm) Sc Hz (Cm "ml_m" (or_introl eq_refl)) Um0 Um0') as Am0.
  assert (Er0 : moved n pm r0 r0').
  { destruct a1; [|intros i Hi; rewrite (Ur0 i Hi); exact (Ur0' _ (proj1 Om i Hi))]. exact (moved_prediction n pm Om L f g mc mc' w w' ext ext' (om r) r (ro r) 0 dc "ml_r0" "ml_r" _ _ _ _ _ _ _ _ fs fs' r0 r0' (proj1 R3) (proj1 R3') (proj2 R3) (proj2 R3') (fun l c => T4 l c r) (Rg sm r fs Es Hr) Fs (group_moved n pm Om _ _ (G0 0)) Sc Ad (Cm "ml_r0" (or_intror (or_introl eq_refl))) Ur0 Ur0'). }
  assert (Er1 : moved n pm r1 r1').
  { destruct n1; [|intros i Hi; rewrite (Ur1 i Hi); exact (Ur1' _ (proj1 Om i Hi))]. exact (moved_prediction n pm Om L f g mc mc' w w' ext ext' (om r) r (ro r) 0 dc "ml_r1" "ml_r" _ _ _ _ _ _ _ _ fs fs' r1 r1' (proj1 R3) (proj1 R3') (proj2 R3) (proj2 R3') (fun l c => T4 l c r) (Rg sm r fs Es Hr) Fs (group_moved n pm Om _ _ (G0 1)) Sc Ad (Cm "ml_r1" (or_intror (or_intror eq_refl))) Ur1 Ur1'). }
  pose proof (moved_clip n pm Om thr _ _ _ _ Am0 Cp Cp') as Em. pose proof (moved_adjust n pm Om _ _ _ _ nm Em Ed : moved n pm (iivm_adjust n nm (col fr dc) m) (iivm_adjust n nm (col fr' dc) m')) as Ema.
  exists m0, m, r0, r1. split; [exact Um0|]. split; [exact Cp|]. split; [exact Ur0|]. split; [exact Ur1|]. subst x d z. intros Ob N. specialize (V Ob N).
  assert (Ob' : off_bounds n (iivm_adjust n nm (col fr' dc) m')) by exact (moved_bounds n pm Om _ _ Ema Ob).
  assert (Hs : moved n pm (dr_signal (outcome fr s) (col fr zc) g0 g1 (iivm_adjust n nm (col fr dc) m)) (dr_signal (outcome fr' s') (col fr' zc) g0' g1' (iivm_adjust n nm (col fr' dc) m'))).
  { intros i Hi. unfold dr_signal, dr_level, compl. rewrite (Ez i Hi), (Ema i Hi), (Hy i Hi), (Ag0 i Hi), (Ag1 i Hi). reflexivity. }
  assert (Hq : moved n pm (dr_signal (col fr dc) (col fr zc) r0 r1 (iivm_adjust n nm (col fr dc) m)) (dr_signal (col fr' dc) (col fr' zc) r0' r1' (iivm_adjust n nm (col fr' dc) m'))).
  { intros i Hi. unfold dr_signal, dr_level, compl. rewrite (Ez i Hi), (Ema i Hi), (Ed i Hi), (Er0 i Hi), (Er1 i Hi). reflexivity. }
  pose proof (moved_sum n pm Om _ _ Hq) as J. assert (N' : sumf n (dr_signal (col fr' dc) (col fr' zc) r0' r1' (iivm_adjust n nm (col fr' dc) m')) <> 0) by (rewrite J; exact N). specialize (V' Ob' N').
  pose proof (moved_sum n pm Om _ _ Hs) as Ht.
  eapply (moved_estimate n pm Om F F' 0 r (ro r) _ _ _ _ _ _ V V'); [rewrite J; reflexivity|rewrite J, Ht; reflexivity|].
  intros i Hi. cbv beta. rewrite (Hs i Hi), (Hq i Hi), J, Ht. reflexivity.
Qed.


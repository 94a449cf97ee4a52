(** Order of the rows: estimates and standard errors of fitted models. *)
From Verif Require Export L_RowOrder.
From Verif Require Import L_InitMade.
From Coq Require Import Lia Lra.
Local Open Scope R_scope.
Local Open Scope string_scope.

Lemma plr_order : forall (E P : Type) (L : learner E row P) f g rd rd' fr fr' s s' ml_l ml_m ml_g ml_g' nf nf' nr nr' draw draw' C C' w0 w0' w w' nj nj' store store' ext ext' smod smod' w1 w1' pm om ro,
  let n := M_Data.frows fr in let dcols := M_Data.r_d (M_Data.dd_roles s) in
  S_Data.reachable fr s -> unclustered s -> sound_randomness rd -> (0 < n)%nat -> S_Data.reachable fr' s' -> unclustered s' -> sound_randomness rd' ->
  plr_init L rd fr s ml_l ml_m ml_g nf nr (PStr "partialling out") draw = Ok (C, w0) -> later C w0 w -> reliable L f g rd w ->
  plr_init L rd' fr' s' ml_l ml_m ml_g' nf' nr' (PStr "partialling out") draw' = Ok (C', w0') -> later C' w0' w' -> reliable L f g rd' w' ->
  rearranged pm om ro fr s w fr' s' w' ->
  (forall c, In c dcols -> labels_seen L g (ly_classifier ml_m) w n (col fr c) everyone) ->
  fit C nj store ext smod w = (w1, Ok tt) -> fit C' nj' store' ext' smod' w' = (w1', Ok tt) ->
  exists mc F F' sm sm', runs_on mc "ml_m" ml_m (ly_classifier ml_m) /\ fit_done w w1 F sm (length dcols) /\ fit_done w' w1' F' sm' (length dcols) /\ same_aggregates F F' ro (length sm) (length dcols) /\
    forall r t fs c, nth_error sm r = Some fs -> nth_error dcols t = Some c ->
      followed L f g n pm ext ext' c "ml_l" r (ro r) -> followed L f g n pm ext ext' c "ml_m" r (ro r) ->
      exists m, used_prediction L f g mc w n ext r t c "ml_m" "ml_m" (covariates fr s c) (col fr c) whole_train fs m /\
        (sumf n (fun i => (col fr c i - m i) ^ 2) <> 0 -> same_estimates_at F F' t r (ro r)).
Proof.
  intros until ro. intros n dcols Re Un Rd Hn Re' Un' Rd' H La Rl H' La' Rl' Tw Hl Hf Hf'.
  destruct Tw as [Om T1 T2 Hy Hd T3 T4]. fold n in Om, Hy, Hd. assert (Hn' : (0 < M_Data.frows fr')%nat) by (rewrite T1; exact Hn).
  destruct (plr_end E P L f g rd fr s ml_l ml_m ml_g nf nr draw C w0 w nj store ext smod w1 Re Un Rd Hn H La) as (mc & O & R1 & R2 & Z).
  destruct (plr_end E P L f g rd' fr' s' ml_l ml_m ml_g' nf' nr' draw' C' w0' w' nj' store' ext' smod' w1' Re' Un' Rd' Hn' H' La') as (mc' & O' & R1' & R2' & Z'). cbv zeta in Z, Z'.
  assert (Rg : forall sm r fs, m_smpls (w_obj w) = Some sm -> nth_error sm r = Some fs -> forall h j, In h fs -> In j (fst h) -> (j < n)%nat).
  { destruct (plr_made L rd fr s Re Rd _ _ _ _ _ _ _ _ _ H) as (mc0 & bin & Ec & Sr & _). subst C. rewrite (plain_ctx fr s Re _ Un) in *. apply (ranges_of _ w0 w n Sr La); reflexivity. }
  assert (Vs : forall F, current_fw w1 F -> plain_results F n).
  { destruct (plr_made L rd fr s Re Rd _ _ _ _ _ _ _ _ _ H) as (mc0 & bin & Ec & Sr & _). subst C. rewrite (plain_ctx fr s Re _ Un) in *. refine (plain_vs _ w nj store ext smod w1 n _ _ Hn _ (reached_later _ _ _ Sr La) Hf); [first [discriminate|exact (some_treatment fr s Re)]|reflexivity|reflexivity]. }
  assert (Vs' : forall F, current_fw w1' F -> plain_results F n).
  { destruct (plr_made L rd' fr' s' Re' Rd' _ _ _ _ _ _ _ _ _ H') as (mc0 & bin & Ec & Sr & _). subst C'. rewrite (plain_ctx fr' s' Re' _ Un') in *. refine (plain_vs _ w' nj' store' ext' smod' w1' n _ _ Hn _ (reached_later _ _ _ Sr La') Hf'); [first [discriminate|exact (some_treatment fr' s' Re')]|reflexivity|exact T1]. }
  clear H H' La La'.
  destruct Z as (F & sm & D1 & D2 & D3 & D4 & D5 & D6 & Z); [exact (reliable_sound L f g mc rd w O Rl)|apply unseen_everywhere, R1| |exact Hf|].
  { intros c Ic. apply (seen_everywhere L g mc w n "ml_m" _ _ _ (proj2 R2)), Hl, Ic. }
  destruct Z' as (F' & sm' & D1' & D2' & D3' & D4' & D5' & D6' & Z'); [exact (reliable_sound L f g mc' rd' w' O' Rl')|apply unseen_everywhere, R1'| |exact Hf'|].
  { intros c Ic. rewrite T2 in Ic. apply (seen_everywhere L g mc' w' _ "ml_m" _ _ _ (proj2 R2')). exact (moved_seen n pm Om L g om ro _ w w' _ _ _ everyone everyone T1 T3 (ex_intro _ sm D4) (proj1 (Hd c Ic)) (fun _ _ x => x) (Hl c Ic)). }
  assert (Ms : moved_split pm om ro sm sm') by (destruct (T3 sm D4) as (sm2 & Q2 & Ms); congruence). rewrite T2 in D6', Z'. rewrite T1 in Z'. fold n in Z, Z'. fold dcols in D6, D6', Z, Z'.
  exists mc, F, F', sm, sm'. split; [exact R2|]. split; [exact (conj D1 (conj D2 (conj D3 (conj D4 (conj D5 D6)))))|]. split; [exact (conj D1' (conj D2' (conj D3' (conj D4' (conj D5' D6')))))|].
  split; [exact (moved_aggregates w w1 w' w1' F F' n _ pm om ro sm sm' (conj D1 (conj D2 (conj D3 (conj D4 (conj D5 D6))))) (conj D1' (conj D2' (conj D3' (conj D4' (conj D5' D6'))))) (Vs F D1) (Vs' F' D1') Ms)|].
  intros r t fs c Hr Ht Cl Cm. destruct (Z r t fs c Hr Ht) as (l & m & U1 & U2 & V). destruct (proj2 (proj2 Ms) r fs Hr) as (fs' & Hr' & Fs). destruct (Hd c (nth_error_In _ _ Ht)) as (Ak & Sc). destruct (Z' (ro r) t fs' c Hr' Ht) as (l' & m' & U1' & U2' & V').
  pose proof (moved_prediction n pm Om L f g mc mc' w w' ext ext' (om r) r (ro r) t c "ml_l" "ml_l" _ _ _ _ _ _ _ _ fs fs' l l' (proj1 R1) (proj1 R1') (proj2 R1) (proj2 R1') (fun l c => T4 l c r) (Rg sm r fs D4 Hr) Fs (whole_moved n pm) Sc Hy Cl U1 U1') as Al.
  pose proof (moved_prediction n pm Om L f g mc mc' w w' ext ext' (om r) r (ro r) t c "ml_m" "ml_m" _ _ _ _ _ _ _ _ fs fs' m m' (proj1 R2) (proj1 R2') (proj2 R2) (proj2 R2') (fun l c => T4 l c r) (Rg sm r fs D4 Hr) Fs (whole_moved n pm) Sc Ak Cm U2 U2') as Am.
  exists m. split; [exact U2|]. intro N. specialize (V N). destruct V as (V1 & V2).
  assert (J : sumf n (fun i => (col fr' c i - m' i) ^ 2) = sumf n (fun i => (col fr c i - m i) ^ 2)) by (apply (moved_sum n pm Om); intros i Hi; rewrite (Ak i Hi), (Am i Hi); reflexivity).
  assert (J' : sumf n (fun i => (col fr' c i - m' i) * (outcome fr' s' i - l' i)) = sumf n (fun i => (col fr c i - m i) * (outcome fr s i - l i))) by (apply (moved_sum n pm Om); intros i Hi; rewrite (Ak i Hi), (Am i Hi), (Hy i Hi), (Al i Hi); reflexivity).
  destruct V' as (V1' & V2'); [rewrite J; exact N|]. rewrite J, J' in V1', V2'. unfold same_estimates_at. rewrite V1, V2, V1', V2'. split; [reflexivity|]. do 2 f_equal. apply (moved_sum n pm Om). intros i Hi. rewrite (Ak i Hi), (Am i Hi), (Hy i Hi), (Al i Hi). reflexivity.
Qed.

Lemma irm_order : forall (E P : Type) (L : learner E row P) f g rd rd' fr fr' s s' ml_g ml_m wa wa' nm nf nf' nr nr' draw draw' rule rule' thr C C' w0 w0' w w' nj nj' store store' ext ext' smod smod' w1 w1' pm om ro,
  let n := M_Data.frows fr in
  S_Data.reachable fr s -> unclustered s -> sound_randomness rd -> (0 < n)%nat -> S_Data.reachable fr' s' -> unclustered s' -> sound_randomness rd' ->
  irm_init L rd fr s ml_g ml_m nf nr (PStr "ATE") wa (PBool nm) rule (PFloat thr) draw = Ok (C, w0) -> later C w0 w -> reliable L f g rd w ->
  irm_init L rd' fr' s' ml_g ml_m nf' nr' (PStr "ATE") wa' (PBool nm) rule' (PFloat thr) draw' = Ok (C', w0') -> later C' w0' w' -> reliable L f g rd' w' ->
  rearranged pm om ro fr s w fr' s' w' -> moved_weights n pm ro wa wa' ->
  (forall c, In c (M_Data.r_d (M_Data.dd_roles s)) -> labels_seen L g (ly_classifier ml_g) w n (outcome fr s) (fun j => col fr c j = 0) /\ labels_seen L g (ly_classifier ml_g) w n (outcome fr s) (fun j => col fr c j = 1) /\ labels_seen L g true w n (col fr c) everyone) ->
  fit C nj store ext smod w = (w1, Ok tt) -> fit C' nj' store' ext' smod' w' = (w1', Ok tt) ->
  exists dcol mc F F' sm sm', M_Data.r_d (M_Data.dd_roles s) = [dcol] /\ runs_on mc "ml_m" ml_m true /\ fit_done w w1 F sm 1 /\ fit_done w' w1' F' sm' 1 /\ same_aggregates F F' ro (length sm) 1 /\
    forall r fs, nth_error sm r = Some fs -> (r < m_n_rep (w_obj w0))%nat -> (ro r < m_n_rep (w_obj w0'))%nat ->
      followed L f g n pm ext ext' dcol "ml_g0" r (ro r) -> followed L f g n pm ext ext' dcol "ml_g1" r (ro r) -> followed L f g n pm ext ext' dcol "ml_m" r (ro r) ->
      exists m0 m, used_prediction L f g mc w n ext r 0 dcol "ml_m" "ml_m" (covariates fr s dcol) (col fr dcol) whole_train fs m0 /\ clipped n true thr m0 m /\ (off_bounds n (ps_adjust n m (col fr dcol) nm) -> same_estimates_at F F' 0 r (ro r)).
Proof.
  intros until ro. intros n Re Un Rd Hn Re' Un' Rd' H La Rl H' La' Rl' Tw Wm Hl Hf Hf'.
  destruct Tw as [Om T1 T2 Hy Hd T3 T4]. fold n in Om, Hy, Hd. assert (Hn' : (0 < M_Data.frows fr')%nat) by (rewrite T1; exact Hn).
  destruct (irm_end E P L f g rd fr s ml_g ml_m nf nr wa nm rule thr draw C w0 w nj store ext smod w1 Re Un Rd Hn H La) as (dc & mc & Bt & O & R1 & R2 & Z).
  destruct (irm_end E P L f g rd' fr' s' ml_g ml_m nf' nr' wa' nm rule' thr draw' C' w0' w' nj' store' ext' smod' w1' Re' Un' Rd' Hn' H' La') as (dc' & mc' & Bt' & O' & R1' & R2' & Z'). cbv zeta in Z, Z'.
  assert (Rg : forall sm r fs, m_smpls (w_obj w) = Some sm -> nth_error sm r = Some fs -> forall h j, In h fs -> In j (fst h) -> (j < n)%nat).
  { destruct (irm_made L rd fr s Re Rd _ _ _ _ _ _ _ _ _ _ _ _ H) as (c & mc0 & nm0 & th0 & bo & st & _ & Ec & Sr & _). subst C. rewrite (plain_ctx fr s Re _ Un) in *. apply (ranges_of _ w0 w n Sr La); reflexivity. }
  assert (Vs : forall F, current_fw w1 F -> plain_results F n).
  { destruct (irm_made L rd fr s Re Rd _ _ _ _ _ _ _ _ _ _ _ _ H) as (c & mc0 & nm0 & th0 & bo & st & _ & Ec & Sr & _). subst C. rewrite (plain_ctx fr s Re _ Un) in *. refine (plain_vs _ w nj store ext smod w1 n _ _ Hn _ (reached_later _ _ _ Sr La) Hf); [first [discriminate|exact (some_treatment fr s Re)]|reflexivity|reflexivity]. }
  assert (Vs' : forall F, current_fw w1' F -> plain_results F n).
  { destruct (irm_made L rd' fr' s' Re' Rd' _ _ _ _ _ _ _ _ _ _ _ _ H') as (c & mc0 & nm0 & th0 & bo & st & _ & Ec & Sr & _). subst C'. rewrite (plain_ctx fr' s' Re' _ Un') in *. refine (plain_vs _ w' nj' store' ext' smod' w1' n _ _ Hn _ (reached_later _ _ _ Sr La') Hf'); [first [discriminate|exact (some_treatment fr' s' Re')]|reflexivity|exact T1]. }
  clear H H' La La'. destruct Bt as (Bd & _), Bt' as (Bd' & _). rewrite T2 in Bd'.
  assert (dc' = dc) as -> by congruence. destruct (Hd dc) as (Ad & Sc); [rewrite Bd; left; reflexivity|]. specialize (Hl dc ltac:(rewrite Bd; left; reflexivity)). pose proof Ad as Ed.
  pose proof Ad as Al. pose proof Ed as El.
  assert (G0 : forall z j, (j < n)%nat -> col fr' dc (pm j) = z <-> col fr dc j = z) by (intros z j Hj; rewrite (El j Hj); tauto).
  destruct Hl as (Hl0 & Hl1 & Hl2).
  destruct Z as (F & sm & D & Z); [exact (reliable_sound L f g mc rd w O Rl)|apply (seen_everywhere L g mc w n _ _ _ _ (proj2 R1)), Hl0|apply (seen_everywhere L g mc w n _ _ _ _ (proj2 R1)), Hl1|apply (seen_everywhere L g mc w n _ _ _ _ (proj2 R2)), Hl2|exact Hf|].
  assert (Es : m_smpls (w_obj w) = Some sm) by apply D.
  destruct Z' as (F' & sm' & D' & Z'); [exact (reliable_sound L f g mc' rd' w' O' Rl')|apply (seen_everywhere L g mc' w' _ _ _ _ _ (proj2 R1')); refine (moved_seen n pm Om L g om ro _ w w' _ _ _ _ _ T1 T3 (ex_intro _ sm Es) Hy _ Hl0); intros j Hj; apply (G0 0 j Hj)|apply (seen_everywhere L g mc' w' _ _ _ _ _ (proj2 R1')); refine (moved_seen n pm Om L g om ro _ w w' _ _ _ _ _ T1 T3 (ex_intro _ sm Es) Hy _ Hl1); intros j Hj; apply (G0 1 j Hj)|apply (seen_everywhere L g mc' w' _ _ _ _ _ (proj2 R2')); exact (moved_seen n pm Om L g om ro _ w w' _ _ _ everyone everyone T1 T3 (ex_intro _ sm Es) Al (fun _ _ x => x) Hl2)|exact Hf'|].
  assert (Em' : m_smpls (w_obj w') = Some sm') by apply D'. assert (Ms : moved_split pm om ro sm sm') by (destruct (T3 sm Es) as (sm2 & Q2 & Ms); congruence).
  rewrite T1 in Z'. fold n in Z, Z'.
  exists dc, mc, F, F', sm, sm'. split; [exact Bd|]. split; [exact R2|]. split; [exact D|]. split; [exact D'|].
  split; [exact (moved_aggregates w w1 w' w1' F F' n _ pm om ro sm sm' D D' (Vs F (proj1 D)) (Vs' F' (proj1 D')) Ms)|].
  intros r fs Hr Q1 Q2 Cg0 Cg1 Cm0. destruct (Z r fs Hr Q1) as (g0 & g1 & m0 & m & Ug0 & Ug1 & Um0 & Cp & V). destruct (proj2 (proj2 Ms) r fs Hr) as (fs' & Hr' & Fs). destruct (Z' (ro r) fs' Hr' Q2) as (g0' & g1' & m0' & m' & Ug0' & Ug1' & Um0' & Cp' & V').
  pose proof (moved_prediction n pm Om L f g mc mc' w w' ext ext' (om r) r (ro r) 0 dc "ml_g0" "ml_g" _ _ _ _ _ _ _ _ fs fs' g0 g0' (proj1 R1) (proj1 R1') (proj2 R1) (proj2 R1') (fun l c => T4 l c r) (Rg sm r fs Es Hr) Fs (group_moved n pm Om _ _ (G0 0)) Sc Hy Cg0 Ug0 Ug0') as Ag0.
  pose proof (moved_prediction n pm Om L f g mc mc' w w' ext ext' (om r) r (ro r) 0 dc "ml_g1" "ml_g" _ _ _ _ _ _ _ _ fs fs' g1 g1' (proj1 R1) (proj1 R1') (proj2 R1) (proj2 R1') (fun l c => T4 l c r) (Rg sm r fs Es Hr) Fs (group_moved n pm Om _ _ (G0 1)) Sc Hy Cg1 Ug1 Ug1') as Ag1.
  pose proof (moved_prediction n pm Om L f g mc mc' w w' ext ext' (om r) r (ro r) 0 dc "ml_m" "ml_m" _ _ _ _ _ _ _ _ fs fs' m0 m0' (proj1 R2) (proj1 R2') (proj2 R2) (proj2 R2') (fun l c => T4 l c r) (Rg sm r fs Es Hr) Fs (whole_moved n pm) Sc Ad Cm0 Um0 Um0') as Am0.
  pose proof (moved_clip n pm Om thr _ _ _ _ Am0 Cp Cp') as Em. pose proof (moved_adjust n pm Om _ _ _ _ nm Em Ed) as Ema.
  exists m0, m. split; [exact Um0|]. split; [exact Cp|]. intro Ob. specialize (V Ob).
  assert (Ob' : off_bounds n (ps_adjust n m' (col fr' dc) nm)) by exact (moved_bounds n pm Om _ _ Ema Ob). specialize (V' Ob').
  destruct (Wm r) as (Wa & Wb). set (W := weights_of wa r) in *. set (W' := weights_of wa' (ro r)) in *.
  assert (Hs : moved n pm (fun i => wg W i * (g1 i - g0 i) + resid_weights W i * (col fr dc i * (outcome fr s i - g1 i) / ps_adjust n m (col fr dc) nm i - (1 - col fr dc i) * (outcome fr s i - g0 i) / (1 - ps_adjust n m (col fr dc) nm i)))
    (fun i => wg W' i * (g1' i - g0' i) + resid_weights W' i * (col fr' dc i * (outcome fr' s' i - g1' i) / ps_adjust n m' (col fr' dc) nm i - (1 - col fr' dc i) * (outcome fr' s' i - g0' i) / (1 - ps_adjust n m' (col fr' dc) nm i)))).
  { intros i Hi. rewrite (Wa i Hi), (Wb i Hi), (Ed i Hi), (Ema i Hi), (Hy i Hi), (Ag0 i Hi), (Ag1 i Hi). reflexivity. }
  pose proof (moved_mean n pm Om _ _ Hs) as Ht. pose proof (moved_mean n pm Om _ _ Wa) as Hw.
  eapply (moved_estimate n pm Om F F' 0 r (ro r) _ _ _ _ _ _ V V'); [rewrite ?Hw; reflexivity|rewrite ?Hw; exact Ht|].
  intros i Hi. pose proof (Hs i Hi) as Hi'. cbv beta in Hi' |- *. rewrite Hi', Ht, ?Hw, ?(Wa i Hi). reflexivity.
Qed.

Lemma atte_order : forall (E P : Type) (L : learner E row P) f g rd rd' fr fr' s s' ml_g ml_m wa wa' nm nf nf' nr nr' draw draw' rule rule' thr C C' w0 w0' w w' nj nj' store store' ext ext' smod smod' w1 w1' pm om ro,
  let n := M_Data.frows fr in
  S_Data.reachable fr s -> unclustered s -> sound_randomness rd -> (0 < n)%nat -> S_Data.reachable fr' s' -> unclustered s' -> sound_randomness rd' ->
  irm_init L rd fr s ml_g ml_m nf nr (PStr "ATTE") wa (PBool nm) rule (PFloat thr) draw = Ok (C, w0) -> later C w0 w -> reliable L f g rd w ->
  irm_init L rd' fr' s' ml_g ml_m nf' nr' (PStr "ATTE") wa' (PBool nm) rule' (PFloat thr) draw' = Ok (C', w0') -> later C' w0' w' -> reliable L f g rd' w' ->
  rearranged pm om ro fr s w fr' s' w' -> moved_weights n pm ro wa wa' ->
  (forall c, In c (M_Data.r_d (M_Data.dd_roles s)) -> labels_seen L g (ly_classifier ml_g) w n (outcome fr s) (fun j => col fr c j = 0) /\ labels_seen L g (ly_classifier ml_g) w n (outcome fr s) (fun j => col fr c j = 1) /\ labels_seen L g true w n (col fr c) everyone) ->
  fit C nj store ext smod w = (w1, Ok tt) -> fit C' nj' store' ext' smod' w' = (w1', Ok tt) ->
  exists dcol mc F F' sm sm', M_Data.r_d (M_Data.dd_roles s) = [dcol] /\ runs_on mc "ml_m" ml_m true /\ fit_done w w1 F sm 1 /\ fit_done w' w1' F' sm' 1 /\ same_aggregates F F' ro (length sm) 1 /\
    forall r fs, nth_error sm r = Some fs -> 
      followed L f g n pm ext ext' dcol "ml_g0" r (ro r) -> followed L f g n pm ext ext' dcol "ml_m" r (ro r) ->
      exists m0 m, used_prediction L f g mc w n ext r 0 dcol "ml_m" "ml_m" (covariates fr s dcol) (col fr dcol) whole_train fs m0 /\ clipped n true thr m0 m /\ (sumf n (fun i => wg (weights_of wa r) i * col fr dcol i) <> 0 -> off_bounds n (ps_adjust n m (col fr dcol) nm) -> same_estimates_at F F' 0 r (ro r)).
Proof.
  intros until ro. intros n Re Un Rd Hn Re' Un' Rd' H La Rl H' La' Rl' Tw Wm Hl Hf Hf'.
  destruct Tw as [Om T1 T2 Hy Hd T3 T4]. fold n in Om, Hy, Hd. assert (Hn' : (0 < M_Data.frows fr')%nat) by (rewrite T1; exact Hn).
  destruct (atte_end E P L f g rd fr s ml_g ml_m nf nr wa nm rule thr draw C w0 w nj store ext smod w1 Re Un Rd Hn H La) as (dc & mc & Bt & O & R1 & R2 & Z).
  destruct (atte_end E P L f g rd' fr' s' ml_g ml_m nf' nr' wa' nm rule' thr draw' C' w0' w' nj' store' ext' smod' w1' Re' Un' Rd' Hn' H' La') as (dc' & mc' & Bt' & O' & R1' & R2' & Z'). cbv zeta in Z, Z'.
  assert (Rg : forall sm r fs, m_smpls (w_obj w) = Some sm -> nth_error sm r = Some fs -> forall h j, In h fs -> In j (fst h) -> (j < n)%nat).
  { destruct (irm_made L rd fr s Re Rd _ _ _ _ _ _ _ _ _ _ _ _ H) as (c & mc0 & nm0 & th0 & bo & st & _ & Ec & Sr & _). subst C. rewrite (plain_ctx fr s Re _ Un) in *. apply (ranges_of _ w0 w n Sr La); reflexivity. }
  assert (Vs : forall F, current_fw w1 F -> plain_results F n).
  { destruct (irm_made L rd fr s Re Rd _ _ _ _ _ _ _ _ _ _ _ _ H) as (c & mc0 & nm0 & th0 & bo & st & _ & Ec & Sr & _). subst C. rewrite (plain_ctx fr s Re _ Un) in *. refine (plain_vs _ w nj store ext smod w1 n _ _ Hn _ (reached_later _ _ _ Sr La) Hf); [first [discriminate|exact (some_treatment fr s Re)]|reflexivity|reflexivity]. }
  assert (Vs' : forall F, current_fw w1' F -> plain_results F n).
  { destruct (irm_made L rd' fr' s' Re' Rd' _ _ _ _ _ _ _ _ _ _ _ _ H') as (c & mc0 & nm0 & th0 & bo & st & _ & Ec & Sr & _). subst C'. rewrite (plain_ctx fr' s' Re' _ Un') in *. refine (plain_vs _ w' nj' store' ext' smod' w1' n _ _ Hn _ (reached_later _ _ _ Sr La') Hf'); [first [discriminate|exact (some_treatment fr' s' Re')]|reflexivity|exact T1]. }
  clear H H' La La'. destruct Bt as (Bd & _), Bt' as (Bd' & _). rewrite T2 in Bd'.
  assert (dc' = dc) as -> by congruence. destruct (Hd dc) as (Ad & Sc); [rewrite Bd; left; reflexivity|]. specialize (Hl dc ltac:(rewrite Bd; left; reflexivity)). pose proof Ad as Ed.
  pose proof Ad as Al. pose proof Ed as El.
  assert (G0 : forall z j, (j < n)%nat -> col fr' dc (pm j) = z <-> col fr dc j = z) by (intros z j Hj; rewrite (El j Hj); tauto).
  destruct Hl as (Hl0 & Hl1 & Hl2).
  destruct Z as (F & sm & D & Z); [exact (reliable_sound L f g mc rd w O Rl)|apply (seen_everywhere L g mc w n _ _ _ _ (proj2 R1)), Hl0|apply (seen_everywhere L g mc w n _ _ _ _ (proj2 R1)), Hl1|apply (seen_everywhere L g mc w n _ _ _ _ (proj2 R2)), Hl2|exact Hf|].
  assert (Es : m_smpls (w_obj w) = Some sm) by apply D.
  destruct Z' as (F' & sm' & D' & Z'); [exact (reliable_sound L f g mc' rd' w' O' Rl')|apply (seen_everywhere L g mc' w' _ _ _ _ _ (proj2 R1')); refine (moved_seen n pm Om L g om ro _ w w' _ _ _ _ _ T1 T3 (ex_intro _ sm Es) Hy _ Hl0); intros j Hj; apply (G0 0 j Hj)|apply (seen_everywhere L g mc' w' _ _ _ _ _ (proj2 R1')); refine (moved_seen n pm Om L g om ro _ w w' _ _ _ _ _ T1 T3 (ex_intro _ sm Es) Hy _ Hl1); intros j Hj; apply (G0 1 j Hj)|apply (seen_everywhere L g mc' w' _ _ _ _ _ (proj2 R2')); exact (moved_seen n pm Om L g om ro _ w w' _ _ _ everyone everyone T1 T3 (ex_intro _ sm Es) Al (fun _ _ x => x) Hl2)|exact Hf'|].
  assert (Em' : m_smpls (w_obj w') = Some sm') by apply D'. assert (Ms : moved_split pm om ro sm sm') by (destruct (T3 sm Es) as (sm2 & Q2 & Ms); congruence).
  rewrite T1 in Z'. fold n in Z, Z'.
  exists dc, mc, F, F', sm, sm'. split; [exact Bd|]. split; [exact R2|]. split; [exact D|]. split; [exact D'|].
  split; [exact (moved_aggregates w w1 w' w1' F F' n _ pm om ro sm sm' D D' (Vs F (proj1 D)) (Vs' F' (proj1 D')) Ms)|].
  intros r fs Hr Cg0 Cm0. destruct (Z r fs Hr) as (g0 & g1 & m0 & m & Ug0 & Ug1 & Um0 & Cp & V). destruct (proj2 (proj2 Ms) r fs Hr) as (fs' & Hr' & Fs). destruct (Z' (ro r) fs' Hr') as (g0' & g1' & m0' & m' & Ug0' & Ug1' & Um0' & Cp' & V').
  pose proof (moved_prediction n pm Om L f g mc mc' w w' ext ext' (om r) r (ro r) 0 dc "ml_g0" "ml_g" _ _ _ _ _ _ _ _ fs fs' g0 g0' (proj1 R1) (proj1 R1') (proj2 R1) (proj2 R1') (fun l c => T4 l c r) (Rg sm r fs Es Hr) Fs (group_moved n pm Om _ _ (G0 0)) Sc Hy Cg0 Ug0 Ug0') as Ag0.
  pose proof (moved_prediction n pm Om L f g mc mc' w w' ext ext' (om r) r (ro r) 0 dc "ml_m" "ml_m" _ _ _ _ _ _ _ _ fs fs' m0 m0' (proj1 R2) (proj1 R2') (proj2 R2) (proj2 R2') (fun l c => T4 l c r) (Rg sm r fs Es Hr) Fs (whole_moved n pm) Sc Ad Cm0 Um0 Um0') as Am0.
  pose proof (moved_clip n pm Om thr _ _ _ _ Am0 Cp Cp') as Em. pose proof (moved_adjust n pm Om _ _ _ _ nm Em Ed) as Ema.
  exists m0, m. split; [exact Um0|]. split; [exact Cp|]. set (W := wg (weights_of wa r)) in *. intros N Ob. specialize (V N Ob).
  assert (Ob' : off_bounds n (ps_adjust n m' (col fr' dc) nm)) by exact (moved_bounds n pm Om _ _ Ema Ob).
  destruct (Wm r) as (Wa & _). set (W' := wg (weights_of wa' (ro r))) in *.
  assert (J : sumf n (fun i => W' i * col fr' dc i) = sumf n (fun i => W i * col fr dc i)) by (apply (moved_sum n pm Om); intros i Hi; subst W W'; rewrite (Wa i Hi), (Ed i Hi); reflexivity).
  assert (N' : sumf n (fun i => W' i * col fr' dc i) <> 0) by (rewrite J; exact N). specialize (V' N' Ob').
  assert (Hs : moved n pm (fun i => W i * (col fr dc i * (outcome fr s i - g0 i) - (1 - col fr dc i) * (ps_adjust n m (col fr dc) nm i / (1 - ps_adjust n m (col fr dc) nm i)) * (outcome fr s i - g0 i)))
    (fun i => W' i * (col fr' dc i * (outcome fr' s' i - g0' i) - (1 - col fr' dc i) * (ps_adjust n m' (col fr' dc) nm i / (1 - ps_adjust n m' (col fr' dc) nm i)) * (outcome fr' s' i - g0' i)))).
  { intros i Hi. subst W W'. rewrite (Wa i Hi), (Ed i Hi), (Ema i Hi), (Hy i Hi), (Ag0 i Hi). reflexivity. }
  pose proof (moved_sum n pm Om _ _ Hs) as Ht.
  eapply (moved_estimate n pm Om F F' 0 r (ro r) _ _ _ _ _ _ V V'); [rewrite J; reflexivity|rewrite J, Ht; reflexivity|].
  intros i Hi. pose proof (Hs i Hi) as Hi'. cbv beta in Hi' |- *. rewrite Hi', J, Ht, (Ed i Hi). subst W W'. rewrite (Wa i Hi). reflexivity.
Qed.

Lemma apo_order : forall (E P : Type) (L : learner E row P) f g rd rd' fr fr' s s' ml_g ml_m level score score' wa wa' nm nf nf' nr nr' draw draw' rule rule' thr C C' w0 w0' w w' nj nj' store store' ext ext' smod smod' w1 w1' pm om ro,
  let n := M_Data.frows fr in
  S_Data.reachable fr s -> unclustered s -> sound_randomness rd -> (0 < n)%nat -> S_Data.reachable fr' s' -> unclustered s' -> sound_randomness rd' ->
  apo_init L rd fr s ml_g ml_m level nf nr score wa (PBool nm) rule (PFloat thr) draw = Ok (C, w0) -> later C w0 w -> reliable L f g rd w ->
  apo_init L rd' fr' s' ml_g ml_m level nf' nr' score' wa' (PBool nm) rule' (PFloat thr) draw' = Ok (C', w0') -> later C' w0' w' -> reliable L f g rd' w' ->
  rearranged pm om ro fr s w fr' s' w' -> moved_weights n pm ro wa wa' ->
  (forall c, In c (M_Data.r_d (M_Data.dd_roles s)) -> labels_seen L g (ly_classifier ml_g) w n (outcome fr s) (fun j => at_level level (col fr c) j = 0) /\ labels_seen L g (ly_classifier ml_g) w n (outcome fr s) (fun j => at_level level (col fr c) j = 1) /\ labels_seen L g true w n (at_level level (col fr c)) everyone) ->
  fit C nj store ext smod w = (w1, Ok tt) -> fit C' nj' store' ext' smod' w' = (w1', Ok tt) ->
  exists dcol mc F F' sm sm', M_Data.r_d (M_Data.dd_roles s) = [dcol] /\ runs_on mc "ml_m" ml_m true /\ fit_done w w1 F sm 1 /\ fit_done w' w1' F' sm' 1 /\ same_aggregates F F' ro (length sm) 1 /\
    forall r fs, nth_error sm r = Some fs -> (r < m_n_rep (w_obj w0))%nat -> (ro r < m_n_rep (w_obj w0'))%nat ->
      followed L f g n pm ext ext' dcol "ml_g_d_lvl1" r (ro r) -> followed L f g n pm ext ext' dcol "ml_m" r (ro r) ->
      exists m0 m, used_prediction L f g mc w n ext r 0 dcol "ml_m" "ml_m" (covariates fr s dcol) (at_level level (col fr dcol)) whole_train fs m0 /\ clipped n true thr m0 m /\
        ((forall i, (i < n)%nat -> ps_adjust n m (at_level level (col fr dcol)) nm i <> 0) -> same_estimates_at F F' 0 r (ro r)).
Proof.
  intros until ro. intros n Re Un Rd Hn Re' Un' Rd' H La Rl H' La' Rl' Tw Wm Hl Hf Hf'.
  destruct Tw as [Om T1 T2 Hy Hd T3 T4]. fold n in Om, Hy, Hd. assert (Hn' : (0 < M_Data.frows fr')%nat) by (rewrite T1; exact Hn).
  destruct (apo_end E P L f g rd fr s ml_g ml_m level nf nr score wa nm rule thr draw C w0 w nj store ext smod w1 Re Un Rd Hn H La) as (dc & mc & Bt & O & R1 & R2 & Z).
  destruct (apo_end E P L f g rd' fr' s' ml_g ml_m level nf' nr' score' wa' nm rule' thr draw' C' w0' w' nj' store' ext' smod' w1' Re' Un' Rd' Hn' H' La') as (dc' & mc' & Bt' & O' & R1' & R2' & Z'). cbv zeta in Z, Z'.
  assert (Rg : forall sm r fs, m_smpls (w_obj w) = Some sm -> nth_error sm r = Some fs -> forall h j, In h fs -> In j (fst h) -> (j < n)%nat).
  { destruct (apo_made L rd fr s Re Rd _ _ _ _ _ _ _ _ _ _ _ _ _ H) as (c & mc0 & nm0 & th0 & bo & st & _ & Ec & Sr & _). subst C. rewrite (plain_ctx fr s Re _ Un) in *. apply (ranges_of _ w0 w n Sr La); reflexivity. }
  assert (Vs : forall F, current_fw w1 F -> plain_results F n).
  { destruct (apo_made L rd fr s Re Rd _ _ _ _ _ _ _ _ _ _ _ _ _ H) as (c & mc0 & nm0 & th0 & bo & st & _ & Ec & Sr & _). subst C. rewrite (plain_ctx fr s Re _ Un) in *. refine (plain_vs _ w nj store ext smod w1 n _ _ Hn _ (reached_later _ _ _ Sr La) Hf); [first [discriminate|exact (some_treatment fr s Re)]|reflexivity|reflexivity]. }
  assert (Vs' : forall F, current_fw w1' F -> plain_results F n).
  { destruct (apo_made L rd' fr' s' Re' Rd' _ _ _ _ _ _ _ _ _ _ _ _ _ H') as (c & mc0 & nm0 & th0 & bo & st & _ & Ec & Sr & _). subst C'. rewrite (plain_ctx fr' s' Re' _ Un') in *. refine (plain_vs _ w' nj' store' ext' smod' w1' n _ _ Hn _ (reached_later _ _ _ Sr La') Hf'); [first [discriminate|exact (some_treatment fr' s' Re')]|reflexivity|exact T1]. }
  clear H H' La La'. rename Bt into Bd. rename Bt' into Bd'. rewrite T2 in Bd'.
  assert (dc' = dc) as -> by congruence. destruct (Hd dc) as (Ad & Sc); [rewrite Bd; left; reflexivity|]. specialize (Hl dc ltac:(rewrite Bd; left; reflexivity)). pose proof Ad as Ed.
  assert (El : moved n pm (at_level level (col fr dc)) (at_level level (col fr' dc))) by (intros i Hi; unfold at_level; rewrite (Ed i Hi); reflexivity).
  pose proof El as Al.
  assert (G0 : forall z j, (j < n)%nat -> at_level level (col fr' dc) (pm j) = z <-> at_level level (col fr dc) j = z) by (intros z j Hj; rewrite (El j Hj); tauto).
  destruct Hl as (Hl0 & Hl1 & Hl2).
  destruct Z as (F & sm & D & Z); [exact (reliable_sound L f g mc rd w O Rl)|apply (seen_everywhere L g mc w n _ _ _ _ (proj2 R1)), Hl0|apply (seen_everywhere L g mc w n _ _ _ _ (proj2 R1)), Hl1|apply (seen_everywhere L g mc w n _ _ _ _ (proj2 R2)), Hl2|exact Hf|].
  assert (Es : m_smpls (w_obj w) = Some sm) by apply D.
  destruct Z' as (F' & sm' & D' & Z'); [exact (reliable_sound L f g mc' rd' w' O' Rl')|apply (seen_everywhere L g mc' w' _ _ _ _ _ (proj2 R1')); refine (moved_seen n pm Om L g om ro _ w w' _ _ _ _ _ T1 T3 (ex_intro _ sm Es) Hy _ Hl0); intros j Hj; apply (G0 0 j Hj)|apply (seen_everywhere L g mc' w' _ _ _ _ _ (proj2 R1')); refine (moved_seen n pm Om L g om ro _ w w' _ _ _ _ _ T1 T3 (ex_intro _ sm Es) Hy _ Hl1); intros j Hj; apply (G0 1 j Hj)|apply (seen_everywhere L g mc' w' _ _ _ _ _ (proj2 R2')); exact (moved_seen n pm Om L g om ro _ w w' _ _ _ everyone everyone T1 T3 (ex_intro _ sm Es) Al (fun _ _ x => x) Hl2)|exact Hf'|].
  assert (Em' : m_smpls (w_obj w') = Some sm') by apply D'. assert (Ms : moved_split pm om ro sm sm') by (destruct (T3 sm Es) as (sm2 & Q2 & Ms); congruence).
  rewrite T1 in Z'. fold n in Z, Z'.
  exists dc, mc, F, F', sm, sm'. split; [exact Bd|]. split; [exact R2|]. split; [exact D|]. split; [exact D'|].
  split; [exact (moved_aggregates w w1 w' w1' F F' n _ pm om ro sm sm' D D' (Vs F (proj1 D)) (Vs' F' (proj1 D')) Ms)|].
  intros r fs Hr Q1 Q2 Cg1 Cm0. destruct (Z r fs Hr Q1) as (g1 & m0 & m & Ug1 & Um0 & Cp & V). destruct (proj2 (proj2 Ms) r fs Hr) as (fs' & Hr' & Fs). destruct (Z' (ro r) fs' Hr' Q2) as (g1' & m0' & m' & Ug1' & Um0' & Cp' & V').
  pose proof (moved_prediction n pm Om L f g mc mc' w w' ext ext' (om r) r (ro r) 0 dc "ml_g_d_lvl1" "ml_g" _ _ _ _ _ _ _ _ fs fs' g1 g1' (proj1 R1) (proj1 R1') (proj2 R1) (proj2 R1') (fun l c => T4 l c r) (Rg sm r fs Es Hr) Fs (group_moved n pm Om _ _ (G0 1)) Sc Hy Cg1 Ug1 Ug1') as Ag1.
  pose proof (moved_prediction n pm Om L f g mc mc' w w' ext ext' (om r) r (ro r) 0 dc "ml_m" "ml_m" _ _ _ _ _ _ _ _ fs fs' m0 m0' (proj1 R2) (proj1 R2') (proj2 R2) (proj2 R2') (fun l c => T4 l c r) (Rg sm r fs Es Hr) Fs (whole_moved n pm) Sc Al Cm0 Um0 Um0') as Am0.
  pose proof (moved_clip n pm Om thr _ _ _ _ Am0 Cp Cp') as Em. pose proof (moved_adjust n pm Om _ _ _ _ nm Em El) as Ema.
  exists m0, m. split; [exact Um0|]. split; [exact Cp|]. intro Ob. specialize (V Ob).
  assert (Ob' : forall i, (i < n)%nat -> ps_adjust n m' (at_level level (col fr' dc)) nm i <> 0) by (intros j Hj; destruct (moved_from n pm Om j Hj) as (i & Hi & <-); rewrite (Ema i Hi); exact (Ob i Hi)). specialize (V' Ob').
  destruct (Wm r) as (Wa & Wb). set (W := weights_of wa r) in *. set (W' := weights_of wa' (ro r)) in *.
  assert (Hs : moved n pm (fun i => wg W i * g1 i + resid_weights W i * (at_level level (col fr dc) i * (outcome fr s i - g1 i) / ps_adjust n m (at_level level (col fr dc)) nm i))
    (fun i => wg W' i * g1' i + resid_weights W' i * (at_level level (col fr' dc) i * (outcome fr' s' i - g1' i) / ps_adjust n m' (at_level level (col fr' dc)) nm i))).
  { intros i Hi. rewrite (Wa i Hi), (Wb i Hi), (El i Hi), (Ema i Hi), (Hy i Hi), (Ag1 i Hi). reflexivity. }
  pose proof (moved_mean n pm Om _ _ Hs) as Ht. pose proof (moved_mean n pm Om _ _ Wa) as Hw.
  eapply (moved_estimate n pm Om F F' 0 r (ro r) _ _ _ _ _ _ V V'); [rewrite ?Hw; reflexivity|rewrite ?Hw; exact Ht|].
  intros i Hi. pose proof (Hs i Hi) as Hi'. cbv beta in Hi' |- *. rewrite Hi', Ht, ?Hw, ?(Wa i Hi). reflexivity.
Qed.


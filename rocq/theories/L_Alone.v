(** Several treatment variables: proofs. *)
From Verif Require Export S_Alone L_EqualFit2.
From Verif Require Import L_InitFit L_InitMade L_RowOrder L_Estimation.
From Coq Require Import Lia Lra.
Local Open Scope R_scope.
Local Open Scope string_scope.

Lemma alone_covariates {P} fr s s' c (w w' : world P) : alone s w c s' w' -> forall i, covariates fr s' c i = covariates fr s c i.
Proof.
  intros [_ D X _] i. unfold covariates, S_Data.features. rewrite D, X. f_equal. cbn [filter]. rewrite String.eqb_refl. cbn [negb]. destruct (M_Data.dd_other s'); rewrite app_nil_r; reflexivity.
Qed.
Lemma alone_aggregates {P} (w w1 w' w1' : world P) F F' n k t sm : fit_done w w1 F sm k -> fit_done w' w1' F' sm 1 -> plain_results F n -> plain_results F' n -> (t < k)%nat ->
  (forall r, (r < length sm)%nat -> alone_at F F' t r) -> alone_overall F F' t.
Proof.
  intros (_ & _ & A & _ & Nr & Nt) (_ & _ & A' & _ & Nr' & Nt') V V' Ht Q.
  destruct (A t) as (A1 & A2); [lia|]. destruct (A' 0%nat) as (B1 & B2); [lia|]. rewrite Nr in A1, A2. rewrite Nr' in B1, B2. rewrite (V t) in A2 by lia. rewrite (V' 0%nat) in B2 by lia.
  assert (Et : at_ (fw_thetas F') [0%nat] = at_ (fw_thetas F) [t]). { rewrite A1, B1. apply medianf_ext. intros r Hr. apply (Q r Hr). }
  split; [exact Et|]. rewrite A2, B2. f_equal. apply medianf_ext. intros r Hr. destruct (Q r Hr) as (-> & ->). rewrite Et. reflexivity.
Qed.

Lemma plr_alone : forall (E P : Type) (L : learner E row P) f g rd rd' fr s s' t c ml_l ml_m ml_g ml_g' nf nf' nr nr' draw draw' C C' w0 w0' w w' nj nj' store store' ext ext' smod smod' w1 w1',
  let n := M_Data.frows fr in let dcols := M_Data.r_d (M_Data.dd_roles s) in
  S_Data.reachable fr s -> unclustered s -> sound_randomness rd -> (0 < n)%nat -> S_Data.reachable fr s' -> unclustered s' -> sound_randomness rd' ->
  plr_init L rd fr s ml_l ml_m ml_g nf nr (PStr "partialling out") draw = Ok (C, w0) -> later C w0 w -> reliable L f g rd w ->
  plr_init L rd' fr s' ml_l ml_m ml_g' nf' nr' (PStr "partialling out") draw' = Ok (C', w0') -> later C' w0' w' -> reliable L f g rd' w' ->
  nth_error dcols t = Some c -> alone s w c s' w' -> (forall k, In k dcols -> labels_seen L g (ly_classifier ml_m) w n (col fr k) everyone) ->
  fit C nj store ext smod w = (w1, Ok tt) -> fit C' nj' store' ext' smod' w' = (w1', Ok tt) ->
  exists mc F F' sm, runs_on mc "ml_m" ml_m (ly_classifier ml_m) /\ fit_done w w1 F sm (length dcols) /\ fit_done w' w1' F' sm 1 /\
    ((forall r, (r < length sm)%nat -> alone_at F F' t r) -> alone_overall F F' t) /\
    forall r fs, nth_error sm r = Some fs -> matched w w' ext ext' c "ml_l" c "ml_l" r -> matched w w' ext ext' c "ml_m" c "ml_m" r ->
      exists m, used_prediction L f g mc w n ext r t c "ml_m" "ml_m" (covariates fr s c) (col fr c) whole_train fs m /\
        (sumf n (fun i => (col fr c i - m i) ^ 2) <> 0 -> alone_at F F' t r).
Proof.
  intros until w1'. intros n dcols Re Un Rd Hn Re' Un' Rd' H La Rl H' La' Rl' Ht Al Hl Hf Hf'. pose proof (alone_covariates fr s s' c w w' Al) as Sc0. destruct Al as [Ty Td _ T3].
  assert (Sc : forall i, (i < n)%nat -> covariates fr s' c i = covariates fr s c i) by auto. clear Sc0. assert (T2 : forall i, (i < n)%nat -> outcome fr s' i = outcome fr s i) by (intros i _; unfold outcome; rewrite Ty; reflexivity).
  destruct (plr_end E P L f g rd fr s ml_l ml_m ml_g nf nr draw C w0 w nj store ext smod w1 Re Un Rd Hn H La) as (mc & O & R1 & R2 & Z).
  destruct (plr_end E P L f g rd' fr s' ml_l ml_m ml_g' nf' nr' draw' C' w0' w' nj' store' ext' smod' w1' Re' Un' Rd' Hn H' La') as (mc' & O' & R1' & R2' & Z'). cbv zeta in Z, Z'.
  assert (Rg : (forall sm r fs, m_smpls (w_obj w) = Some sm -> nth_error sm r = Some fs -> forall h j, In h fs -> In j (fst h) -> (j < n)%nat) /\ forall F, current_fw w1 F -> plain_results F n).
  { destruct (plr_made L rd fr s Re Rd _ _ _ _ _ _ _ _ _ H) as (mc0 & bin & Ec & Sr & _). subst C. rewrite (plain_ctx fr s Re _ Un) in *. split; [apply (ranges_of _ w0 w n Sr La); reflexivity|]. refine (plain_vs _ w nj store ext smod w1 n _ _ Hn _ (reached_later _ _ _ Sr La) Hf); [exact (some_treatment fr s Re)|reflexivity|reflexivity]. }
  assert (Vs' : forall F, current_fw w1' F -> plain_results F n).
  { destruct (plr_made L rd' fr s' Re' Rd' _ _ _ _ _ _ _ _ _ H') as (mc0 & bin & Ec & Sr & _). subst C'. rewrite (plain_ctx fr s' Re' _ Un') in *. refine (plain_vs _ w' nj' store' ext' smod' w1' n _ _ Hn _ (reached_later _ _ _ Sr La') Hf'); [exact (some_treatment fr s' Re')|reflexivity|reflexivity]. }
  destruct Rg as (Rg & Vs). clear H H' La La'. assert (Ic : In c dcols) by exact (nth_error_In _ _ Ht).
  assert (Hl' : labels_seen L g (ly_classifier ml_m) w' n (col fr c) everyone).
  { exact (seen_twin L g _ w w' n n 1 0 _ _ everyone everyone eq_refl T3 (same_affine n (col fr c) (col fr c) (fun _ _ => eq_refl)) (fun _ _ x => x) (Hl c Ic)). }
  destruct Z as (F & sm & D1 & D2 & D3 & Es & D5 & D6 & Z); [exact (reliable_sound L f g mc rd w O Rl)|apply unseen_everywhere, R1| |exact Hf|].
  { intros k Ik. apply (seen_everywhere L g mc w n "ml_m" _ _ _ (proj2 R2)), Hl, Ik. }
  destruct Z' as (F' & sm' & D1' & D2' & D3' & Es' & D5' & D6' & Z'); [exact (reliable_sound L f g mc' rd' w' O' Rl')|apply unseen_everywhere, R1'| |exact Hf'|].
  { intros k Ik. rewrite Td in Ik. destruct Ik as [<-|[]]. apply (seen_everywhere L g mc' w' n "ml_m" _ _ _ (proj2 R2')), Hl'. }
  assert (sm' = sm) as -> by congruence. rewrite Td in D6', Z'. fold n dcols in Z, Z'. cbn [length] in D6'.
  assert (Dn : fit_done w w1 F sm (length dcols)) by exact (conj D1 (conj D2 (conj D3 (conj Es (conj D5 D6))))). assert (Dn' : fit_done w' w1' F' sm 1) by exact (conj D1' (conj D2' (conj D3' (conj Es' (conj D5' D6'))))).
  exists mc, F, F', sm. split; [exact R2|]. split; [exact Dn|]. split; [exact Dn'|].
  split; [apply (alone_aggregates w w1 w' w1' F F' n _ t sm Dn Dn' (Vs F D1) (Vs' F' D1')); apply nth_error_Some; congruence|].
  intros r fs Hr Ml Mm. destruct (Z r t fs c Hr Ht) as (l & m & U1 & U2 & V). destruct (Z' r 0%nat fs c Hr eq_refl) as (l' & m' & U1' & U2' & V').
  pose proof (matched_prediction L f g mc mc' w w' n ext ext' r t 0 c c "ml_l" "ml_l" "ml_l" "ml_l" _ _ _ _ _ _ _ _ fs l l' (proj1 R1) (proj1 R1') (proj2 R1) (proj2 R1') (Rg sm r fs Es Hr) (whole_match n) Sc U1 U1' T2 Ml) as El.
  pose proof (matched_prediction L f g mc mc' w w' n ext ext' r t 0 c c "ml_m" "ml_m" "ml_m" "ml_m" _ _ _ _ _ _ _ _ fs m m' (proj1 R2) (proj1 R2') (proj2 R2) (proj2 R2') (Rg sm r fs Es Hr) (whole_match n) Sc U2 U2' (fun _ _ => eq_refl) Mm) as Em.
  exists m. split; [exact U2|]. intro N. destruct (V N) as (Vt & Vu).
  assert (J : sumf n (fun i => (col fr c i - m' i) ^ 2) = sumf n (fun i => (col fr c i - m i) ^ 2)) by (apply sumf_ext; intros i Hi; rewrite (Em i Hi); reflexivity).
  assert (K : sumf n (fun i => (col fr c i - m' i) * (outcome fr s' i - l' i)) = sumf n (fun i => (col fr c i - m i) * (outcome fr s i - l i))) by (apply sumf_ext; intros i Hi; rewrite (Em i Hi), (T2 i Hi), (El i Hi); reflexivity).
  destruct (V' ltac:(rewrite J; exact N)) as (Vt' & Vu'). rewrite J, K in *. unfold alone_at. rewrite Vt, Vt', Vu, Vu'. split; [reflexivity|].
  do 2 f_equal. apply sumf_ext. intros i Hi. rewrite (Em i Hi), (T2 i Hi), (El i Hi). reflexivity.
Qed.

Lemma pliv_alone : forall (E P : Type) (L : learner E row P) f g rd rd' fr s s' t c zc proj proj' ml_l ml_m ml_r ml_g ml_g' nf nf' nr nr' draw draw' C C' w0 w0' w w' nj nj' store store' ext ext' smod smod' w1 w1',
  let n := M_Data.frows fr in let dcols := M_Data.r_d (M_Data.dd_roles s) in
  S_Data.reachable fr s -> unclustered s -> sound_randomness rd -> (0 < n)%nat -> S_Data.reachable fr s' -> unclustered s' -> sound_randomness rd' ->
  M_Data.r_z (M_Data.dd_roles s) = Some [zc] -> M_Data.r_z (M_Data.dd_roles s') = Some [zc] ->
  pliv_init L rd fr s proj ml_l ml_m ml_r ml_g nf nr (PStr "partialling out") draw = Ok (C, w0) -> later C w0 w -> reliable L f g rd w ->
  pliv_init L rd' fr s' proj' ml_l ml_m ml_r ml_g' nf' nr' (PStr "partialling out") draw' = Ok (C', w0') -> later C' w0' w' -> reliable L f g rd' w' ->
  nth_error dcols t = Some c -> alone s w c s' w' ->
  fit C nj store ext smod w = (w1, Ok tt) -> fit C' nj' store' ext' smod' w' = (w1', Ok tt) ->
  exists mc F F' sm, runs_on mc "ml_m" ml_m false /\ runs_on mc "ml_r" ml_r false /\ fit_done w w1 F sm (length dcols) /\ fit_done w' w1' F' sm 1 /\
    ((forall r, (r < length sm)%nat -> alone_at F F' t r) -> alone_overall F F' t) /\
    forall r fs, nth_error sm r = Some fs -> matched w w' ext ext' c "ml_l" c "ml_l" r -> matched w w' ext ext' c "ml_m" c "ml_m" r -> matched w w' ext ext' c "ml_r" c "ml_r" r ->
      exists m q, used_prediction L f g mc w n ext r t c "ml_m" "ml_m" (covariates fr s c) (col fr zc) whole_train fs m /\ used_prediction L f g mc w n ext r t c "ml_r" "ml_r" (covariates fr s c) (col fr c) whole_train fs q /\
        (sumf n (fun i => (col fr zc i - m i) * (col fr c i - q i)) <> 0 -> alone_at F F' t r).
Proof.
  intros until w1'. intros n dcols Re Un Rd Hn Re' Un' Rd' Hz Hz' H La Rl H' La' Rl' Ht Al Hf Hf'. pose proof (alone_covariates fr s s' c w w' Al) as Sc0. destruct Al as [Ty Td _ T3].
  assert (Sc : forall i, (i < n)%nat -> covariates fr s' c i = covariates fr s c i) by auto. clear Sc0. assert (T2 : forall i, (i < n)%nat -> outcome fr s' i = outcome fr s i) by (intros i _; unfold outcome; rewrite Ty; reflexivity).
  destruct (pliv_end E P L f g rd fr s zc proj ml_l ml_m ml_r ml_g nf nr draw C w0 w nj store ext smod w1 Re Un Rd Hn Hz H La) as (mc & O & R1 & R2 & R3 & Z).
  destruct (pliv_end E P L f g rd' fr s' zc proj' ml_l ml_m ml_r ml_g' nf' nr' draw' C' w0' w' nj' store' ext' smod' w1' Re' Un' Rd' Hn Hz' H' La') as (mc' & O' & R1' & R2' & R3' & Z'). cbv zeta in Z, Z'.
  assert (Rg : (forall sm r fs, m_smpls (w_obj w) = Some sm -> nth_error sm r = Some fs -> forall h j, In h fs -> In j (fst h) -> (j < n)%nat) /\ forall F, current_fw w1 F -> plain_results F n).
  { destruct (pliv_made L rd fr s Re Rd _ _ _ _ _ _ _ _ _ _ _ H) as (z0 & more & mc0 & Ez & _ & Ec & Sr & _). rewrite Hz in Ez. injection Ez as <- <-. subst C. rewrite (plain_ctx fr s Re _ Un) in *. split; [apply (ranges_of _ w0 w n Sr La); reflexivity|]. refine (plain_vs _ w nj store ext smod w1 n _ _ Hn _ (reached_later _ _ _ Sr La) Hf); [exact (some_treatment fr s Re)|reflexivity|reflexivity]. }
  assert (Vs' : forall F, current_fw w1' F -> plain_results F n).
  { destruct (pliv_made L rd' fr s' Re' Rd' _ _ _ _ _ _ _ _ _ _ _ H') as (z0 & more & mc0 & Ez & _ & Ec & Sr & _). rewrite Hz' in Ez. injection Ez as <- <-. subst C'. rewrite (plain_ctx fr s' Re' _ Un') in *. refine (plain_vs _ w' nj' store' ext' smod' w1' n _ _ Hn _ (reached_later _ _ _ Sr La') Hf'); [exact (some_treatment fr s' Re')|reflexivity|reflexivity]. }
  destruct Rg as (Rg & Vs). clear H H' La La'. assert (Ic : In c dcols) by exact (nth_error_In _ _ Ht).
  destruct Z as (F & sm & Dn & Z); [exact (reliable_sound L f g mc rd w O Rl)|apply unseen_everywhere, R1|apply unseen_everywhere, R2|intros; apply unseen_everywhere, R3|exact Hf|].
  destruct Z' as (F' & sm' & Dn' & Z'); [exact (reliable_sound L f g mc' rd' w' O' Rl')|apply unseen_everywhere, R1'|apply unseen_everywhere, R2'|intros; apply unseen_everywhere, R3'|exact Hf'|].
  assert (Es : m_smpls (w_obj w) = Some sm) by apply Dn. assert (sm' = sm) as -> by (assert (m_smpls (w_obj w') = Some sm') by apply Dn'; congruence). rewrite Td in Dn', Z'. fold n dcols in Z, Z'. cbn [length] in Dn'.
  exists mc, F, F', sm. split; [exact R2|]. split; [exact R3|]. split; [exact Dn|]. split; [exact Dn'|].
  split; [apply (alone_aggregates w w1 w' w1' F F' n _ t sm Dn Dn' (Vs F (proj1 Dn)) (Vs' F' (proj1 Dn'))); change (t < length dcols)%nat; apply nth_error_Some; congruence|].
  intros r fs Hr Ml Mm Mr. destruct (Z r t fs c Hr Ht) as (l & m & q & U1 & U2 & U3 & V). destruct (Z' r 0%nat fs c Hr eq_refl) as (l' & m' & q' & U1' & U2' & U3' & V').
  pose proof (matched_prediction L f g mc mc' w w' n ext ext' r t 0 c c "ml_l" "ml_l" "ml_l" "ml_l" _ _ _ _ _ _ _ _ fs l l' (proj1 R1) (proj1 R1') (proj2 R1) (proj2 R1') (Rg sm r fs Es Hr) (whole_match n) Sc U1 U1' T2 Ml) as El.
  pose proof (matched_prediction L f g mc mc' w w' n ext ext' r t 0 c c "ml_m" "ml_m" "ml_m" "ml_m" _ _ _ _ _ _ _ _ fs m m' (proj1 R2) (proj1 R2') (proj2 R2) (proj2 R2') (Rg sm r fs Es Hr) (whole_match n) Sc U2 U2' (fun _ _ => eq_refl) Mm) as Em.
  pose proof (matched_prediction L f g mc mc' w w' n ext ext' r t 0 c c "ml_r" "ml_r" "ml_r" "ml_r" _ _ _ _ _ _ _ _ fs q q' (proj1 R3) (proj1 R3') (proj2 R3) (proj2 R3') (Rg sm r fs Es Hr) (whole_match n) Sc U3 U3' (fun _ _ => eq_refl) Mr) as Eq.
  exists m, q. split; [exact U2|]. split; [exact U3|]. intro N. destruct (V N) as (Vt & Vu & _).
  assert (J : sumf n (fun i => (col fr zc i - m' i) * (col fr c i - q' i)) = sumf n (fun i => (col fr zc i - m i) * (col fr c i - q i))) by (apply sumf_ext; intros i Hi; rewrite (Em i Hi), (Eq i Hi); reflexivity).
  assert (K : sumf n (fun i => (col fr zc i - m' i) * (outcome fr s' i - l' i)) = sumf n (fun i => (col fr zc i - m i) * (outcome fr s i - l i))) by (apply sumf_ext; intros i Hi; rewrite (Em i Hi), (T2 i Hi), (El i Hi); reflexivity).
  destruct (V' ltac:(rewrite J; exact N)) as (Vt' & Vu' & _). rewrite J, K in *. unfold alone_at. rewrite Vt, Vt', Vu, Vu'. split; [reflexivity|].
  do 2 f_equal. apply sumf_ext. intros i Hi. rewrite (Em i Hi), (T2 i Hi), (El i Hi), (Eq i Hi). reflexivity.
Qed.

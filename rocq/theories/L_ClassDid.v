(** Complete fits: difference in differences and sample selection. *)
From Verif Require Export L_ClassFits.
From Coq Require Import Lia Lra FunctionalExtensionality.
Local Open Scope R_scope.
Local Open Scope res_scope.
Local Open Scope string_scope.

Lemma clipped_inside n tr thr m0 m : check_trimming tr (PFloat thr) = Ok tt -> clipped n tr thr m0 m -> inside n m.
Proof.
  intros H Cl i Hi. unfold check_trimming in H. destruct tr; [|discriminate H]. cbn [require] in H. destruct (rleb thr 0) eqn:E1; [discriminate H|]. destruct (rleb (1 / 2) thr) eqn:E2; [discriminate H|].
  apply rleb_false in E1. apply rleb_false in E2. rewrite (Cl i Hi). unfold Rmin, Rmax. repeat destruct (Rle_dec _ _); lra.
Qed.
Lemma minus_one_sum n : sumf n (fun _ => 1) = INR n. Proof. rewrite sumf_const. ring. Qed.

Section Classes.
Context {E P : Type}.
Variable L : learner E row P.
Variables (f : E -> row -> R) (g : E -> row -> list R).
Variable mc : machinery E P.
Notation Used := (used_prediction L f g mc).
Notation Labels := (labels_everywhere L g mc).
Notation Own w n r t col := (setup_of mc n r t (fun l => nth r (m_params (w_obj w) l col) None) (fun _ => None)).

(** Scores with derivative -1. *)
Lemma mean_estimate (C : ctx P) w out F r t (s : vec) : (0 < c_n C)%nat -> c_cluster C = None -> reports C w out F -> (r < fw_n_rep F)%nat -> (t < fw_n_thetas F)%nat ->
  (forall i, (i < c_n C)%nat -> no_a (out r t) i = -1 /\ no_b (out r t) i = s i) ->
  estimate_is F (c_n C) t r (meanf (c_n C) s) (fun i => s i - meanf (c_n C) s) (INR (c_n C)).
Proof.
  intros Hn Ec Rp Hr Ht Sc. assert (Hi : INR (c_n C) <> 0) by (apply not_0_INR; lia).
  pose proof (ratio_estimate C w out F r t (fun _ => 1) s Hn Ec Rp Hr Ht) as Q. cbv zeta in Q. rewrite minus_one_sum in Q.
  eapply estimate_eq; [apply Q; [intros i H; destruct (Sc i H) as (-> & ->); split; [ring|reflexivity]|exact Hi]|reflexivity|intros i _; unfold meanf; ring|reflexivity].
Qed.

Lemma did_obs_fit n dcol norm tr thr x y d strata w nj store ext smod w' : let C := did_ctx L mc n dcol true norm tr thr x y d strata in
  (0 < n)%nat -> check_trimming tr (PFloat thr) = Ok tt -> soundly_reached C w -> sound_learning L f g mc w ->
  Labels w n "ml_g" y (fun j => d j = 0) -> Labels w n "ml_g" y (fun j => d j = 1) -> Labels w n "ml_m" d everyone ->
  fit C nj store ext smod w = (w', Ok tt) ->
  exists F sm, fit_done w w' F sm 1 /\ forall r fs, nth_error sm r = Some fs -> exists g0 m0 m p,
      Used w n ext r 0 dcol "ml_g0" "ml_g" x y (group_rows n (fun j => d j = 0)) fs g0 /\
      Used w n ext r 0 dcol "ml_m" "ml_m" x d whole_train fs m0 /\ clipped n tr thr m0 m /\ share_of fs d p /\
      let odds := fun i => (1 - d i) * (m i / (1 - m i)) in
      let a := share_weight n norm d p in
      let s := fun i => (a i - share_weight n norm odds p i) * (y i - g0 i) in
      (share_ok n norm d p -> share_ok n norm odds p -> sumf n a <> 0 ->
       let theta := sumf n s / sumf n a in estimate_is F n 0 r theta (fun i => s i - theta * a i) (sumf n a)).
Proof.
  intros C Hn Ck Hw HL H0 H1 Hm H. start L f g mc C H Hw HL. assert (Es : m_smpls (w_obj w) = Some sm) by apply Fd. intros r fs Hr.
  destruct (K r 0%nat fs dcol Hr eq_refl) as (Hr' & Ht' & e & M & S & N). cbn [C did_ctx c_nuis c_n] in N, S.
  edestruct (did_obs L f g) as (g0 & g1 & m0 & m & p & N1 & _ & N2 & Tm & Sh & _ & _ & _ & Sc); [exact S|lab H0 Es Hr|lab H1 Es Hr|lab Hm Es Hr|exact N|].
  exists g0, m0, m, p. split; [used M N1|]. split; [used M N2|]. split; [exact Tm|]. split; [exact Sh|]. intros odds a s Ha Ho Hs theta.
  cbn [setup_of su_n] in Sc. destruct Sc as (Sa & Sb). pose proof (clipped_inside n tr thr m0 m Ck Tm) as In.
  apply (ratio_estimate C w out F r 0 a s Hn eq_refl Rp Hr' Ht'); [|exact Hs].
  intros i Hi. rewrite Sa, Sb. specialize (In i Hi). unfold s, a, did_score, did_weights, share_weight, share_ok in *. destruct norm; cbn [el_a el_b].
  - unfold odds. split; ring.
  - specialize (Ha i Hi). unfold odds. split; [ring|]. field. split; [lra|assumption].
Qed.

Lemma did_exp_fit n dcol norm tr thr x y d strata w nj store ext smod w' : let C := did_ctx L mc n dcol false norm tr thr x y d strata in
  (0 < n)%nat -> soundly_reached C w -> sound_learning L f g mc w ->
  Labels w n "ml_g" y (fun j => d j = 0) -> Labels w n "ml_g" y (fun j => d j = 1) ->
  fit C nj store ext smod w = (w', Ok tt) ->
  exists F sm, fit_done w w' F sm 1 /\ forall r fs, nth_error sm r = Some fs -> exists g0 g1 p,
      Used w n ext r 0 dcol "ml_g0" "ml_g" x y (group_rows n (fun j => d j = 0)) fs g0 /\
      Used w n ext r 0 dcol "ml_g1" "ml_g" x y (group_rows n (fun j => d j = 1)) fs g1 /\ share_of fs d p /\
      let a := share_weight n norm d p in
      let s := fun i => g1 i - g0 i + a i * (y i - g1 i) - share_weight n norm (compl d) (compl p) i * (y i - g0 i) in
      (share_ok n norm d p -> share_ok n norm (compl d) (compl p) -> estimate_is F n 0 r (meanf n s) (fun i => s i - meanf n s) (INR n)).
Proof.
  intros C Hn Hw HL H0 H1 H. start L f g mc C H Hw HL. assert (Es : m_smpls (w_obj w) = Some sm) by apply Fd. intros r fs Hr.
  destruct (K r 0%nat fs dcol Hr eq_refl) as (Hr' & Ht' & e & M & S & N). cbn [C did_ctx c_nuis c_n] in N, S.
  edestruct (did_exp L f g) as (g0 & g1 & p & N1 & N2 & Sh & _ & _ & Sc); [exact S|lab H0 Es Hr|lab H1 Es Hr|exact N|].
  exists g0, g1, p. split; [used M N1|]. split; [used M N2|]. split; [exact Sh|]. intros a s Ha Ho.
  cbn [setup_of su_n] in Sc. destruct (Sc (fun _ => 0)) as (Sa & Sb).
  apply (mean_estimate C w out F r 0 s Hn eq_refl Rp Hr' Ht').
  intros i Hi. rewrite Sa, Sb. unfold s, a, did_score, did_weights, share_weight, share_ok, compl in *. destruct norm; cbn [el_a el_b].
  - split; [ring|]. field. split; [exact Ho|exact Ha].
  - specialize (Ha i Hi). specialize (Ho i Hi). split; [ring|]. field. split; assumption.
Qed.

(** Four groups of the repeated cross sections. *)
Lemma cs_obs_fit n dcol norm tr thr x y d t strata w nj store ext smod w' : let C := cs_ctx L mc n dcol true norm tr thr x y d t strata in
  (0 < n)%nat -> check_trimming tr (PFloat thr) = Ok tt -> soundly_reached C w -> sound_learning L f g mc w ->
  (forall a b, (a = 0 \/ a = 1) -> (b = 0 \/ b = 1) -> Labels w n "ml_g" y (fun j => d j = a /\ t j = b)) -> Labels w n "ml_m" d everyone ->
  fit C nj store ext smod w = (w', Ok tt) ->
  exists F sm, fit_done w w' F sm 1 /\ forall r fs, nth_error sm r = Some fs -> exists g00 g01 g10 g11 m0 m p lam,
      Used w n ext r 0 dcol "ml_g_d0_t0" "ml_g" x y (group_rows n (fun j => d j = 0 /\ t j = 0)) fs g00 /\
      Used w n ext r 0 dcol "ml_g_d0_t1" "ml_g" x y (group_rows n (fun j => d j = 0 /\ t j = 1)) fs g01 /\
      Used w n ext r 0 dcol "ml_g_d1_t0" "ml_g" x y (group_rows n (fun j => d j = 1 /\ t j = 0)) fs g10 /\
      Used w n ext r 0 dcol "ml_g_d1_t1" "ml_g" x y (group_rows n (fun j => d j = 1 /\ t j = 1)) fs g11 /\
      Used w n ext r 0 dcol "ml_m" "ml_m" x d whole_train fs m0 /\ clipped n tr thr m0 m /\ share_of fs d p /\ share_of fs t lam /\
      let odds := fun i => m i / (1 - m i) in
      let d0t1 := fun i => (1 - d i) * t i * odds i in
      let d0t0 := fun i => (1 - d i) * (1 - t i) * odds i in
      let q1 := fun i => p i * lam i in let q0 := fun i => p i * (1 - lam i) in
      let a := share_weight n norm d p in
      let s := fun i => a i * (g11 i - g10 i - (g01 i - g00 i)) +
        share_weight n norm (both d t) q1 i * (y i - g11 i) - share_weight n norm (both d (compl t)) q0 i * (y i - g10 i) -
        (share_weight n norm d0t1 q1 i * (y i - g01 i) - share_weight n norm d0t0 q0 i * (y i - g00 i)) in
      (share_ok n norm d p -> share_ok n norm (both d t) q1 -> share_ok n norm (both d (compl t)) q0 -> share_ok n norm d0t1 q1 -> share_ok n norm d0t0 q0 -> sumf n a <> 0 ->
       let theta := sumf n s / sumf n a in estimate_is F n 0 r theta (fun i => s i - theta * a i) (sumf n a)).
Proof.
  intros C Hn Ck Hw HL Hg Hm H. start L f g mc C H Hw HL. assert (Es : m_smpls (w_obj w) = Some sm) by apply Fd. intros r fs Hr.
  destruct (K r 0%nat fs dcol Hr eq_refl) as (Hr' & Ht' & e & M & S & N). cbn [C cs_ctx c_nuis c_n] in N, S.
  edestruct (cs_obs L f g) as (g00 & g01 & g10 & g11 & m0 & m & p & lam & Ng & N2 & Tm & _ & Sh & Sl & Sc); [exact S| |lab Hm Es Hr|exact N|].
  { intros a b name Hin. apply (rep_labels L g mc w sm r 0 fs n) with (t := 0%nat) (r := r); [|exact Es|exact Hr] || (intros _; eapply rep_labels; [apply Hg|exact Es|exact Hr]);
    destruct Hin as [X|[X|[X|[X|[]]]]]; injection X as <- <- <-; auto. }
  exists g00, g01, g10, g11, m0, m, p, lam.
  split; [eapply rep_used; [apply M; cbn; tauto|apply (Ng 0 0 "ml_g_d0_t0" g00); cbn; tauto]|]. split; [eapply rep_used; [apply M; cbn; tauto|apply (Ng 0 1 "ml_g_d0_t1" g01); cbn; tauto]|].
  split; [eapply rep_used; [apply M; cbn; tauto|apply (Ng 1 0 "ml_g_d1_t0" g10); cbn; tauto]|]. split; [eapply rep_used; [apply M; cbn; tauto|apply (Ng 1 1 "ml_g_d1_t1" g11); cbn; tauto]|].
  split; [used M N2|]. split; [exact Tm|]. split; [exact Sh|]. split; [exact Sl|]. intros odds d0t1 d0t0 q1 q0 a s A1 A2 A3 A4 A5 Hs theta.
  cbn [setup_of su_n] in Sc. destruct Sc as (Sa & Sb).
  apply (ratio_estimate C w out F r 0 a s Hn eq_refl Rp Hr' Ht'); [|exact Hs].
  intros i Hi. rewrite Sa, Sb. unfold s, a, cs_score, cs_weight_a, cs_resid_weights, share_weight, both, compl. destruct norm; cbn [el_a el_b].
  - unfold d0t1, d0t0, odds. split; ring.
  - unfold d0t1, d0t0, odds, q1, q0, Rdiv. split; ring.
Qed.

Lemma cs_exp_fit n dcol norm tr thr x y d t strata w nj store ext smod w' : let C := cs_ctx L mc n dcol false norm tr thr x y d t strata in
  (0 < n)%nat -> soundly_reached C w -> sound_learning L f g mc w ->
  (forall a b, (a = 0 \/ a = 1) -> (b = 0 \/ b = 1) -> Labels w n "ml_g" y (fun j => d j = a /\ t j = b)) ->
  fit C nj store ext smod w = (w', Ok tt) ->
  exists F sm, fit_done w w' F sm 1 /\ forall r fs, nth_error sm r = Some fs -> exists g00 g01 g10 g11 p lam,
      Used w n ext r 0 dcol "ml_g_d0_t0" "ml_g" x y (group_rows n (fun j => d j = 0 /\ t j = 0)) fs g00 /\
      Used w n ext r 0 dcol "ml_g_d0_t1" "ml_g" x y (group_rows n (fun j => d j = 0 /\ t j = 1)) fs g01 /\
      Used w n ext r 0 dcol "ml_g_d1_t0" "ml_g" x y (group_rows n (fun j => d j = 1 /\ t j = 0)) fs g10 /\
      Used w n ext r 0 dcol "ml_g_d1_t1" "ml_g" x y (group_rows n (fun j => d j = 1 /\ t j = 1)) fs g11 /\
      share_of fs d p /\ share_of fs t lam /\
      let q11 := fun i => p i * lam i in let q10 := fun i => p i * (1 - lam i) in
      let q01 := fun i => (1 - p i) * lam i in let q00 := fun i => (1 - p i) * (1 - lam i) in
      let s := fun i => g11 i - g10 i - (g01 i - g00 i) +
        share_weight n norm (both d t) q11 i * (y i - g11 i) - share_weight n norm (both d (compl t)) q10 i * (y i - g10 i) -
        (share_weight n norm (both (compl d) t) q01 i * (y i - g01 i) - share_weight n norm (both (compl d) (compl t)) q00 i * (y i - g00 i)) in
      (share_ok n norm (both d t) q11 -> share_ok n norm (both d (compl t)) q10 -> share_ok n norm (both (compl d) t) q01 -> share_ok n norm (both (compl d) (compl t)) q00 ->
       estimate_is F n 0 r (meanf n s) (fun i => s i - meanf n s) (INR n)).
Proof.
  intros C Hn Hw HL Hg H. start L f g mc C H Hw HL. assert (Es : m_smpls (w_obj w) = Some sm) by apply Fd. intros r fs Hr.
  destruct (K r 0%nat fs dcol Hr eq_refl) as (Hr' & Ht' & e & M & S & N). cbn [C cs_ctx c_nuis c_n] in N, S.
  edestruct (cs_exp L f g) as (g00 & g01 & g10 & g11 & p & lam & Ng & Sh & Sl & Sc); [exact S| |exact N|].
  { intros a b name Hin. intros _; eapply rep_labels; [apply Hg|exact Es|exact Hr];
    destruct Hin as [X|[X|[X|[X|[]]]]]; injection X as <- <- <-; auto. }
  exists g00, g01, g10, g11, p, lam.
  split; [eapply rep_used; [apply M; cbn; tauto|apply (Ng 0 0 "ml_g_d0_t0" g00); cbn; tauto]|]. split; [eapply rep_used; [apply M; cbn; tauto|apply (Ng 0 1 "ml_g_d0_t1" g01); cbn; tauto]|].
  split; [eapply rep_used; [apply M; cbn; tauto|apply (Ng 1 0 "ml_g_d1_t0" g10); cbn; tauto]|]. split; [eapply rep_used; [apply M; cbn; tauto|apply (Ng 1 1 "ml_g_d1_t1" g11); cbn; tauto]|].
  split; [exact Sh|]. split; [exact Sl|]. intros q11 q10 q01 q00 s A1 A2 A3 A4.
  cbn [setup_of su_n] in Sc. destruct (Sc (fun _ => 0)) as (Sa & Sb).
  apply (mean_estimate C w out F r 0 s Hn eq_refl Rp Hr' Ht').
  intros i Hi. rewrite Sa, Sb. unfold s, cs_score, cs_weight_a, cs_resid_weights, share_weight, both, compl. destruct norm; cbn [el_a el_b]; unfold q11, q10, q01, q00, Rdiv; split; ring.
Qed.

Lemma ssm_fit n dcols norm tr thr x y d s strata w nj store ext smod w' : let C := ssm_ctx L mc n dcols norm tr thr x y d s strata in
  (0 < n)%nat -> dcols <> [] -> soundly_reached C w -> sound_learning L f g mc w ->
  Labels w n "ml_pi" s everyone -> (forall t, Labels w n "ml_m" (d t) everyone) -> (forall t v, v = 0 \/ v = 1 -> Labels w n "ml_g" y (fun j => d t j = v /\ s j = 1)) ->
  fit C nj store ext smod w = (w', Ok tt) ->
  exists F sm, fit_done w w' F sm (length dcols) /\ forall r t fs col, nth_error sm r = Some fs -> nth_error dcols t = Some col -> exists pi m0 m g1 g0,
      cross_fitted L f g (Own w n r t col) "ml_pi" "ml_pi" (fun i => x t i ++ [d t i])%list s whole_train fs pi /\
      cross_fitted L f g (Own w n r t col) "ml_m" "ml_m" (x t) (d t) whole_train fs m0 /\ clipped n tr thr m0 m /\
      cross_fitted L f g (Own w n r t col) "ml_g_d1" "ml_g" (x t) y (group_rows n (fun j => d t j = 1 /\ s j = 1)) fs g1 /\
      cross_fitted L f g (Own w n r t col) "ml_g_d0" "ml_g" (x t) y (group_rows n (fun j => d t j = 0 /\ s j = 1)) fs g0 /\
      (binary n (d t) -> off_bounds n m -> (forall i, (i < n)%nat -> pi i <> 0) ->
       let w1 := if norm then sumf n (d t) / sumf n (fun i => d t i * s i / (pi i * m i)) else 1 in
       let w0 := if norm then sumf n (compl (d t)) / sumf n (fun i => (1 - d t i) * s i / (pi i * (1 - m i))) else 1 in
       let v := fun i => g1 i + w1 * (d t i * s i * (y i - g1 i) / (m i * pi i)) - (g0 i + w0 * ((1 - d t i) * s i * (y i - g0 i) / ((1 - m i) * pi i))) in
       (norm = true -> sumf n (fun i => d t i * s i / (pi i * m i)) <> 0 /\ sumf n (fun i => (1 - d t i) * s i / (pi i * (1 - m i))) <> 0) ->
       estimate_is F n t r (meanf n v) (fun i => v i - meanf n v) (INR n)).
Proof.
  intros C Hn Hd Hw HL Hp Hm Hg H. start L f g mc C H Hw HL. assert (Es : m_smpls (w_obj w) = Some sm) by apply Fd. intros r t fs col Hr Ht.
  destruct (K r t fs col Hr Ht) as (Hr' & Ht' & e & M & S & N). cbn [C ssm_ctx c_nuis c_n] in N, S.
  edestruct (ssm_mar L f g) as (pi & m0 & m & g1 & g0 & N1 & N2 & Tm & N3 & N4 & _ & _ & _ & _ & Sc); [exact S|lab' Hp Es Hr|lab' (Hm t) Es Hr|lab' (Hg t 1 (or_intror eq_refl)) Es Hr|lab' (Hg t 0 (or_introl eq_refl)) Es Hr|exact N|].
  exists pi, m0, m, g1, g0. split; [exact N1|]. split; [exact N2|]. split; [exact Tm|]. split; [exact N3|]. split; [exact N4|]. intros B _ _ w1 w0 v _.
  cbn [setup_of su_n] in Sc. destruct Sc as (Sa & Sb). set (D := fun i => if Req_EM_T (d t i) 1 then 1 else 0) in *.
  assert (ED : forall i, (i < n)%nat -> D i = d t i) by (intros i Hi; unfold D; destruct (B i Hi) as [-> | ->]; destruct (Req_EM_T _ _); lra).
  apply (mean_estimate C w out F r t v Hn eq_refl Rp Hr' Ht'). intros i Hi. rewrite Sa, Sb. split; [reflexivity|]. unfold ssm_score. cbn [el_b].
  assert (E1 : ssm_weight_treat n norm D s pi m = w1).
  { unfold ssm_weight_treat, w1. destruct norm; [|reflexivity]. f_equal; apply sumf_ext; intros j Hj; rewrite ?(ED j Hj); reflexivity. }
  assert (E0 : ssm_weight_control n norm D s pi m = w0).
  { unfold ssm_weight_control, w0, compl. destruct norm; [|reflexivity]. f_equal; apply sumf_ext; intros j Hj; rewrite ?(ED j Hj); reflexivity. }
  rewrite E1, E0, (ED i Hi). unfold v. ring.
Qed.

Lemma ssm_non_fit tts n dcols norm tr thr x zrow y d s strata w nj store ext smod w' : let C := ssm_non_ctx L mc n tts dcols norm tr thr x zrow y d s strata in
  (0 < n)%nat -> dcols <> [] -> soundly_reached C w -> sound_learning L f g mc w -> classifier_ok L g ->
  fit C nj store ext smod w = (w', Ok tt) ->
  exists F sm, fit_done w w' F sm (length dcols) /\ forall r t fs col, nth_error sm r = Some fs -> nth_error dcols t = Some col -> exists pi m0 m g1 g0,
      nested_selection L f g (Own w n r t col) (tts r t) (x t) zrow y (d t) s fs pi m0 g1 g0 /\ clipped n tr thr m0 m /\
      (binary n (d t) -> off_bounds n m -> (forall i, (i < n)%nat -> pi i <> 0) ->
       let w1 := if norm then sumf n (d t) / sumf n (fun i => d t i * s i / (pi i * m i)) else 1 in
       let w0 := if norm then sumf n (compl (d t)) / sumf n (fun i => (1 - d t i) * s i / (pi i * (1 - m i))) else 1 in
       let v := fun i => g1 i + w1 * (d t i * s i * (y i - g1 i) / (m i * pi i)) - (g0 i + w0 * ((1 - d t i) * s i * (y i - g0 i) / ((1 - m i) * pi i))) in
       (norm = true -> sumf n (fun i => d t i * s i / (pi i * m i)) <> 0 /\ sumf n (fun i => (1 - d t i) * s i / (pi i * (1 - m i))) <> 0) ->
       estimate_is F n t r (meanf n v) (fun i => v i - meanf n v) (INR n)).
Proof.
  intros C Hn Hd Hw HL Hc H. start L f g mc C H Hw HL. assert (Es : m_smpls (w_obj w) = Some sm) by apply Fd. intros r t fs col Hr Ht.
  destruct (K r t fs col Hr Ht) as (Hr' & Ht' & e & M & S & N). cbn [C ssm_non_ctx c_nuis c_n] in N, S.
  edestruct (ssm_non L f g) as (pi & m0 & m & g1 & g0 & N1 & Tm & _ & _ & _ & _ & Sc); [exact S|exact Hc|exact N|].
  exists pi, m0, m, g1, g0. split; [exact N1|]. split; [exact Tm|]. intros B _ _ w1 w0 v _.
  cbn [setup_of su_n] in Sc. destruct Sc as (Sa & Sb). set (D := fun i => if Req_EM_T (d t i) 1 then 1 else 0) in *.
  assert (ED : forall i, (i < n)%nat -> D i = d t i) by (intros i Hi; unfold D; destruct (B i Hi) as [-> | ->]; destruct (Req_EM_T _ _); lra).
  apply (mean_estimate C w out F r t v Hn eq_refl Rp Hr' Ht'). intros i Hi. rewrite Sa, Sb. split; [reflexivity|]. unfold ssm_score. cbn [el_b].
  assert (E1 : ssm_weight_treat n norm D s pi m = w1).
  { unfold ssm_weight_treat, w1. destruct norm; [|reflexivity]. f_equal; apply sumf_ext; intros j Hj; rewrite ?(ED j Hj); reflexivity. }
  assert (E0 : ssm_weight_control n norm D s pi m = w0).
  { unfold ssm_weight_control, w0, compl. destruct norm; [|reflexivity]. f_equal; apply sumf_ext; intros j Hj; rewrite ?(ED j Hj); reflexivity. }
  rewrite E1, E0, (ED i Hi). unfold v. ring.
Qed.
End Classes.

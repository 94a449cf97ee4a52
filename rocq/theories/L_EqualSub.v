(** The difference of the two fitted potential-outcome objects as an object of its own. *)
From Verif Require Export L_EqualFit.
From Verif Require Import L_InitFit L_InitMade L_FwProps L_ModelProps L_Estimation.
From Coq Require Import Lia Lra.
Local Open Scope R_scope.
Local Open Scope string_scope.

Lemma current_unique {P} (w : world P) F F' : current_fw w F -> current_fw w F' -> F' = F.
Proof. intros (k & o & A & B & ->) (k' & o' & A' & B' & ->). congruence. Qed.
(** What a fit without clusters leaves behind. *)
Lemma plain_fitted {P} (C : ctx P) w nj store ext sm w' F : c_dcols C <> [] -> c_cluster C = None -> (0 < c_n C)%nat -> soundly_reached C w ->
  fit C nj store ext sm w = (w', Ok tt) -> current_fw w' F ->
  fw_n_obs F = c_n C /\ fw_cluster F = None /\ (0 < fw_n_rep F)%nat /\ (forall t, (t < fw_n_thetas F)%nat -> at_ (fw_vs F) [t] = INR (c_n C)) /\ fw_ses_from_scores F.
Proof.
  intros Hd Hc Hn S Hf Cu. pose proof (reached_reachable _ _ S) as Rc. destruct (fit_reports C w nj store ext sm w' Hd Rc Hf) as (out & F' & _ & Cu' & Rp & _).
  rewrite (current_unique _ _ _ Cu Cu') in Rp. clear F' Cu'. assert (Hr : (0 < fw_n_rep F)%nat) by (rewrite (rp_n_rep _ _ _ _ Rp); apply (reachable_wf _ _ Rc)).
  assert (Cl : forall r, split_cluster C w r = None) by (intro r; unfold split_cluster; rewrite Hc; reflexivity).
  split; [exact (rp_n_obs _ _ _ _ Rp)|]. split; [pose proof (rp_cluster _ _ _ _ Rp) as Q; rewrite Hc in Q; exact Q|]. split; [exact Hr|].
  assert (V : forall t, (t < fw_n_thetas F)%nat -> at_ (fw_vs F) [t] = INR (c_n C)).
  { intros t Ht. destruct (rp_se _ _ _ _ Rp 0%nat t Hr Ht) as (s2 & V & _). rewrite Cl in V. unfold var_est in V. apply ok_inj in V. apply (f_equal snd) in V. cbn [snd] in V. symmetry. exact V. }
  split; [exact V|]. intros t r Ht Hlt. destruct (rp_se _ _ _ _ Rp r t Hlt Ht) as (s2 & Vr & ->). f_equal. rewrite (V t Ht), (rp_n_obs _ _ _ _ Rp). rewrite Cl in Vr.
  rewrite (meanf_ext _ _ (fun i => (psi_of C None (out r t) i / meanf (c_n C) (no_a (out r t)))^2)) by (intros i Hi; rewrite (rp_psi _ _ _ _ Rp r t i Hlt Ht Hi), Cl; reflexivity).
  destruct (Req_dec (meanf (c_n C) (no_a (out r t))) 0) as [Z|Z].
  - unfold var_est in Vr. apply ok_inj in Vr. apply (f_equal fst) in Vr. cbn [fst] in Vr. rewrite <- Vr, Z. rewrite (meanf_ext _ (fun i => (psi_of C None (out r t) i / 0)^2) (fun _ => 0)) by (intros i _; unfold Rdiv; rewrite Rinv_0; ring).
    replace (INR (c_n C) * 0 ^ 2) with 0 by ring. rewrite (meanf_const _ 0 Hn). unfold Rdiv. rewrite Rinv_0. ring.
  - apply (var_est_framework _ _ _ s2 _ Z Hn) in Vr. apply Vr.
Qed.

Lemma apo_difference : forall (E P : Type) (L : learner E row P) f g rd rd1 rd0 fr s dc ml_g ml_m sc1 sc0 wa nm nf nf1 nf0 nr nr1 nr0 draw draw1 draw0 rule rule1 rule0 thr C C1 C0 w0 w01 w00 w wa1 wa0 nj nj1 nj0 store store1 store0 ext ext1 ext0 smod smod1 smod0 w1 w1' w0',
  let n := M_Data.frows fr in let y := outcome fr s in let d := col fr dc in
  S_Data.reachable fr s -> unclustered s -> sound_randomness rd -> sound_randomness rd1 -> sound_randomness rd0 -> (0 < n)%nat ->
  irm_init L rd fr s ml_g ml_m nf nr (PStr "ATE") wa (PBool nm) rule (PFloat thr) draw = Ok (C, w0) -> later C w0 w -> reliable L f g rd w ->
  apo_init L rd1 fr s ml_g ml_m (PInt 1) nf1 nr1 sc1 wa (PBool nm) rule1 (PFloat thr) draw1 = Ok (C1, w01) -> later C1 w01 wa1 -> reliable L f g rd1 wa1 ->
  apo_init L rd0 fr s ml_g ml_m (PInt 0) nf0 nr0 sc0 wa (PBool nm) rule0 (PFloat thr) draw0 = Ok (C0, w00) -> later C0 w00 wa0 -> reliable L f g rd0 wa0 ->
  same_problem fr s w fr s wa1 -> same_problem fr s w fr s wa0 -> M_Data.r_d (M_Data.dd_roles s) = [dc] -> both_groups n d ->
  labels_seen L g (ly_classifier ml_g) w n y (fun j => d j = 0) -> labels_seen L g (ly_classifier ml_g) w n y (fun j => d j = 1) -> labels_seen L g true w n d everyone ->
  fit C nj store ext smod w = (w1, Ok tt) -> fit C1 nj1 store1 ext1 smod1 wa1 = (w1', Ok tt) -> fit C0 nj0 store0 ext0 smod0 wa0 = (w0', Ok tt) ->
  exists mc F F1 F0 sm h, runs_on mc "ml_m" ml_m true /\ fit_done w w1 F sm 1 /\ fit_done wa1 w1' F1 sm 1 /\ fit_done wa0 w0' F0 sm 1 /\ fw_sub F1 (OpFw F0) = Ok h /\
    (forall r fs, nth_error sm r = Some fs -> (r < m_n_rep (w_obj w0))%nat -> (r < m_n_rep (w_obj w01))%nat -> (r < m_n_rep (w_obj w00))%nat ->
      matched w wa1 ext ext1 dc "ml_g1" dc "ml_g_d_lvl1" r -> matched w wa1 ext ext1 dc "ml_m" dc "ml_m" r ->
      matched w wa0 ext ext0 dc "ml_g0" dc "ml_g_d_lvl1" r -> mirrored L g w wa0 ext ext0 dc "ml_m" dc "ml_m" r ->
      exists m0 m, used_prediction L f g mc w n ext r 0 dc "ml_m" "ml_m" (covariates fr s dc) d whole_train fs m0 /\ clipped n true thr m0 m /\ (off_bounds n (ps_adjust n m d nm) -> signed F h 0 r 1)) /\
    ((forall r, (r < length sm)%nat -> signed F h 0 r 1) -> at_ (fw_thetas h) [0%nat] = at_ (fw_thetas F) [0%nat] /\ at_ (fw_ses h) [0%nat] = at_ (fw_ses F) [0%nat]).
Proof.
  intros until w0'. intros n y d Re Un Rd Rd1 Rd0 Hn H La Rl H1 La1 Rl1 H0 La0 Rl0 T1 T0 Hdc Bg Hl0 Hl1 Hl2 Hf Hf1 Hf0.
  destruct (apo_contrast E P L f g rd rd1 rd0 fr s dc ml_g ml_m sc1 sc0 wa nm nf nf1 nf0 nr nr1 nr0 draw draw1 draw0 rule rule1 rule0 thr C C1 C0 w0 w01 w00 w wa1 wa0 nj nj1 nj0 store store1 store0 ext ext1 ext0 smod smod1 smod0 w1 w1' w0'
    Re Un Rd Rd1 Rd0 Hn H La Rl H1 La1 Rl1 H0 La0 Rl0 T1 T0 Hdc Bg Hl0 Hl1 Hl2 Hf Hf1 Hf0) as (mc & F & F1 & F0 & sm & Ro & D & D1 & D0 & Z). fold n y d in Z.
  assert (P0 : fw_n_obs F = n /\ fw_cluster F = None /\ (0 < fw_n_rep F)%nat /\ (forall t, (t < fw_n_thetas F)%nat -> at_ (fw_vs F) [t] = INR n) /\ fw_ses_from_scores F).
  { destruct (irm_made L rd fr s Re Rd _ _ _ _ _ _ _ _ _ _ _ _ H) as (c & mcc & nm0 & th0 & bo & st & _ & Ec & Sr & _). subst C. rewrite (plain_ctx fr s Re _ Un) in *. refine (plain_fitted _ w nj store ext smod w1 F _ _ _ (reached_later _ _ _ Sr La) Hf (proj1 D)); [discriminate|reflexivity|exact Hn]. }
  assert (P1 : fw_n_obs F1 = n /\ fw_cluster F1 = None /\ (0 < fw_n_rep F1)%nat /\ (forall t, (t < fw_n_thetas F1)%nat -> at_ (fw_vs F1) [t] = INR n) /\ fw_ses_from_scores F1).
  { destruct (apo_made L rd1 fr s Re Rd1 _ _ _ _ _ _ _ _ _ _ _ _ _ H1) as (c & mcc & nm0 & th0 & bo & st & _ & Ec & Sr & _). subst C1. rewrite (plain_ctx fr s Re _ Un) in *. refine (plain_fitted _ wa1 nj1 store1 ext1 smod1 w1' F1 _ _ _ (reached_later _ _ _ Sr La1) Hf1 (proj1 D1)); [discriminate|reflexivity|exact Hn]. }
  assert (P2 : fw_n_obs F0 = n /\ fw_cluster F0 = None /\ (0 < fw_n_rep F0)%nat /\ (forall t, (t < fw_n_thetas F0)%nat -> at_ (fw_vs F0) [t] = INR n) /\ fw_ses_from_scores F0).
  { destruct (apo_made L rd0 fr s Re Rd0 _ _ _ _ _ _ _ _ _ _ _ _ _ H0) as (c & mcc & nm0 & th0 & bo & st & _ & Ec & Sr & _). subst C0. rewrite (plain_ctx fr s Re _ Un) in *. refine (plain_fitted _ wa0 nj0 store0 ext0 smod0 w0' F0 _ _ _ (reached_later _ _ _ Sr La0) Hf0 (proj1 D0)); [discriminate|reflexivity|exact Hn]. }
  destruct P0 as (N & _ & Rp & V & Sc), P1 as (N1 & Cl1 & _ & V1 & _), P2 as (N0 & Cl0 & _ & V0 & _).
  assert (Kt : fw_n_thetas F = 1%nat /\ fw_n_rep F = length sm /\ fw_aggregated F) by (destruct D as (_ & _ & A & _ & B & Q); auto). destruct Kt as (Kt & Kr & Ag).
  assert (K1 : fw_n_thetas F1 = 1%nat /\ fw_n_rep F1 = length sm /\ fw_wf F1) by (destruct D1 as (_ & A & _ & _ & B & Q); auto). destruct K1 as (Kt1 & Kr1 & W1).
  assert (K0 : fw_n_thetas F0 = 1%nat /\ fw_n_rep F0 = length sm /\ fw_wf F0) by (destruct D0 as (_ & A & _ & _ & B & Q); auto). destruct K0 as (Kt0 & Kr0 & W0).
  assert (Cp : compatible F1 F0).
  { split; [congruence|]. split; [congruence|]. split; [congruence|]. split; [rewrite Cl1, Cl0; reflexivity|]. intros t Ht. rewrite (V1 t Ht). symmetry. apply V0. rewrite Kt0, <- Kt1. exact Ht. }
  destruct (sum_diff Rminus F1 F0 W1 W0 Cp) as (h & Eh & _ & Agh & Sch & Nh & Kth & Krh & Th & Ph).
  assert (Vh : at_ (fw_vs h) [0%nat] = INR n).
  { pose proof (combine_fw_ok Rminus F1 F0 W1 W0 (compatible_ok F1 F0 Cp)) as Q. rewrite Q in Eh. apply ok_inj in Eh. subst h. change (at_ (fw_vs F1) [0%nat] = INR n). apply V1. rewrite Kt1. lia. }
  exists mc, F, F1, F0, sm, h. split; [exact Ro|]. split; [exact D|]. split; [exact D1|]. split; [exact D0|]. split; [exact Eh|]. split.
  - intros r fs Hr Q Q1 Q0 M1 M2 M3 M4. destruct (Z r fs Hr Q Q1 Q0 M1 M2 M3 M4) as (m0 & m & U & Cq & Y). exists m0, m. split; [exact U|]. split; [exact Cq|]. intro Ob. destruct (Y Ob) as (Y1 & Y2).
    assert (Hlt : (r < length sm)%nat) by (apply nth_error_Some; congruence). split; [rewrite Th, Y1; ring|].
    rewrite (Sch 0%nat r) by lia. rewrite (Sc 0%nat r) by lia. rewrite Vh, (V 0%nat) by lia. rewrite Nh, N1, N. f_equal. f_equal. apply meanf_ext. intros i Hi. rewrite (Y2 i Hi), Ph. reflexivity.
  - intro Q. destruct (Agh 0%nat) as (Ah & Bh); [lia|]. destruct (Ag 0%nat) as (A & B); [lia|].
    assert (Et : at_ (fw_thetas h) [0%nat] = at_ (fw_thetas F) [0%nat]). { rewrite Ah, A, Krh, Kr1, Kr. apply medianf_ext. intros r Hr. rewrite (proj1 (Q r Hr)). ring. }
    split; [exact Et|]. rewrite Bh, B, Et, Vh, (V 0%nat), Krh, Kr1, Kr by lia. f_equal. apply medianf_ext. intros r Hr. rewrite (proj1 (Q r Hr)), (proj2 (Q r Hr)). rewrite Rmult_1_l. reflexivity.
Qed.

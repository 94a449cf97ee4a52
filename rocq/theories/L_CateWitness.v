(** Effect heterogeneity methods: concrete cases. *)
From Verif Require Import L_DataOps L_DataProps.
From Verif Require Export L_CateEnd L_CateCases L_OlsExists L_InitWitness L_LossWitness L_ExternalWitness L_BenchWitness.
From Coq Require Import Lia Lra.
Local Open Scope R_scope.
Local Open Scope string_scope.

Lemma known_one (C : ctx unit) w0 w : soundly_reached C w0 -> later C w0 w -> split_known w -> m_n_rep (w_obj w) = 1%nat.
Proof.
  intros Sr La (Es & _). pose proof (reachable_wf C w (reached_reachable C w (reached_later _ _ _ Sr La))) as W. rewrite <- (wf_smpls _ _ W _ Es). reflexivity.
Qed.
(** The object of a constructor call, with a split, is fitted. *)
Definition fitted_once (r : result (ctx unit * world unit)) : Prop := exists C w0 w w', r = Ok (C, w0) /\ later C w0 w /\ m_n_rep (w_obj w) = 1%nat /\ fit C PNone (PBool true) ExtNone (PBool false) w = (w', Ok tt).
Definition irm_call (s : M_Data.ddata) := irm_init q_learner i_rd i_frame s reg cls (PInt 2) (PInt 1) (PStr "ATE") WNone (PBool false) (PStr "truncate") (PFloat (1 / 100)) (PBool true).
Definition apo_call (s : M_Data.ddata) := apo_init q_learner i_rd i_frame s reg cls (PInt 1) (PInt 2) (PInt 1) (PStr "APO") WNone (PBool false) (PStr "truncate") (PFloat (1 / 100)) (PBool true).
Definition plr_call (score : string) (s : M_Data.ddata) := plr_init q_learner i_rd i_frame s reg cls None (PInt 2) (PInt 1) (PStr score) (PBool true).
Lemma apo_once : exists s, i_data ra1 s /\ fitted_once (apo_call s).
Proof.
  destruct apo_cases as (s & K & C & w0 & w & w' & H & La & Sk & Sl & Hf). exists s. split; [exact K|]. exists C, w0, w, w'. split; [exact H|]. split; [exact La|]. split; [|exact Hf].
  destruct (apo_made q_learner i_rd i_frame s (i_reach _ _ K) i_sound _ _ _ _ _ _ _ _ _ _ _ _ _ H) as (c & mc & nm & th & bo & st & _ & _ & Sr & _). exact (known_one C w0 w Sr La Sk).
Qed.
Lemma plr_once score : score = "partialling out" \/ score = "IV-type" -> exists s, i_data rd1 s /\ M_Data.r_d (M_Data.dd_roles s) = ["d"] /\ fitted_once (plr_call score s).
Proof.
  intro Hs. destruct (proj1 (plr_cases score Hs)) as (s & K & C & w0 & w & w' & H & La & Sk & Sl & Hf). exists s. split; [exact K|]. split; [destruct K as (_ & Rl & _); rewrite Rl; reflexivity|]. exists C, w0, w, w'. split; [exact H|]. split; [exact La|]. split; [|exact Hf].
  destruct (plr_made q_learner i_rd i_frame s (i_reach _ _ K) i_sound _ _ _ _ _ _ _ _ _ H) as (mc & bin & _ & Sr & _). exact (known_one C w0 w Sr La Sk).
Qed.
(** Interactive model: the methods give the group means of a signal. *)
Definition irm_cate_case : Prop := exists s C w0 w w' sig, i_data rd1 s /\ irm_call s = Ok (C, w0) /\ later C w0 w /\ m_n_rep (w_obj w) = 1%nat /\ fit C PNone (PBool true) ExtNone (PBool false) w = (w', Ok tt) /\
  signal_methods 8 sig (object_cate some_ols C true w') (object_gate some_ols C true w') /\
  group_result 8 sig Nat.even "even" (object_gate some_ols C true w' (bool_frame [("even", Nat.even); ("odd", Nat.odd)])).
Lemma irm_cate_ex : irm_cate_case.
Proof.
  destruct (irm_cases "ATE" (or_introl eq_refl)) as (s & K & C & w0 & w & w' & H & La & Sk & Sl & Hf). pose proof (i_reach _ _ K) as Re.
  assert (Rl : M_Data.dd_roles s = rd1) by (destruct K as (_ & Rl & _); exact Rl). assert (Pc : proper_clusters s) by (unfold proper_clusters; rewrite Rl; discriminate).
  destruct (irm_made q_learner i_rd i_frame s Re i_sound _ _ _ _ _ _ _ _ _ _ _ _ H) as (c0 & mc0 & nm & th0 & bo & st & _ & _ & Sr & _). pose proof (known_one C w0 w Sr La Sk) as N1.
  destruct (irm_cate_end _ _ unit some_ols (fun _ _ _ _ => true) q_learner q_predict q_proba i_rd i_frame s _ _ _ _ _ _ _ _ _ _ _ w PNone (PBool true) ExtNone (PBool false) w' ols_exists Re Pc i_sound H La N1) as (c & mc & Bt & O & R1 & R2 & Q).
  apply (is_d s c) in Bt; [subst c|rewrite Rl; reflexivity]. cbv zeta in Q. destruct R1 as (_ & R1).
  assert (N0 : forall G, labels_everywhere q_learner q_proba mc w (M_Data.frows i_frame) "ml_g" (outcome i_frame s) G) by (intros G B; rewrite R1 in B; discriminate).
  destruct (Q (Sl mc O) (N0 _) (N0 _) (i_labels mc w "ml_m" w_d Sk w_d_both) Hf) as (fs & g0 & g1 & m0 & m & _ & _ & _ & _ & Cl & Z).
  destruct (Z ltac:(intros i Hi; unfold ps_adjust; cbv iota; rewrite (Cl i Hi); pose proof (Rmin_l (Rmax (m0 i) (1 / 100)) (1 - 1 / 100)); pose proof (Rmin_r (Rmax (m0 i) (1 / 100)) (1 - 1 / 100)); pose proof (Rmax_r (m0 i) (1 / 100)); unfold Rmin in *; destruct (Rle_dec _ _); lra) [] ltac:(constructor)) as (Y & _).
  do 6 eexists. split; [exact K|]. split; [exact H|]. split; [exact La|]. split; [exact N1|]. split; [exact Hf|]. split; [exact Y|].
  destruct Y as (_ & Y & _). refine (Y [("even", Nat.even); ("odd", Nat.odd)] _ _ _ ("even", Nat.even) (or_introl eq_refl)); [discriminate| |].
  - cbn. repeat constructor; cbn; intuition discriminate.
  - split.
    + intros j k a b i Hj Hk _ Ha Hb. destruct j as [|[|[|j]]], k as [|[|[|k]]]; try discriminate; try reflexivity; injection Hj as <-; injection Hk as <-; cbn [snd] in *; rewrite <- Nat.negb_even in *; destruct (Nat.even i); discriminate.
    + intros a [<-|[<-|[]]]; discriminate.
Qed.

(** Two fits of one partially linear object: the second does not store its
    predictions. *)
Definition stale_case : Prop := exists w w1 w2, reachable (d_plr false) w /\
  fit (d_plr false) PNone (PBool true) (given halves ["ml_l"; "ml_m"]) (PBool false) w = (w1, Ok tt) /\ theta_at w1 0 0 1 /\
  fit (d_plr false) PNone (PBool false) (given (fun l => if String.eqb l "ml_l" then w_y else halves l) ["ml_l"; "ml_m"]) (PBool false) w1 = (w2, Ok tt) /\ theta_at w2 0 0 0 /\
  residual_methods 8 (fun i => w_d i - 1 / 2) (fun i => w_y i - 1 / 2) (object_plr_cate some_ols (d_plr false) false w_y w_d w1) (object_plr_gate some_ols (d_plr false) false w_y w_d w1) /\
  (forall basis b, object_plr_cate some_ols (d_plr false) false w_y w_d w2 basis b = object_plr_cate some_ols (d_plr false) false w_y w_d w1 basis b).
Lemma stale_ex : stale_case.
Proof.
  destruct (d_plr_case false) as (w & Hw & Es & En & _). pose proof (reachable_wf _ w Hw) as W. assert (Hd : c_dcols (d_plr false) <> []) by discriminate.
  destruct (d_plr_fit halves true w Hw Es En eq_refl) as (w1 & Hf & Ht).
  destruct (fit_config (d_plr false) _ _ _ _ _ _ Hd W Hf) as (Cn & Cs & _).
  assert (Hw1 : reachable (d_plr false) w1) by (change w1 with (fst (w1, @Ok unit tt)); rewrite <- Hf; exact (reachable_op _ w (OFit PNone (PBool true) (given halves ["ml_l"; "ml_m"]) (PBool false)) Hw)).
  destruct (d_plr_fit (fun l => if String.eqb l "ml_l" then w_y else halves l) false w1 Hw1 ltac:(congruence) ltac:(congruence) eq_refl) as (w2 & Hf2 & Ht2).
  exists w, w1, w2. split; [exact Hw|]. split; [exact Hf|].
  split. { replace 1 with (sumf 8 (fun i => (w_d i - 1 / 2) * (w_y i - halves "ml_l" i)) / 2); [exact Ht|]. unfold halves, w_y, sumf. cbn [seq map Rsum fold_right w_d nth INR]. lra. }
  split; [exact Hf2|]. split. { replace 0 with (sumf 8 (fun i => (w_d i - 1 / 2) * (w_y i - (if String.eqb "ml_l" "ml_l" then w_y else halves "ml_l") i)) / 2); [exact Ht2|]. unfold halves, w_y, sumf. cbn [seq map Rsum fold_right w_d nth INR String.eqb Ascii.eqb Bool.eqb]. lra. }
  split; [|apply (stale_fit some_ols (d_plr false) w_y w_d w1 PNone _ (PBool false) w2 Hd Hw1 Hf2)].
  destruct (fit_leaves (d_plr false) w _ _ _ _ w1 Hd W Hf) as (_ & Hp & _ & En1 & (sm & Es' & Ls & Nr) & _ & _). destruct (Hp eq_refl) as (p & Ep & Sp & Vp).
  rewrite Es in Es'. injection Es' as <-. destruct (Nr 0%nat 0%nat "d" ltac:(rewrite En; lia) eq_refl) as (e & M & N).
  assert (Gl : e "ml_l" = Some (halves "ml_l") /\ e "ml_m" = Some (halves "ml_m")).
  { pose proof (M "ml_l" ltac:(cbn; tauto)) as M1. pose proof (M "ml_m" ltac:(cbn; tauto)) as M2. pose proof (given_supplied halves ["ml_l"; "ml_m"] "ml_l" 0 ltac:(cbn; tauto)) as S1. pose proof (given_supplied halves ["ml_l"; "ml_m"] "ml_m" 0 ltac:(cbn; tauto)) as S2. split.
    - destruct (e "ml_l") as [v|]; [rewrite (supplied_same _ _ _ _ _ _ M1 S1); reflexivity|destruct (M1 _ S1)].
    - destruct (e "ml_m") as [v|]; [rewrite (supplied_same _ _ _ _ _ _ M2 S2); reflexivity|destruct (M2 _ S2)]. }
  destruct Gl as (Gl & Gm). cbn [d_plr plr_ctx c_nuis] in N. unfold plr_nuis, or_ext in N. cbn [setup_of su_ext] in N. rewrite Gl, Gm in N. cbn [bind] in N. destruct (negb _); cbn [require bind] in N; [|discriminate N]. injection N as N.
  apply residual_ok with (p := p); [exact ols_exists|congruence|reflexivity|exact Ep|rewrite Sp, En; reflexivity| |].
  - intros i _. unfold partial_out_y, stored_at. rewrite Vp by (cbn; rewrite ?En; auto). rewrite <- N. reflexivity.
  - intros i _. unfold partial_out_d, stored_at. rewrite Vp by (cbn; rewrite ?En; auto). rewrite <- N. reflexivity.
Qed.

(** Local potential quantile: nested cross-fitting and fit. *)
From Verif Require Import S_Local L_Sum L_Quantile L_QScore L_QNested L_Order L_CrossFit L_CrossProps L_Estimation L_Framework L_Local L_LocalFit.
From Coq Require Import Lra Lia FunctionalExtensionality.
Local Open Scope R_scope.
Local Open Scope res_scope.
Local Open Scope string_scope.

Lemma take_nth rows (v : vec) j : (j < length rows)%nat -> take rows v j = v (nth j rows 0%nat).
Proof. intro H. unfold take. apply nth_map_in. exact H. Qed.

Section Lpq.
Context {E X P : Type}.
Variables G M : learner E X P.
Variable o : q_oracles.
Variable x0 : X.
Variable c : @lpq_cfg E.

(** ** What is fitted on what *)
Section Doc.
Variables (fG fM : E -> X -> R) (gG gM : E -> X -> list R).
Variables (x : nat -> X) (y d z : vec).
Hypothesis HrG : row_wise G fG gG.
Hypothesis HcG : classifier_ok G gG.
Hypothesis HrM : row_wise M fM gM.
Hypothesis HcM : classifier_ok M gM.
Hypothesis HlM : clone_ok M.

Lemma prelim_score_eq rows mz comp theta : (0 < length rows)%nat ->
  meanf (length rows) (lpq_ipw_score (lc_treated c) (lc_q c) theta (take rows d) (take rows y) mz (take rows z) comp) =
  (if lc_treated c then 1 else -1) * meanf (length rows) (dr_signal (take rows (event c y d theta)) (take rows z) (fun _ => 0) (fun _ => 0) mz) / comp - lc_q c.
Proof.
  intro Hn. rewrite lpq_ipw_moment by exact Hn. do 2 f_equal. f_equal. apply meanf_ext. intros i Hi. unfold dr_signal, dr_level, compl, event, arm. cbv beta. rewrite !(take_nth rows) by exact Hi. reflexivity.
Qed.
Lemma lpq_prelim_at start k h ipw : fst (lc_bounds c) <= start <= snd (lc_bounds c) ->
  inner_split z (lfirst_half o d z h) (qo_skf o (map (cells4 d z) (lfirst_half o d z h))) (qo_order o) ->
  lpq_prelim M o x0 c k start x y d z (lfirst_half o d z h) = Ok ipw -> lpq_preliminary M fM gM o c x y d z k h ipw.
Proof.
  intros Hs I H. unfold lpq_prelim in H. set (A := lfirst_half o d z h) in *. change (strata d z) with (cells4 d z) in H.
  apply bind_ok in H as (r & C & H). apply bind_ok in H as (p0 & F0 & H). apply bind_ok in H as (p1 & F1 & H).
  destruct (get_bracket_guess _ _ _ _ _) as [((s & b) & seen)|] eqn:B in H; [|discriminate]. injection H as <-.
  destruct (fit01_at M fM gM _ _ _ _ _ _ HrM HcM F0) as (L0 & N0). destruct (fit01_at M fM gM _ _ _ _ _ _ HrM HcM F1) as (L1 & N1).
  exists (fun j => match cv_preds r j with Some v => v | None => 0 end), (fun j => nth j p0 0), (fun j => nth j p1 0).
  split; [eapply within_at; eassumption|]. split.
  - intros a i Ha. destruct (N0 a i Ha) as (v0 & V0 & Q0). destruct (N1 a i Ha) as (v1 & V1 & Q1).
    rewrite (nth_error_nth _ _ _ V0), (nth_error_nth _ _ _ V1). split; [exact Q0|exact Q1].
  - cbv zeta. fold A. exists b. destruct (guess_bounds _ _ _ _ _ _ _ _ Hs B) as (B1 & B2 & B3). split; [exact B1|]. split; [exact B2|]. split; [exact B3|].
    f_equal. apply functional_extensionality. intro theta. rewrite prelim_score_eq by apply I. rewrite lpq_comp_signal. reflexivity.
Qed.

Lemma lpq_fold_at start k h r : fst (lc_bounds c) <= start <= snd (lc_bounds c) ->
  inner_split z (lfirst_half o d z h) (qo_skf o (map (cells4 d z) (lfirst_half o d z h))) (qo_order o) ->
  lpq_fold G M o x0 c start x y d z k h = Ok r ->
  lpq_preliminary M fM gM o c x y d z k h (lf_ipw r) /\
  (forall name, In name lpq_names -> length (lsel name r) = length (snd h)) /\
  forall a i, nth_error (snd h) a = Some i -> exists mz d0 d1 g0 g1,
    nth_error (lf_mz r) a = Some mz /\ nth_error (lf_d0 r) a = Some d0 /\ nth_error (lf_d1 r) a = Some d1 /\ nth_error (lf_g0 r) a = Some g0 /\ nth_error (lf_g1 r) a = Some g1 /\
    lpq_cross G M fG fM gG gM o c x y d z k h (lf_ipw r) i mz d0 d1 g0 g1.
Proof.
  intros Hs I H. unfold lpq_fold in H. change (strata d z) with (cells4 d z) in H. fold (lfirst_half o d z h) in H. fold (lsecond_half o d z h) in H.
  apply bind_ok in H as (ipw & P1 & H). apply bind_ok in H as (g0 & P2 & H). apply bind_ok in H as (g1 & P3 & H). apply bind_ok in H as (mz & P4 & H).
  apply bind_ok in H as (d0 & P5 & H). apply bind_ok in H as (d1 & P6 & H). injection H as <-. cbn [lf_ipw lf_mz lf_d0 lf_d1 lf_g0 lf_g1].
  split; [eapply lpq_prelim_at; eassumption|].
  destruct (fit01_at G fG gG _ _ _ _ _ _ HrG HcG P2) as (L2 & N2). destruct (fit01_at G fG gG _ _ _ _ _ _ HrG HcG P3) as (L3 & N3).
  destruct (fit01_at M fM gM _ _ _ _ _ _ HrM HcM P4) as (L4 & N4). destruct (fit01_at M fM gM _ _ _ _ _ _ HrM HcM P5) as (L5 & N5). destruct (fit01_at M fM gM _ _ _ _ _ _ HrM HcM P6) as (L6 & N6).
  split; [intros name [<-|[<-|[<-|[<-|[<-|[]]]]]]; assumption|].
  intros a i Ha. destruct (N2 a i Ha) as (v2 & V2 & Q2). destruct (N3 a i Ha) as (v3 & V3 & Q3). destruct (N4 a i Ha) as (v4 & V4 & Q4). destruct (N5 a i Ha) as (v5 & V5 & Q5). destruct (N6 a i Ha) as (v6 & V6 & Q6).
  exists v4, v5, v6, v2, v3. repeat (split; [eassumption|]). assumption.
Qed.

Lemma lpq_documented start n smpls r : fst (lc_bounds c) <= start <= snd (lc_bounds c) -> partition_of n smpls -> (exists name, In name lpq_names /\ lc_ext c name = None) ->
  (forall h, In h smpls -> inner_split z (lfirst_half o d z h) (qo_skf o (map (cells4 d z) (lfirst_half o d z h))) (qo_order o)) ->
  lpq_nuisance G M o x0 c start x y d z smpls = Ok r ->
  length (lo_ipw r) = length smpls /\ lo_start r = Rmean (lo_ipw r) /\
  forall i, (i < n)%nat -> exists k h ipw mz d0 d1 g0 g1, tested_in smpls i k h /\ nth_error (lo_ipw r) k = Some ipw /\
    lo_preds r "ml_m_z" i = Some mz /\ lo_preds r "ml_m_d_z0" i = Some d0 /\ lo_preds r "ml_m_d_z1" i = Some d1 /\
    lo_preds r "ml_g_du_z0" i = Some g0 /\ lo_preds r "ml_g_du_z1" i = Some g1 /\
    lpq_preliminary M fM gM o c x y d z k h ipw /\ lpq_cross G M fG fM gG gM o c x y d z k h ipw i mz d0 d1 g0 g1.
Proof.
  intros Hs Hp He HI H. unfold lpq_nuisance in H.
  match type of H with context [forallb ?t ?l] => assert (A : forallb t l = false) end.
  { destruct He as (name & Hin & He). destruct Hin as [<-|[<-|[<-|[<-|[<-|[]]]]]]; cbn; rewrite He; repeat destruct (lc_ext c _); reflexivity. }
  rewrite A in H. apply bind_ok in H as (rs & R & H). injection H as <-. cbn [lo_preds lo_ipw lo_start].
  destruct (L_QNested.map_res_nth_error _ _ _ R) as (Hlen & N).
  rewrite combine_length, seq_length, Nat.min_id in Hlen. split; [rewrite map_length; exact Hlen|]. split; [reflexivity|].
  intros i Hi. destruct (tested_exists n smpls i Hp Hi) as (k & h & T). pose proof T as (T1 & T2 & T3).
  destruct (N k (k, h)) as (fr & F1 & F2); [apply indexed_nth; exact T1|]. cbn [fst snd] in F2.
  destruct (lpq_fold_at start k h fr Hs (HI h (nth_error_In _ _ T1)) F2) as (B1 & B2 & B3).
  pose proof (partition_nodup n smpls k h Hp T1) as Nd. pose proof (position_error i (snd h) T2) as Pe.
  destruct (B3 _ _ Pe) as (mz & d0 & d1 & g0 & g1 & V1 & V2 & V3 & V4 & V5 & C).
  assert (COL : forall name, In name lpq_names -> lcollect smpls rs (lsel name) i = nth_error (lsel name fr) (position i (snd h))).
  { intros name Hin. unfold lcollect. apply (gcollect_hit (lsel name) i smpls rs _ k h fr T Nd F1). apply B2, Hin. }
  exists k, h, (lf_ipw fr), mz, d0, d1, g0, g1. split; [exact T|]. split; [apply map_nth_error, F1|].
  rewrite !COL by (cbn; tauto). repeat (split; [assumption|]). exact C.
Qed.
End Doc.

(** ** No leakage *)
Section Agree.
Variables (x x' : nat -> X) (y y' d d' z z' : vec) (f : fold).
Hypothesis Hspl : splitters_ok o.
Hypothesis Hag : agree_on_z f x x' y y' d d' z z'.
Let Hx : forall i, In i (fst f) -> x i = x' i. Proof. intros i Hi. apply (proj1 (proj1 Hag) i Hi). Qed.
Let Hy : forall i, In i (fst f) -> y i = y' i. Proof. intros i Hi. apply (proj1 (proj1 Hag) i Hi). Qed.
Let Hd : forall i, In i (fst f) -> d i = d' i. Proof. intros i Hi. apply (proj1 (proj1 Hag) i Hi). Qed.
Let Hz : forall i, In i (fst f) -> z i = z' i. Proof. intros i Hi. apply (proj2 Hag i Hi). Qed.
Let Ht : forall i, In i (snd f) -> x i = x' i. Proof. intros i Hi. apply (proj2 (proj1 Hag) i Hi). Qed.
Lemma with_z_agree b rows : (forall i, In i rows -> In i (fst f)) -> with_z z b rows = with_z z' b rows.
Proof. intros H. unfold with_z. apply filter_ext_in. intros i Hi. rewrite Hz by auto. reflexivity. Qed.
Lemma fit01_agree L e (u u' : vec) rows at_rows : (forall i, In i rows -> x i = x' i /\ u i = u' i) -> (forall i, In i at_rows -> x i = x' i) ->
  fit01 (L : learner E X P) e x u rows at_rows = fit01 L e x' u' rows at_rows.
Proof.
  intros H1 H2. unfold fit01. rewrite (map_ext_in (fun i => (x i, u i)) (fun i => (x' i, u' i)) rows) by (intros i Hi; destruct (H1 i Hi) as (-> & ->); reflexivity).
  rewrite (map_ext_in x x' at_rows) by exact H2. reflexivity.
Qed.
Lemma strata_agree rows : (forall i, In i rows -> In i (fst f)) -> map (strata d z) rows = map (strata d' z') rows.
Proof. intros H. apply map_ext_in. intros i Hi. unfold strata. rewrite Hd, Hz by auto. reflexivity. Qed.
Lemma in_with v b rows i : In i (with_z v b rows) -> In i rows.
Proof. unfold with_z. intro H. apply filter_In in H. tauto. Qed.
Lemma lpq_prelim_agree k start rows : (forall i, In i rows -> In i (fst f)) -> lpq_prelim M o x0 c k start x y d z rows = lpq_prelim M o x0 c k start x' y' d' z' rows.
Proof.
  intros H. unfold lpq_prelim. rewrite (strata_agree rows H). unfold takex. rewrite (map_ext_in x x' rows) by auto.
  rewrite (take_agree rows z z') by auto; rewrite (take_agree rows d d') by auto; rewrite (take_agree rows y y') by auto.
  rewrite !with_z_agree by exact H.
  rewrite (fit01_agree M (ln_clone M (lc_est c "ml_m_d_z0" k)) d d' (with_z z' 0 rows) rows) by (intros i Hi; try apply in_with in Hi; auto).
  rewrite (fit01_agree M (ln_clone M (lc_est c "ml_m_d_z1" k)) d d' (with_z z' 1 rows) rows) by (intros i Hi; try apply in_with in Hi; auto).
  reflexivity.
Qed.
Lemma lpq_fold_agree start k : lpq_fold G M o x0 c start x y d z k f = lpq_fold G M o x0 c start x' y' d' z' k f.
Proof.
  unfold lpq_fold. rewrite (strata_agree (fst f)) by auto. set (h := qo_tts o (fst f) _).
  assert (H1 : forall i, In i (fst h) -> In i (fst f)).
  { intros i Hi. destruct Hspl as (S & _). apply (Permutation_in _ (S (fst f) (map (strata d' z') (fst f)))). apply in_or_app. auto. }
  assert (H2 : forall i, In i (snd h) -> In i (fst f)).
  { intros i Hi. destruct Hspl as (S & _). apply (Permutation_in _ (S (fst f) (map (strata d' z') (fst f)))). apply in_or_app. auto. }
  rewrite lpq_prelim_agree by exact H1. destruct (lpq_prelim M o x0 c k start x' y' d' z' (fst h)) as [ipw|]; [|reflexivity]. cbn [bind].
  rewrite !(with_z_agree _ (snd h)) by exact H2. rewrite !(with_z_agree _ (fst f)) by auto.
  assert (DU : forall i, In i (fst f) -> du (lc_treated c) ipw y d i = du (lc_treated c) ipw y' d' i) by (intros i Hi; unfold du, arm; rewrite Hd, Hy by exact Hi; reflexivity).
  rewrite (fit01_agree G (lc_est c "ml_g_du_z0" k) _ (du (lc_treated c) ipw y' d') (with_z z' 0 (snd h)) (snd f)) by (intros i Hi; try apply in_with in Hi; auto).
  rewrite (fit01_agree G (lc_est c "ml_g_du_z1" k) _ (du (lc_treated c) ipw y' d') (with_z z' 1 (snd h)) (snd f)) by (intros i Hi; try apply in_with in Hi; auto).
  rewrite (fit01_agree M (lc_est c "ml_m_z" k) z z' (fst f) (snd f)) by (intros i Hi; auto).
  rewrite (fit01_agree M (lc_est c "ml_m_d_z0" k) d d' (with_z z' 0 (fst f)) (snd f)) by (intros i Hi; try apply in_with in Hi; auto).
  rewrite (fit01_agree M (lc_est c "ml_m_d_z1" k) d d' (with_z z' 1 (fst f)) (snd f)) by (intros i Hi; try apply in_with in Hi; auto).
  reflexivity.
Qed.
End Agree.
Lemma lcollect_agree sel i fs : forall rs rs' (v v' : nat -> option R), length rs = length fs -> length rs' = length fs -> v i = v' i ->
  (forall k h, nth_error fs k = Some h -> In i (snd h) -> nth_error rs k = nth_error rs' k) ->
  fold_left (fun v (p : fold * lfold_res) => scatter (snd (fst p)) (sel (snd p)) v) (combine fs rs) v i =
  fold_left (fun v (p : fold * lfold_res) => scatter (snd (fst p)) (sel (snd p)) v) (combine fs rs') v' i.
Proof.
  induction fs as [|h fs IH]; intros rs rs' v v' L L' Ev H; [exact Ev|]. destruct rs as [|r rs]; [discriminate|]. destruct rs' as [|r' rs']; [discriminate|]. cbn [combine fold_left fst snd]. apply IH.
  - cbn in L; lia.
  - cbn in L'; lia.
  - destruct (in_dec Nat.eq_dec i (snd h)) as [Hi|Hi].
    + specialize (H 0%nat h eq_refl Hi). cbn in H. injection H as <-. apply scatter_congr, Ev.
    + rewrite !scatter_skip by exact Hi. exact Ev.
  - intros k h' Hk Hi. apply (H (S k) h'); assumption.
Qed.
Lemma lpq_no_leak start x x' y y' d d' z z' smpls i k f r r' : splitters_ok o -> tested_in smpls i k f -> agree_on_z f x x' y y' d d' z z' ->
  lpq_nuisance G M o x0 c start x y d z smpls = Ok r -> lpq_nuisance G M o x0 c start x' y' d' z' smpls = Ok r' ->
  forall name, lo_preds r name i = lo_preds r' name i.
Proof.
  intros SP (Hk & Hi & U) AG H H' name. unfold lpq_nuisance in *. destruct (forallb _ _); [injection H as <-; injection H' as <-; reflexivity|].
  apply bind_ok in H as (rs & R & H). apply bind_ok in H' as (rs' & R' & H'). injection H as <-. injection H' as <-. cbn [lo_preds].
  destruct (L_QNested.map_res_nth_error _ _ _ R) as (L & N). destruct (L_QNested.map_res_nth_error _ _ _ R') as (L' & N').
  rewrite combine_length, seq_length, Nat.min_id in L, L'. unfold lcollect. apply lcollect_agree; [exact L|exact L'|reflexivity|].
  intros k' f' Hk' Hi'. assert (k' = k) by (apply (U k' f'); assumption). subst k'. assert (EF : Some f = Some f') by exact (eq_trans (eq_sym Hk) Hk'). injection EF as <-.
  assert (Hc : nth_error (combine (seq 0 (length smpls)) smpls) k = Some (k, f)) by (apply indexed_nth; exact Hk).
  destruct (N k (k, f) Hc) as (b & -> & B). destruct (N' k (k, f) Hc) as (b' & -> & B'). cbn [fst snd] in B, B'.
  rewrite (lpq_fold_agree x x' y y' d d' z z' f SP AG start) in B. congruence.
Qed.

(** ** Fit *)
Lemma lpq_start_between start x y d z smpls r : solver_ok o -> smpls <> [] -> fst (lc_bounds c) <= start <= snd (lc_bounds c) ->
  lpq_nuisance G M o x0 c start x y d z smpls = Ok r -> fst (lc_bounds c) <= lo_start r <= snd (lc_bounds c).
Proof.
  intros So Hne Hs H. unfold lpq_nuisance in H. destruct (forallb _ _); [injection H as <-; exact Hs|].
  apply bind_ok in H as (rs & R & H). injection H as <-. cbn [lo_start]. destruct (L_QNested.map_res_nth_error _ _ _ R) as (Hlen & N). rewrite combine_length, seq_length, Nat.min_id in Hlen. apply mean_between.
  - destruct rs; [destruct smpls; [contradiction|discriminate]|discriminate].
  - intros v Hv. apply in_map_iff in Hv as (fr & <- & Hfr). apply In_nth_error in Hfr as (k & Hk).
    assert (Hlt : (k < length smpls)%nat) by (rewrite <- Hlen; apply nth_error_Some; congruence).
    destruct (nth_error smpls k) as [h|] eqn:Eh; [|apply nth_error_None in Eh; lia].
    destruct (N k (k, h)) as (fr' & F1 & F2); [apply indexed_nth; exact Eh|]. assert (fr' = fr) by congruence. subst fr'. cbn [fst snd] in F2.
    unfold lpq_fold in F2. apply bind_ok in F2 as (ipw & P1 & F2). do 5 (apply bind_ok in F2 as (? & ? & F2)). injection F2 as <-. cbn [lf_ipw].
    unfold lpq_prelim in P1. do 3 (apply bind_ok in P1 as (? & ? & P1)). destruct (get_bracket_guess _ _ _ _ _) as [((s & b) & seen)|] eqn:B in P1; [|discriminate]. injection P1 as <-.
    destruct (guess_bounds _ _ _ _ _ _ _ _ Hs B) as (B1 & B2 & B3). apply solved_between; assumption.
Qed.
Lemma lpq_fit_root sv kde tol start n x y d z smpls theta s warn : solver_ok o -> brentq_ok sv -> fmin_ok sv -> brentq_near sv tol ->
  smpls <> [] -> (0 < n)%nat -> lc_n c = n -> (11 <= lc_fuel c)%nat -> fst (lc_bounds c) <= start <= snd (lc_bounds c) ->
  lpq_fit G M o x0 sv kde c start x y d z smpls = Ok (theta, s, warn) ->
  fst (lc_bounds c) <= theta <= snd (lc_bounds c) /\
  exists r, lpq_nuisance G M o x0 c start x y d z smpls = Ok r /\ s = lo_start r /\
    let mz := lpq_adjust n (lc_norm c) (lc_thr c) z (val (lo_preds r "ml_m_z")) in
    let share := meanf n (dr_signal d z (val (lo_preds r "ml_m_d_z0")) (val (lo_preds r "ml_m_d_z1")) mz) in
    (warn = false -> crosses (fun t => (if lc_treated c then 1 else -1) *
       meanf n (dr_signal (event c y d t) z (val (lo_preds r "ml_g_du_z0")) (val (lo_preds r "ml_g_du_z1")) mz) / share - lc_q c) tol theta).
Proof.
  intros So Hbo Hf Hb Hne Hn <- Hfu Hs H. unfold lpq_fit in H. apply bind_ok in H as (r & R & H).
  pose proof (lpq_start_between start x y d z smpls r So Hne Hs R) as Hs'.
  destruct (lc_bounds c) as [lo hi] eqn:Eb. cbn [fst snd] in *.
  destruct (nl_est_coef _ _ _ _ _ _ _ _) as [(th & wn)|] eqn:F in H; [|discriminate]. injection H as <- <- <-.
  split.
  - match type of F with nl_est_coef _ ?fu ?n ?cl ?psi ?psid ?st _ = _ => destruct (nl_estimate sv fu n cl psi psid st lo hi) as (th' & w' & Q1 & Q2 & _); [exact Hfu|exact Hs'|exact Hbo|exact Hf|] end.
    rewrite F in Q1. injection Q1 as <- <-. exact Q2.
  - exists r. split; [exact R|]. split; [reflexivity|]. cbv zeta. intros ->.
    apply (nl_crosses sv tol) in F; [|exact Hs'|exact Hf|exact Hb].
    destruct F as (a & b & F1 & F2 & F3 & F4). exists a, b. split; [exact F1|]. split; [exact F2|]. split; [exact F3|].
    unfold lpq_psi in F4. rewrite !lpq_moment_signal in F4 by exact Hn. unfold lpq_comp_hat in F4. rewrite lpq_comp_signal in F4. exact F4.
Qed.
Lemma lpq_external_refit sv kde start x y d z smpls theta s w : (forall name, In name lpq_names -> lc_ext c name <> None) ->
  lpq_fit G M o x0 sv kde c start x y d z smpls = Ok (theta, s, w) -> lpq_fit G M o x0 sv kde c s x y d z smpls = Ok (theta, s, w).
Proof.
  intros He H. unfold lpq_fit, lpq_nuisance in *.
  match type of H with context [forallb ?t ?l] => assert (A : forallb t l = true) end.
  { cbn. repeat match goal with |- context [lc_ext c ?n] => destruct (lc_ext c n) eqn:?; [|exfalso; apply (He n); [cbn; tauto|assumption]] end. reflexivity. }
  rewrite A in *. cbn [bind lo_preds lo_start] in *.
  destruct (nl_est_coef _ _ _ _ _ _ _ _) as [(th & wn)|] eqn:F in H; [|discriminate]. injection H as <- <- <-.
  unfold lpq_psi, lpq_deriv, lpq_comp_hat, lpq_mz in *. cbn [lo_preds] in *. rewrite F. reflexivity.
Qed.
(** Targets. *)
Lemma lpq_targets_at y d z n smpls r i k h t : partition_of n smpls -> tested_in smpls i k h -> nth_error (lo_ipw r) k = Some t ->
  lpq_targets c y d z smpls r "ml_m_z" i = Some (z i) /\
  (forall b, b = 0 \/ b = 1 ->
     let md := if Req_EM_T b 0 then "ml_m_d_z0" else "ml_m_d_z1" in let g := if Req_EM_T b 0 then "ml_g_du_z0" else "ml_g_du_z1" in
     (z i = b -> lpq_targets c y d z smpls r md i = Some (d i) /\ lpq_targets c y d z smpls r g i = Some (event c y d t i)) /\
     (z i <> b -> lpq_targets c y d z smpls r md i = None /\ lpq_targets c y d z smpls r g i = None)).
Proof.
  intros Hp T Ht. split; [reflexivity|].
  pose proof (put_targets_at (fun t i => du (lc_treated c) t y d i) i smpls (lo_ipw r) (fun _ => None) k h t T (partition_nodup _ _ _ _ Hp (proj1 T)) Ht) as PT.
  intros b Hb. cbv zeta. destruct Hb as [-> | ->].
  - destruct (Req_EM_T 0 0) as [_|F]; [|exfalso; apply F; reflexivity]. unfold lpq_targets. cbn [String.eqb Ascii.eqb Bool.eqb]. unfold cond_targets, reqb.
    split; intro Hz; destruct (Req_EM_T (z i) 0); try contradiction; [|auto]. rewrite PT. auto.
  - destruct (Req_EM_T 1 0) as [F|_]; [lra|]. unfold lpq_targets. cbn [String.eqb Ascii.eqb Bool.eqb]. unfold cond_targets, reqb.
    split; intro Hz; destruct (Req_EM_T (z i) 1); try contradiction; [|auto]. rewrite PT. auto.
Qed.
End Lpq.

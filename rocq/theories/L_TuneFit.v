(** Tuning an object built by a constructor, and the next fit. *)
From Verif Require Export L_TuneClasses L_InitFit.
From Coq Require Import Lia Lra.
Local Open Scope R_scope.
Local Open Scope res_scope.
Local Open Scope string_scope.

Lemma tune_later {P T} (C : ctx P) names (tn : nat -> option nat -> list fold -> result (tune_out P T)) a w0 w : later C w0 w -> later C w0 (fst (tune C names tn a w)).
Proof.
  apply (tune_rel C names tn (fun w w' => later C w0 w -> later C w0 w')); [auto|auto|]. intros _ l d v w1 (ops & A & ->).
  exists (ops ++ [OParams l d v])%list. split; [intros o Ho; apply in_app_or in Ho as [Ho|[<-|[]]]; [auto|exact Logic.I]|]. rewrite run_snoc. reflexivity.
Qed.
Lemma tune_soundly {P T} (C : ctx P) names (tn : nat -> option nat -> list fold -> result (tune_out P T)) a w : soundly_reached C w -> soundly_reached C (fst (tune C names tn a w)).
Proof. intro H. apply (reached_later C w); [exact H|]. apply tune_later. exists []. split; [intros o []|reflexivity]. Qed.

Lemma treatments_once fr s : S_Data.reachable fr s -> NoDup (M_Data.r_d (M_Data.dd_roles s)).
Proof.
  intro Re. destruct (L_DataProps.roles_reachable fr s Re) as (N & _). unfold S_Data.role_columns in N. rewrite ?app_assoc in N. cbn in N. inversion_clear N as [|? ? _ N'].
  rewrite <- ?app_assoc in N'. clear -N'. induction (M_Data.r_d (M_Data.dd_roles s)) as [|c l IH]; [constructor|]. cbn in N'. inversion_clear N' as [|? ? A B]. constructor; [intro H; apply A, in_or_app; left; exact H|apply IH, B].
Qed.
Lemma none_supplied col name r e : ~ supplied ExtNone col name r e.
Proof. intros (el & il & a & H & _). discriminate. Qed.

Lemma irm_tuned_end : forall (E P S : Type) (L : learner E row P) f g (srch : string -> nat -> list (row * R) -> result S) (best : S -> P) rd fr s ml_g ml_m nf nr wa nm rule thr draw C w0 w names a ret w1 nj store smod w',
  S_Data.reachable fr s -> unclustered s -> sound_randomness rd -> (0 < M_Data.frows fr)%nat ->
  irm_init L rd fr s ml_g ml_m nf nr (PStr "ATE") wa (PBool nm) rule (PFloat thr) draw = Ok (C, w0) -> later C w0 w ->
  let n := M_Data.frows fr in let dcol := hd "" (M_Data.r_d (M_Data.dd_roles s)) in let x := covariates fr s dcol in let y := outcome fr s in let d := col fr dcol in
  is_true (ta_on_folds a) = true -> is_true (ta_set a) = true -> tune C names (fun _ _ fs => irm_tuning srch best n x y d fs) a w = (w1, Ok ret) ->
  exists mc, mc_order mc = rd_order rd /\ runs_on mc "ml_g" ml_g (ly_classifier ml_g) /\ runs_on mc "ml_m" ml_m true /\
  (sound_learning L f g mc w1 ->
  labels_everywhere L g mc w1 n "ml_g" y (fun j => d j = 0) -> labels_everywhere L g mc w1 n "ml_g" y (fun j => d j = 1) -> labels_everywhere L g mc w1 n "ml_m" d everyone ->
  fit C nj store ExtNone smod w1 = (w', Ok tt) ->
  exists F sm, fit_done w1 w' F sm 1 /\ m_smpls (w_obj w) = Some sm /\ forall r fs, nth_error sm r = Some fs -> (r < m_n_rep (w_obj w0))%nat -> exists g0 g1 m0 m,
      tuned_prediction L f g mc n best srch "ml_g0" "ml_g" x y (group_rows n (fun j => d j = 0)) fs g0 /\
      tuned_prediction L f g mc n best srch "ml_g1" "ml_g" x y (group_rows n (fun j => d j = 1)) fs g1 /\
      tuned_prediction L f g mc n best srch "ml_m" "ml_m" x d whole_train fs m0 /\ clipped n true thr m0 m /\
      let W := weights_of wa r in
      let ma := ps_adjust n m d nm in
      let s := fun i => wg W i * (g1 i - g0 i) + resid_weights W i * (d i * (y i - g1 i) / ma i - (1 - d i) * (y i - g0 i) / (1 - ma i)) in
      (off_bounds n ma -> estimate_is F n 0 r (meanf n s) (fun i => s i - meanf n s * (wg W i / meanf n (wg W))) (INR n))).
Proof.
  intros until w'. intros Re Un Rd Hn H La n dcol x y d Hf Hset Ht. assert (La1 : later C w0 w1). { replace w1 with (fst (tune C names (fun _ _ fs => irm_tuning srch best n x y d fs) a w)) by now rewrite Ht. now apply tune_later. }
  destruct (irm_made L rd fr s Re Rd _ _ _ _ _ _ _ _ _ _ _ _ H) as (c & mc0 & nm0 & th0 & bo & st & (Qc & _) & Ec & Sr & _).
  assert (Edc : c_dcols C = [c]) by (rewrite Ec, (plain_ctx fr s Re _ Un); reflexivity). clear mc0 nm0 th0 bo st Ec.
  destruct (irm_end E P L f g rd fr s ml_g ml_m nf nr wa nm rule thr draw C w0 w1 nj store ExtNone smod w' Re Un Rd Hn H La1) as (dcol' & mc & (Qd & _) & O & R1 & R2 & B).
  rewrite Qc in Qd. injection Qd as <-. assert (Edcol : dcol = c) by (unfold dcol; rewrite Qc; reflexivity). clearbody dcol. subst dcol.
  exists mc. split; [exact O|]. split; [exact R1|]. split; [exact R2|]. intros SL L0 L1 Lm Fit. destruct (B SL L0 L1 Lm Fit) as (F & sm & Fd & Body).
  pose proof (reachable_wf _ _ (reached_reachable C w (reached_later _ _ _ Sr La))) as W.
  assert (Ek : only_params w w1) by (replace w1 with (fst (tune C names (fun _ _ fs => irm_tuning srch best n x y d fs) a w)) by (now rewrite Ht); apply tune_keeps).
  destruct (only_fields _ _ Ek) as (Es & _). assert (Esm : m_smpls (w_obj w) = Some sm) by (rewrite <- Es; apply Fd).
  exists F, sm. split; [exact Fd|]. split; [exact Esm|]. intros r fs Er Hr. destruct (Body r fs Er Hr) as (g0 & g1 & m0 & m & U0 & U1 & Um & Cl & Est). exists g0, g1, m0, m.
  assert (Hr' : (r < m_n_rep (w_obj w))%nat) by (rewrite <- (wf_smpls _ _ W sm Esm); apply nth_error_Some; congruence).
  assert (Nd : NoDup (c_dcols C)) by (rewrite Edc; repeat constructor; intros []). assert (E0 : nth_error (c_dcols C) 0 = Some c) by (rewrite Edc; reflexivity).
  assert (Tn : forall r' fs' res, (fun (_ : nat) (_ : option nat) fs => irm_tuning srch best n x y d fs) 0%nat (Some r') fs' = Ok res ->
    (exists ps, dict_get "ml_g0" (to_params res) = Some ps /\ tuned_for best srch "ml_g0" x y (group_rows n (fun j => d j = 0)) fs' ps) /\
    (exists ps, dict_get "ml_g1" (to_params res) = Some ps /\ tuned_for best srch "ml_g1" x y (group_rows n (fun j => d j = 1)) fs' ps) /\
    (exists ps, dict_get "ml_m" (to_params res) = Some ps /\ tuned_for best srch "ml_m" x d whole_train fs' ps)).
  { intros r' fs' res Q. destruct (irm_problems best n srch x y d fs' res Q) as (p0 & p1 & pm & -> & T0 & T1 & Tm). split; [exists p0; split; [reflexivity|exact T0]|]. split; [exists p1; split; [reflexivity|exact T1]|exists pm; split; [reflexivity|exact Tm]]. }
  split; [|split; [|split; [|split; [exact Cl|exact Est]]]].
  - eapply (fit_after_tuning L f g mc best srch C names); try eassumption; [right; eauto|intros; eapply Tn; eassumption|apply none_supplied].
  - eapply (fit_after_tuning L f g mc best srch C names); try eassumption; [right; eauto|intros; eapply Tn; eassumption|apply none_supplied].
  - eapply (fit_after_tuning L f g mc best srch C names); try eassumption; [left; reflexivity|intros; eapply Tn; eassumption|apply none_supplied].
Qed.

Lemma plr_tuned_end : forall (E P S : Type) (L : learner E row P) f g (srch : string -> nat -> list (row * R) -> result S) (best : S -> P) spred cy cd rd fr s ml_l ml_m ml_g nf nr draw C w0 w names a ret w1 nj store smod w',
  S_Data.reachable fr s -> unclustered s -> sound_randomness rd -> (0 < M_Data.frows fr)%nat ->
  plr_init L rd fr s ml_l ml_m ml_g nf nr (PStr "partialling out") draw = Ok (C, w0) -> later C w0 w ->
  let n := M_Data.frows fr in let dcols := M_Data.r_d (M_Data.dd_roles s) in let y := outcome fr s in
  is_true (ta_on_folds a) = true -> is_true (ta_set a) = true ->
  tune C names (fun t _ fs => plr_tuning srch best spred n false cy cd (covariates fr s (nth t dcols "")) y (col fr (nth t dcols "")) fs) a w = (w1, Ok ret) ->
  exists mc, mc_order mc = rd_order rd /\ runs_on mc "ml_l" ml_l false /\ runs_on mc "ml_m" ml_m (ly_classifier ml_m) /\
  (sound_learning L f g mc w1 ->
  labels_everywhere L g mc w1 n "ml_l" y everyone -> (forall c, In c dcols -> labels_everywhere L g mc w1 n "ml_m" (col fr c) everyone) ->
  fit C nj store ExtNone smod w1 = (w', Ok tt) ->
  exists F sm, fit_done w1 w' F sm (length dcols) /\ m_smpls (w_obj w) = Some sm /\
    forall r t fs c, nth_error sm r = Some fs -> nth_error dcols t = Some c -> let x := covariates fr s c in let d := col fr c in exists l m,
      tuned_prediction L f g mc n best srch "ml_l" "ml_l" x y whole_train fs l /\
      tuned_prediction L f g mc n best srch "ml_m" "ml_m" x d whole_train fs m /\
      (sumf n (fun i => (d i - m i) ^ 2) <> 0 ->
       let theta := sumf n (fun i => (d i - m i) * (y i - l i)) / sumf n (fun i => (d i - m i) ^ 2) in
       at_ (fw_all_thetas F) [t; r] = theta /\
       at_ (fw_all_ses F) [t; r] = sqrt (sumf n (fun i => ((d i - m i) * (y i - l i - theta * (d i - m i))) ^ 2)) / sumf n (fun i => (d i - m i) ^ 2))).
Proof.
  intros until w'. intros Re Un Rd Hn H La n dcols y Hf Hset Ht. set (tn := fun (t : nat) (_ : option nat) fs => plr_tuning srch best spred n false cy cd (covariates fr s (nth t dcols "")) y (col fr (nth t dcols "")) fs) in *.
  assert (La1 : later C w0 w1). { replace w1 with (fst (tune C names tn a w)) by now rewrite Ht. now apply tune_later. }
  destruct (plr_made L rd fr s Re Rd _ _ _ _ _ _ _ _ _ H) as (mc0 & bin & Ec & Sr & _).
  assert (Edc : c_dcols C = dcols) by (rewrite Ec, (plain_ctx fr s Re _ Un); reflexivity). clear mc0 bin Ec.
  destruct (plr_end E P L f g rd fr s ml_l ml_m ml_g nf nr draw C w0 w1 nj store ExtNone smod w' Re Un Rd Hn H La1) as (mc & O & R1 & R2 & B).
  exists mc. split; [exact O|]. split; [exact R1|]. split; [exact R2|]. intros SL L0 Lm Fit. destruct (B SL L0 Lm Fit) as (F & sm & F1 & F2 & F3 & F4 & F5 & F6 & Body).
  pose proof (reachable_wf _ _ (reached_reachable C w (reached_later _ _ _ Sr La))) as W.
  assert (Ek : only_params w w1) by (replace w1 with (fst (tune C names tn a w)) by (now rewrite Ht); apply tune_keeps).
  destruct (only_fields _ _ Ek) as (Es & _). assert (Esm : m_smpls (w_obj w) = Some sm) by (rewrite <- Es; exact F4).
  exists F, sm. split; [exact (conj F1 (conj F2 (conj F3 (conj F4 (conj F5 F6)))))|]. split; [exact Esm|]. intros r t fs c Er Hc x d. destruct (Body r t fs c Er Hc) as (l & m & U0 & Um & Est). exists l, m.
  assert (Hr' : (r < m_n_rep (w_obj w))%nat) by (rewrite <- (wf_smpls _ _ W sm Esm); apply nth_error_Some; congruence).
  assert (Nd : NoDup (c_dcols C)) by (rewrite Edc; apply (treatments_once fr s Re)). assert (E0 : nth_error (c_dcols C) t = Some c) by (rewrite Edc; exact Hc).
  assert (Tn : forall r' fs' res, tn t (Some r') fs' = Ok res ->
    (exists ps, dict_get "ml_l" (to_params res) = Some ps /\ tuned_for best srch "ml_l" x y whole_train fs' ps) /\
    (exists ps, dict_get "ml_m" (to_params res) = Some ps /\ tuned_for best srch "ml_m" x d whole_train fs' ps)).
  { intros r' fs' res Q. unfold tn in Q. rewrite (nth_error_nth dcols t "" Hc) in Q. destruct (plr_problems best spred n srch false cy cd _ y _ fs' res Q) as (pl & pm & Tl & Tm & ->). split; [exists pl|exists pm]; (split; [reflexivity|assumption]). }
  split; [|split; [|exact Est]].
  - eapply (fit_after_tuning L f g mc best srch C names); try eassumption; [left; reflexivity|intros; eapply Tn; eassumption|apply none_supplied].
  - eapply (fit_after_tuning L f g mc best srch C names); try eassumption; [left; reflexivity|intros; eapply Tn; eassumption|apply none_supplied].
Qed.

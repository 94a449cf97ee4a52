(** Tuning and fitting: concrete cases. *)
From Verif Require Export L_TuneSuccess L_InitWitness.
From Coq Require Import Lia Lra.
Local Open Scope R_scope.
Local Open Scope res_scope.
Local Open Scope string_scope.

(** A search that reports the number of its training rows. *)
Definition c_search (l : string) (k : nat) (data : list (row * R)) : result nat := Ok (length data).
Definition c_best (s : nat) : unit := tt.
Definition i_args : tune_args :=
  {| ta_grids := KDict ["ml_g"; "ml_m"]; ta_on_folds := PBool true; ta_scoring := KNone; ta_n_folds := PInt 5; ta_mode := PStr "grid_search"; ta_n_iter := PInt 100; ta_n_jobs := PNone; ta_set := PBool true; ta_return := PBool false |}.
Lemma i_documented : documented_call ["ml_g"; "ml_m"] i_args.
Proof. apply checked_iff. reflexivity. Qed.

Lemma ready_tuned mc w w1 n t c name lrn y G : m_smpls (w_obj w1) = m_smpls (w_obj w) ->
  (forall sm r fs l, m_smpls (w_obj w) = Some sm -> nth_error sm r = Some fs -> nth r (m_params (w_obj w1) name c) None = Some l -> length l = length fs) ->
  ready q_learner q_proba mc w n t c name lrn y G -> ready q_learner q_proba mc w1 n t c name lrn y G.
Proof.
  intros Es Hp H sm r fs E Er. rewrite Es in E. destruct (H sm r fs E Er) as [_ _ A B D]. constructor.
  - intros k p data _ _ Hd. apply q_can_fit, Hd.
  - cbn [setup_of su_params]. intros l Hl. destruct (nth r (m_params (w_obj w1) name c) None) as [ps|] eqn:Q; [|discriminate Hl]. cbn in Hl. injection Hl as <-. eapply Hp; eassumption.
  - exact A.
  - exact B.
  - exact D.
Qed.

Definition irm_tuned_case : Prop := exists s, i_data rd1 s /\ exists C w0 w w1 ret w',
  irm_init q_learner i_rd i_frame s reg cls (PInt 2) (PInt 1) (PStr "ATE") WNone (PBool false) (PStr "truncate") (PFloat (1 / 100)) (PBool true) = Ok (C, w0) /\ later C w0 w /\
  tune C ["ml_g"; "ml_m"] (fun _ _ fs => irm_tuning c_search c_best 8 (covariates i_frame s "d") (outcome i_frame s) (col i_frame "d") fs) i_args w = (w1, Ok ret) /\
  (forall mc, mc_order mc = rd_order i_rd -> sound_learning q_learner q_predict q_proba mc w1) /\ fit C PNone (PBool true) ExtNone (PBool false) w1 = (w', Ok tt).
Lemma irm_tuned : irm_tuned_case.
Proof.
  apply with_data; [cbn; tauto|]. intros s Con Rl Re Un.
  destruct (proj2 (irm_accepts q_learner i_rd i_frame s Con Un reg cls (PInt 2) (PInt 1) (PStr "ATE") WNone (PBool false) (PStr "truncate") (PFloat (1 / 100)) (PBool true))) as ((C & w0) & E).
  { split; [unfold no_instruments; rewrite Rl; reflexivity|]. split; [exists "d"; split; [apply d_binary; rewrite Rl; reflexivity|exact d_split]|]. split; [left; split; [reflexivity|exact Logic.I]|].
    split; [apply reg_outcome|]. split; [exact cls_proba|]. split; [apply i_bool|exact i_trim]. }
  destruct (irm_made q_learner i_rd i_frame s Re i_sound _ _ _ _ _ _ _ _ _ _ _ _ E) as (c & mc & nm & th & bo & st & Bt & Ec & Sr & Od & R1 & R2 & _). apply (is_d s c) in Bt; [subst c|rewrite Rl; reflexivity]. rewrite (plain_ctx i_frame s Re _ Un) in Ec. subst C.
  match type of E with _ = Ok (?C0, _) => set (C := C0) in * end. set (w := run C [OSet i_set None] w0).
  assert (Lw : later C w0 w) by (exists [OSet i_set None]; split; [intros o [<-|[]]; exact Logic.I|reflexivity]).
  assert (Kw : split_known w) by (split; reflexivity). assert (Kn : m_n_rep (w_obj w) = 1%nat /\ m_n_folds (w_obj w) = 2%nat) by (split; reflexivity).
  set (tn := fun (_ : nat) (_ : option nat) fs => irm_tuning c_search c_best 8 (covariates i_frame s "d") (outcome i_frame s) (col i_frame "d") fs).
  pose proof (reached_later _ _ _ Sr Lw) as Sw. pose proof Kw as (Es & Ep).
  assert (Tr : tuner_returns C tn w).
  { intros t sm Ht Q. rewrite Es in Q. injection Q as <-. exists ["ml_g0"; "ml_g1"; "ml_m"]. split; [intros l Hl; exact Hl|]. intros r fs Hr. destruct r as [|[|r]]; [injection Hr as <-|discriminate|discriminate].
    unfold tn, irm_tuning, dml_tune, cond_smpls. cbn [w_smpls map length seq map_res bind c_search]. eexists. split; [reflexivity|]. split; [reflexivity|].
    rewrite (proj2 Kn). intros l u. cbn [to_params dict_get]. repeat match goal with |- context [String.eqb l ?q] => destruct (String.eqb l q) end; intro H; try discriminate H; injection H as <-; reflexivity. }
  destruct (tune_folds_success C ["ml_g"; "ml_m"] tn i_args w i_documented eq_refl) as (w1 & ret & T); [apply reached_reachable, Sw|eauto|exact Tr|exact (proj1 Kn)|].
  assert (Fw : w1 = fst (tune C ["ml_g"; "ml_m"] tn i_args w)) by now rewrite T.
  assert (S1 : soundly_reached C w1) by (rewrite Fw; apply tune_soundly, Sw). assert (O1 : only_params w w1) by (rewrite Fw; apply tune_keeps). destruct (only_fields _ _ O1) as (Fs & _).
  assert (Nd : NoDup (c_dcols C)) by (repeat constructor; intros []). destruct (tuned_folds C _ tn i_args w w1 ret eq_refl eq_refl Nd T) as (_ & Tp). destruct (Tp 0%nat "d" eq_refl) as (res0 & _ & Tp1 & Tp2).
  assert (Hp : forall name sm r fs l, m_smpls (w_obj w) = Some sm -> nth_error sm r = Some fs -> nth r (m_params (w_obj w1) name "d") None = Some l -> length l = length fs).
  { intros name sm r fs l Q Qr. rewrite Es in Q. injection Q as <-. destruct r as [|[|r]]; [injection Qr as <-|discriminate|discriminate].
    destruct (in_dec string_dec name (map fst (to_params res0))) as [I|I].
    - destruct (Tp1 name I) as (_ & Q). destruct (Q 0%nat) as (res & v & _ & _ & V1 & V2); [rewrite (proj1 Kn); lia|]. rewrite (nth_error_nth _ _ None V1). intro Z. injection Z as <-. rewrite V2. exact (proj2 Kn).
    - rewrite (Tp2 name I), Ep. discriminate. }
  assert (SL : forall mc', mc_order mc' = rd_order i_rd -> sound_learning q_learner q_predict q_proba mc' w1).
  { intros mc' Q. destruct (i_learning w mc' Kw Q) as [A1' A2' A3']. constructor; [exact A1'|exact A2'|]. rewrite Fs. exact A3'. }
  assert (Ft : exists w', fit C PNone (PBool true) ExtNone (PBool false) w1 = (w', Ok tt)).
  { apply (irm_fit_success q_learner q_predict q_proba); try assumption; try (cbn; lia); [apply SL, Od|left; reflexivity|exists [w_smpls]; rewrite Fs; exact Es| | | |intros _; apply q_soft].
    - eapply ready_tuned; [exact Fs|apply Hp|]. apply (group_d mc w 0 "d" "ml_g0"); [exact Kw|apply R1|left; reflexivity].
    - eapply ready_tuned; [exact Fs|apply Hp|]. apply (group_d mc w 0 "d" "ml_g1"); [exact Kw|apply R1|right; reflexivity].
    - eapply ready_tuned; [exact Fs|apply Hp|]. apply ready_class; [exact Kw|left; reflexivity]. }
  destruct Ft as (w' & Ft). exists C, w0, w, w1, ret, w'. split; [exact E|]. split; [exact Lw|]. split; [exact T|]. split; [exact SL|exact Ft].
Qed.

(** ** Sample selection, nonignorable: a learner that expects a number of features *)
Definition width_learner : learner nat row nat := {|
  ln_clone := fun e => e; ln_set := fun e _ => Ok e;
  ln_fit := fun e data => if forallb (fun p => Nat.eqb (length (fst p)) e) data then Ok e else Err ValueError;
  ln_predict := fun _ xs => map (fun _ => 0) xs; ln_proba := fun _ xs => map (fun _ => [/ 2; / 2]) xs; ln_classes := fun _ => [0; 1]%nat |}.
Definition width_setup : setup nat nat := {|
  su_n := 4; su_order := fun _ => [0; 1]%nat; su_learner := fun l => if String.eqb l "ml_pi" then 3%nat else 1%nat; su_proba := fun l => negb (String.eqb l "ml_g"); su_params := fun _ => NoParams; su_ext := fun _ => None; su_models := false |}.
Definition width_search (lrn name : string) (k : nat) (data : list (row * R)) : result nat := ln_fit width_learner (su_learner width_setup lrn) data.
Definition width_params (ps : list (string * list nat)) : setup nat nat := {|
  su_n := 4; su_order := fun _ => [0; 1]%nat; su_learner := su_learner width_setup; su_proba := su_proba width_setup;
  su_params := fun l => match dict_get l ps with Some v => FoldDicts v | None => NoParams end; su_ext := fun _ => None; su_models := false |}.
Definition halve (rows : list nat) (strata : list R) : list nat * list nat := (firstn 1 rows, skipn 1 rows).
Lemma width_ok (x : nat -> row) (y : vec) e rows : (forall i, length (x i) = e) -> forallb (fun p => Nat.eqb (length (fst p)) e) (map (fun i => (x i, y i)) rows) = true.
Proof. intro H. apply forallb_forall. intros p Hp. apply in_map_iff in Hp as (i & <- & _). cbn. rewrite H. apply Nat.eqb_refl. Qed.
Lemma width_tunes name lrn (x : nat -> row) (y : vec) tr : (forall i, length (x i) = su_learner width_setup lrn) -> exists res, dml_tune (width_search lrn) name x y tr = Ok res /\ length res = length tr.
Proof.
  intro H. assert (Q : forall ks, exists res, map_res (fun k => width_search lrn name k (map (fun i => (x i, y i)) (nth k tr []))) ks = Ok res /\ length res = length ks).
  { induction ks as [|k ks (res & A & B)]; [exists []; split; reflexivity|]. cbn [map_res]. unfold width_search at 1. cbn [ln_fit width_learner]. rewrite (width_ok x y _ _ H). cbn [bind]. rewrite A. cbn [bind]. eexists. split; [reflexivity|cbn; lia]. }
  destruct (Q (seq 0 (length tr))) as (res & A & B). exists res. split; [exact A|]. rewrite B. apply seq_length.
Qed.
Lemma ssm_unfittable : exists (x zrow : nat -> row) (y d s : vec) smpls out, ssm_tuning width_search (fun e => e) 4 (Some zrow) x y d s smpls = Ok out /\
  ssm_non_nuis width_learner (width_params (to_params out)) halve 2 false true (1 / 100) x zrow y d s smpls = Err ValueError.
Proof.
  exists (fun _ => [0]), (fun _ => [0]), (fun _ => 0), (fun _ => 0), (fun _ => 0), [([2; 3], [0; 1]); ([0; 1], [2; 3])]%nat.
  unfold ssm_tuning.
  match goal with |- context [dml_tune (width_search "ml_g") "ml_g_d0" ?x ?y ?t] => destruct (width_tunes "ml_g_d0" "ml_g" x y t (fun _ => eq_refl)) as (g0 & -> & L0) end. cbn [bind].
  match goal with |- context [dml_tune (width_search "ml_g") "ml_g_d1" ?x ?y ?t] => destruct (width_tunes "ml_g_d1" "ml_g" x y t (fun _ => eq_refl)) as (g1 & -> & L1) end. cbn [bind].
  match goal with |- context [dml_tune (width_search "ml_pi") "ml_pi" ?x ?y ?t] => destruct (width_tunes "ml_pi" "ml_pi" x y t (fun _ => eq_refl)) as (pp & -> & L2) end. cbn [bind].
  match goal with |- context [dml_tune (width_search "ml_m") "ml_m" ?x ?y ?t] => destruct (width_tunes "ml_m" "ml_m" x y t (fun _ => eq_refl)) as (mm & -> & L3) end. cbn [bind].
  eexists. split; [reflexivity|]. cbn [to_params]. cbn in L2, L3.
  destruct pp as [|p0 [|p1 [|? ?]]]; try discriminate L2. destruct mm as [|m0 [|m1 [|? ?]]]; try discriminate L3. reflexivity.
Qed.
Lemma problem_case : exists ps, tuned_for c_best c_search "ml_m" (fun _ => [0]) (fun _ => 0) whole_train w_smpls ps /\ tuned_for c_best c_search "ml_g0" (fun _ => [0]) (fun _ => 0) (group_rows 8 (fun _ => True)) w_smpls ps.
Proof.
  exists [tt; tt]. split; (split; [reflexivity|]); intros k h Hk; assert (T : nth_error [tt; tt] k = Some tt) by (destruct k as [|[|k]]; [reflexivity|reflexivity|destruct k; discriminate Hk]).
  - eexists _, _. split; [reflexivity|]. split; [reflexivity|exact T].
  - eexists (intersect_where 8 (fun _ => true) (fst h)), _. split; [apply group_intersect; intros i; split; auto|]. split; [reflexivity|exact T].
Qed.
Definition classes_tuned : Prop := let srch := fun _ : string => c_search in let x := fun i : nat => [INR i] in let v := fun i => INR (Nat.modulo i 2) in let w := fun i => INR (Nat.modulo (i / 2) 2) in let ok := fun (r : result (tune_out unit (list (list nat)))) => exists out, r = Ok out in
  all_trained 8 w_smpls /\ ok (plr_tuning c_search c_best (fun _ _ => 0) 8 true k_id k_id x v w w_smpls) /\ ok (irm_tuning c_search c_best 8 x v w w_smpls) /\ ok (pq_tuning c_search c_best 8 (1 / 2) 1 x v w w_smpls) /\
  ok (apo_tuning srch c_best 8 x v w v w_smpls) /\ ok (iivm_tuning srch c_best 8 true true x v w v w_smpls) /\ ok (did_tuning srch c_best 8 true x v w w_smpls) /\ ok (cs_tuning srch c_best 8 true x v w v w_smpls) /\
  ok (ssm_tuning srch c_best 8 None x v w v w_smpls) /\ ok (lpq_tuning srch c_best 8 (1 / 2) 1 x v w v w_smpls) /\ ok (cvar_tuning srch c_best 8 (1 / 2) 1 x v w w_smpls) /\
  ok (pliv_tuning srch c_best (fun _ _ => 0) 8 true k_id k_id k_id x v w v w_smpls) /\ ok (pliv_several_tuning srch c_best x v w [("z1", v); ("z2", w)] w_smpls) /\ ok (pliv_z_tuning srch c_best x x w w_smpls) /\
  ok (pliv_xz_tuning srch c_best (fun _ _ => 0) x x v w w_smpls).
Lemma all_tuned : classes_tuned.
Proof.
  cbv zeta delta [classes_tuned]. split.
  { intros i Hi. do 8 (destruct i as [|i]; [first [exists ([4; 5; 6; 7], [0; 1; 2; 3])%nat; split; [cbn; tauto|cbn; tauto] | exists ([0; 1; 2; 3], [4; 5; 6; 7])%nat; split; [cbn; tauto|cbn; tauto]]|]). lia. }
  repeat match goal with |- _ /\ _ => split end; eexists; reflexivity.
Qed.

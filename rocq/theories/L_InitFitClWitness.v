(** Clustered fits of the classes with a binary treatment: concrete cases. *)
From Verif Require Import L_DataProps.
From Verif Require Export L_InitFitCl L_ClusterSuccessAll L_InitAllWitness.
From Coq Require Import Lia Lra.
Local Open Scope R_scope.
Local Open Scope res_scope.
Local Open Scope string_scope.

Definition rct : M_Data.roles := i_roles ["d"] None (Some "t") None (Some ["c"]).
Definition rcs : M_Data.roles := i_roles ["d"] None None (Some "s") (Some ["c"]).
Definition rca : M_Data.roles := i_roles ["a"] None None None (Some ["c"]).
Definition rcz : M_Data.roles := i_roles ["d"] (Some ["z"; "z2"]) None None (Some ["c"]).
Ltac bi H x X := apply bind_ok in H as (x & X & H).
Ltac ri H X := apply require_ok in H as (X & H).

Lemma with_clustered r : S_Data.well_formed i_frame r -> M_Data.r_d r <> [] -> M_Data.r_cl r = Some ["c"] -> forall Q : M_Data.ddata -> Prop,
  (forall s, S_Data.constructed i_frame s -> M_Data.dd_roles s = r -> S_Data.reachable i_frame s -> M_Data.r_cl (M_Data.dd_roles s) = Some ["c"] -> Q s) -> exists s, i_data r s /\ Q s.
Proof.
  intros W Hd Hc Q H. destruct (i_exists r W Hd) as (s & K & Rl & O). exists s. split; [split; auto|]. apply H; [exact K|exact Rl|apply (i_reach r); split; auto|rewrite Rl; exact Hc].
Qed.
Lemma c_split s v : M_Data.r_cl (M_Data.dd_roles s) = Some ["c"] -> data_split i_frame s (PInt 2) (PInt 1) (PBool true) v.
Proof.
  intro Cc. unfold data_split. rewrite Cc. split; [reflexivity|]. split; [cbn; lia|]. split; [reflexivity|]. split; [cbn; lia|]. split; [cbn; lia|].
  exists true. split; [reflexivity|]. intros _ c Hc. change (Z.to_nat (int_val (PInt 2))) with 2%nat. split; [lia|]. destruct Hc as [<-|[]]; (apply (two_distinct _ _ 0 2); [cbn; lia|cbn; lia|]); cbn; lra.
Qed.
Lemma base_known s w : S_Data.reachable i_frame s -> M_Data.r_cl (M_Data.dd_roles s) = Some ["c"] -> @base_new unit i_rd i_frame s (PInt 2) (PInt 1) (PBool true) = Ok w -> split_known w.
Proof.
  intros Re Hc B. unfold base_new, base_ctx in B. rewrite (clustered_ctx i_frame s Re _ ["c"] Hc) in B. cbn [map] in B. rewrite codes_c in B.
  match type of B with new_object ?C _ _ _ _ _ = _ => destruct (built_new C (PInt 2) (PInt 1) (PBool true) g_id no_perm (Some [w_smpls]) 1 2 2) as (w0 & N & _ & Es & En & _); [vm_compute; reflexivity|] end.
  cbn [i_rd rd_g0 rd_perm0] in B. rewrite N in B. apply ok_inj in B. subst w0. split; [exact Es|]. apply new_inv in N. destruct N as (_ & _ & _ & _ & _ & _ & _ & _ & H). rewrite En in H. exact H.
Qed.
Lemma redraw_known s v w w' : S_Data.reachable i_frame s -> M_Data.r_cl (M_Data.dd_roles s) = Some ["c"] ->
  @base_new unit i_rd i_frame s (PInt 2) (PInt 1) (PBool true) = Ok w -> redraw i_rd i_frame s v (PBool true) w = Ok w' -> split_known w'.
Proof.
  intros Re Hc B Rw. pose proof (base_known s w Re Hc B) as (_ & Kp). destruct (arrays_reachable i_frame s Re) as (_ & _ & _ & _ & Cl & _). rewrite Hc in Cl.
  destruct (redraw_cl i_rd i_frame s ["c"] Cl _ _ _ _ v B) as (w2 & R1 & _ & R2). rewrite Rw in R1. apply ok_inj in R1. subst w2. destruct (R2 eq_refl) as (sm & sc & D & Es & _). split.
  - rewrite Es. cbn [map] in D. rewrite codes_c in D. change (M_Data.frows i_frame) with 8%nat in D. assert (Q : exists sc0, cluster_resampling (Z.to_nat (int_val (PInt 2))) (Z.to_nat (int_val (PInt 1))) 8 [w_codes] (rd_perm i_rd) = Ok ([w_smpls], sc0)) by (eexists; vm_compute; reflexivity).
    destruct Q as (sc0 & Q). rewrite Q in D. apply ok_inj in D. injection D as <- _. reflexivity.
  - unfold redraw in Rw. apply require_ok in Rw as (_ & Rw). destruct (draw_sample_splitting _ _ _ w) as (wq & [u|e]) eqn:Dr; [|discriminate]. apply ok_inj in Rw. subst wq.
    unfold draw_sample_splitting in Dr. unfold andthen at 1, lift at 1 in Dr. destruct (c_cluster _) eqn:Qc; unfold andthen, lift in Dr; cbv zeta in Dr; match type of Dr with context [match ?x with _ => _ end] => destruct x; [|discriminate] end; unfold assign in Dr; injection Dr as <- _; exact Kp.
Qed.
Lemma fits_cl (r : result (ctx unit * world unit)) C w : r = Ok (C, w) -> split_known w -> soundly_reached C w ->
  (exists w', fit C PNone (PBool true) ExtNone (PBool false) w = (w', Ok tt)) -> fits_after r.
Proof.
  intros E Kw Sr (w' & F). eexists _, w, w, w'. split; [exact E|]. split; [exists []; split; [intros o []|reflexivity]|]. split; [exact Kw|]. split; [intros m; apply i_learning, Kw|exact F].
Qed.
Ltac clustered_C s Re Hc Ec := rewrite (clustered_ctx i_frame s Re _ ["c"] Hc) in Ec; subst.
Ltac sp Kw := destruct Kw; eauto.

Definition irm_cl_case (score : string) : Prop := exists s, i_data rc1 s /\
  fits_after (irm_init q_learner i_rd i_frame s reg cls (PInt 2) (PInt 1) (PStr score) WNone (PBool false) (PStr "truncate") (PFloat (1 / 100)) (PBool true)).
Lemma irm_cl_cases score : score = "ATE" \/ score = "ATTE" -> irm_cl_case score.
Proof.
  intro Hs. apply with_clustered; [i_wf|discriminate|reflexivity|]. intros s Con Rl Re Hc.
  destruct (proj2 (irm_accepts_all q_learner i_rd i_frame s Con reg cls (PInt 2) (PInt 1) (PStr score) WNone (PBool false) (PStr "truncate") (PFloat (1 / 100)) (PBool true))) as ((C & w) & E).
  { split; [unfold no_instruments; rewrite Rl; reflexivity|]. split; [exists "d"; split; [apply d_binary; rewrite Rl; reflexivity|apply c_split, Hc]|]. split; [destruct Hs as [->| ->]; [left|right]; split; try reflexivity; exact Logic.I|].
    split; [apply reg_outcome|]. split; [exact cls_proba|]. split; [apply i_bool|exact i_trim]. }
  assert (Kw : split_known w). { pose proof E as H. unfold irm_init in H. bi H w1 B. ri H Zn. ri H D. bi H sc' Sc. bi H w' Rw. bi H gc G. bi H mm M. bi H u Og. bi H nm Nm. bi H th T. cbv zeta in H. bi H u' W. apply ok_inj in H. injection H as _ <-. exact (redraw_known _ _ _ _ Re Hc B Rw). }
  destruct (irm_made q_learner i_rd i_frame s Re i_sound _ _ _ _ _ _ _ _ _ _ _ _ E) as (c & mc & nm & th & bo & st & Bt & Ec & Sr & Od & R1 & R2 & _). apply (is_d s c) in Bt; [subst c|rewrite Rl; reflexivity]. rewrite (clustered_ctx i_frame s Re _ ["c"] Hc) in Ec. subst C.
  eapply fits_cl; [exact E|exact Kw|exact Sr|]. apply (irm_cl_fit_success q_learner q_predict q_proba); fit_base; [discriminate|sp Kw|apply (group_d mc w 0 "d" "ml_g0")|apply (group_d mc w 0 "d" "ml_g1")|apply ready_class]; try assumption; try (apply R1); try (left; reflexivity); right; reflexivity.
Qed.
Definition apo_cl_case : Prop := exists s, i_data rca s /\
  fits_after (apo_init q_learner i_rd i_frame s reg cls (PInt 1) (PInt 2) (PInt 1) (PStr "APO") WNone (PBool false) (PStr "truncate") (PFloat (1 / 100)) (PBool true)).
Lemma apo_cl_cases : apo_cl_case.
Proof.
  apply with_clustered; [i_wf|discriminate|reflexivity|]. intros s Con Rl Re Hc.
  destruct (proj2 (apo_accepts_all q_learner i_rd i_frame s Con reg cls (PInt 1) (PInt 2) (PInt 1) (PStr "APO") WNone (PBool false) (PStr "truncate") (PFloat (1 / 100)) (PBool true))) as ((C & w) & E).
  { split; [unfold no_instruments; rewrite Rl; reflexivity|]. split; [exists "a", 1; split; [rewrite Rl; reflexivity|]; split; [reflexivity|]; split; [exact a_rows|]; apply c_split, Hc|].
    split; [reflexivity|]. split; [exact Logic.I|]. split; [apply reg_outcome|]. split; [exact cls_proba|]. split; [apply i_bool|exact i_trim]. }
  assert (Kw : split_known w). { pose proof E as H. unfold apo_init in H. bi H w1 B. cbv zeta in H. ri H D. ri H Zn. ri H Tr. bi H sc' Sc. bi H w' Rw. bi H gc G. bi H mm M. bi H u Og. bi H nm1 Nm. bi H th1 T. bi H u' W. apply ok_inj in H. injection H as _ <-. exact (redraw_known _ _ _ _ Re Hc B Rw). }
  destruct (apo_made q_learner i_rd i_frame s Re i_sound _ _ _ _ _ _ _ _ _ _ _ _ _ E) as (c & mc & nm & th & bo & st & Dc & Ec & Sr & Ed & Od & R1 & R2 & _). rewrite Rl in Dc. injection Dc as <-. rewrite (clustered_ctx i_frame s Re _ ["c"] Hc) in Ec. subst C.
  pose proof (lvl_a s Ed) as V. eapply fits_cl; [exact E|exact Kw|exact Sr|]. apply (apo_cl_fit_success q_learner q_predict q_proba); fit_base.
  - discriminate.
  - sp Kw.
  - apply (i_regress mc w 0 "a" "ml_g_d_lvl0" "ml_g" _ _ 2 6); try assumption; try lia; try apply R1; cbv beta; rewrite V by lia; cbn; lra.
  - apply (i_regress mc w 0 "a" "ml_g_d_lvl1" "ml_g" _ _ 0 4); try assumption; try lia; try apply R1; cbv beta; rewrite V by lia; cbn; lra.
  - apply (i_classify mc w 0 "a" "ml_m" "ml_m" _ everyone 2 0 6 4); try exact Logic.I; try assumption; try lia; try (rewrite V by lia; cbn; lra). intros i Hi. rewrite V by exact Hi. apply w_a01, Hi.
Qed.
Definition iivm_cl_case : Prop := exists s, i_data rc2 s /\
  fits_after (iivm_init q_learner i_rd i_frame s reg cls cls (PInt 2) (PInt 1) (PStr "LATE") SgNone (PBool false) (PStr "truncate") (PFloat (1 / 100)) (PBool true)).
Lemma iivm_cl_cases : iivm_cl_case.
Proof.
  apply with_clustered; [i_wf|discriminate|reflexivity|]. intros s Con Rl Re Hc.
  destruct (proj2 (iivm_accepts_all q_learner i_rd i_frame s Con reg cls cls (PInt 2) (PInt 1) (PStr "LATE") SgNone (PBool false) (PStr "truncate") (PFloat (1 / 100)) (PBool true))) as ((C & w) & E).
  { split; [exists "d", "z"; split; [apply d_binary; rewrite Rl; reflexivity|]; split; [rewrite Rl; reflexivity|]; split; [exact z_01|apply c_split, Hc]|].
    split; [reflexivity|]. split; [apply reg_outcome|]. split; [exact cls_proba|]. split; [exact cls_proba|]. split; [apply i_bool|]. split; [exact i_trim|exact Logic.I]. }
  assert (Kw : split_known w). { pose proof E as H. unfold iivm_init in H. bi H w1 B. ri H D. destruct (M_Data.c_z s) as [[|z [|z' l]]|]; try discriminate. ri H Zn. bi H sc' Sc. cbv zeta in H. bi H w' Rw. bi H gc G. bi H mm M. bi H rr Mr. bi H u Og. bi H nm Nm. bi H th T. bi H p W. apply ok_inj in H. injection H as _ <-. exact (redraw_known _ _ _ _ Re Hc B Rw). }
  destruct (iivm_made q_learner i_rd i_frame s Re i_sound _ _ _ _ _ _ _ _ _ _ _ _ _ E) as (c & z & mc & nm & th & bo & at1 & nt1 & st & Bt & Ez & _ & Ec & Sr & Od & R1 & R2 & R3 & _). apply (is_d s c) in Bt; [subst c|rewrite Rl; reflexivity]. rewrite Rl in Ez. injection Ez as <-. rewrite (clustered_ctx i_frame s Re _ ["c"] Hc) in Ec. subst C.
  eapply fits_cl; [exact E|exact Kw|exact Sr|]. apply (iivm_cl_fit_success q_learner q_predict q_proba); fit_base.
  - discriminate.
  - sp Kw.
  - apply (group_t mc w 0 "d" "ml_g0"); [assumption|apply R1|auto].
  - apply (group_t mc w 0 "d" "ml_g1"); [assumption|apply R1|auto].
  - apply ready_class; [assumption|right; reflexivity].
  - intros _. apply (i_classify mc w 0 "d" "ml_r0" "ml_r" w_d (fun i => w_t i = 0) 0 1 4 5); try assumption; try lia; try exact w_d01; cbn; lra.
  - intros _. apply (i_classify mc w 0 "d" "ml_r1" "ml_r" w_d (fun i => w_t i = 1) 2 3 6 7); try assumption; try lia; try exact w_d01; cbn; lra.
Qed.
Definition did_cl_case (score : string) : Prop := exists s, i_data rc1 s /\
  fits_after (did_init q_learner i_rd i_frame s reg (Some cls) (PInt 2) (PInt 1) (PStr score) (PBool true) (PStr "truncate") (PFloat (1 / 100)) (PBool true)).
Lemma did_cl_cases score : score = "observational" \/ score = "experimental" -> did_cl_case score.
Proof.
  intro Hs. apply with_clustered; [i_wf|discriminate|reflexivity|]. intros s Con Rl Re Hc.
  destruct (proj2 (did_accepts_all q_learner i_rd i_frame s Con reg (Some cls) (PInt 2) (PInt 1) (PStr score) (PBool true) (PStr "truncate") (PFloat (1 / 100)) (PBool true))) as ((C & w) & E).
  { split; [unfold no_instruments; rewrite Rl; reflexivity|]. split; [exists "d"; split; [apply d_binary; rewrite Rl; reflexivity|apply c_split, Hc]|]. split; [apply i_did_score, Hs|]. split; [apply reg_outcome|]. split; [apply i_bool|exact i_trim]. }
  assert (Kw : split_known w). { pose proof E as H. unfold did_init in H. bi H w1 B. ri H Zn. ri H D. bi H sc' Sc. bi H nm Nm. bi H w' Rw. cbv zeta in H. bi H ls Ls. bi H th T. apply ok_inj in H. injection H as _ <-. exact (redraw_known _ _ _ _ Re Hc B Rw). }
  destruct (did_made q_learner i_rd i_frame s Re i_sound _ _ _ _ _ _ _ _ _ _ _ E) as (c & mc & nm & th & st & Bt & Ec & Sr & Od & R1 & _). apply (is_d s c) in Bt; [subst c|rewrite Rl; reflexivity]. rewrite (clustered_ctx i_frame s Re _ ["c"] Hc) in Ec. subst C.
  eapply fits_cl; [exact E|exact Kw|exact Sr|]. apply (did_cl_fit_success q_learner q_predict q_proba); fit_base.
  - discriminate.
  - sp Kw.
  - apply (group_d mc w 0 "d" "ml_g0"); [assumption|apply R1|auto].
  - apply (group_d mc w 0 "d" "ml_g1"); [assumption|apply R1|auto].
  - intros _. apply ready_class; [assumption|left; reflexivity].
Qed.
Definition cs_cl_case (score : string) : Prop := exists s, i_data rct s /\
  fits_after (cs_init q_learner i_rd i_frame s reg (Some cls) (PInt 2) (PInt 1) (PStr score) (PBool true) (PStr "truncate") (PFloat (1 / 100)) (PBool true)).
Lemma cs_cl_cases score : score = "observational" \/ score = "experimental" -> cs_cl_case score.
Proof.
  intro Hs. apply with_clustered; [i_wf|discriminate|reflexivity|]. intros s Con Rl Re Hc.
  destruct (proj2 (cs_accepts_all q_learner i_rd i_frame s Con reg (Some cls) (PInt 2) (PInt 1) (PStr score) (PBool true) (PStr "truncate") (PFloat (1 / 100)) (PBool true))) as ((C & w) & E).
  { split; [unfold no_instruments; rewrite Rl; reflexivity|]. split; [exists "d", "t"; split; [apply d_binary; rewrite Rl; reflexivity|]; split; [rewrite Rl; reflexivity|]; split; [exact t_01|apply c_split, Hc]|]. split; [apply i_did_score, Hs|]. split; [apply reg_outcome|]. split; [apply i_bool|exact i_trim]. }
  assert (Kw : split_known w). { pose proof E as H. unfold cs_init in H. bi H w1 B. ri H Zn. ri H D. destruct (M_Data.c_t s); [|discriminate]. ri H Zt. bi H sc' Sc. bi H nm Nm. cbv zeta in H. bi H w' Rw. bi H ls Ls. bi H th T. apply ok_inj in H. injection H as _ <-. exact (redraw_known _ _ _ _ Re Hc B Rw). }
  destruct (cs_made q_learner i_rd i_frame s Re i_sound _ _ _ _ _ _ _ _ _ _ _ E) as (c & tc & mc & nm & th & st & Bt & Et & _ & Ec & Sr & Od & R1 & _). apply (is_d s c) in Bt; [subst c|rewrite Rl; reflexivity]. rewrite Rl in Et. injection Et as <-. rewrite (clustered_ctx i_frame s Re _ ["c"] Hc) in Ec. subst C.
  eapply fits_cl; [exact E|exact Kw|exact Sr|]. apply (cs_cl_fit_success q_learner q_predict q_proba); fit_base.
  - discriminate.
  - sp Kw.
  - intros a b name H. apply (group_dt mc w 0 "d" name); [assumption|apply R1| |]; cbn in H; intuition congruence.
  - intros _. apply ready_class; [assumption|left; reflexivity].
Qed.
Definition ssm_cl_case : Prop := exists s, i_data rcs s /\
  fits_after (ssm_init q_learner i_rd i_frame s (fun _ _ => w_tts) reg cls cls (PInt 2) (PInt 1) (PStr "missing-at-random") (PBool false) (PStr "truncate") (PFloat (1 / 100)) (PBool true)).
Lemma ssm_cl_cases : ssm_cl_case.
Proof.
  apply with_clustered; [i_wf|discriminate|reflexivity|]. intros s Con Rl Re Hc.
  destruct (proj2 (ssm_accepts_all q_learner i_rd i_frame s Con (fun _ _ => w_tts) reg cls cls (PInt 2) (PInt 1) (PStr "missing-at-random") (PBool false) (PStr "truncate") (PFloat (1 / 100)) (PBool true))) as ((C & w) & E).
  { split; [exists "s"; split; [rewrite Rl; reflexivity|]; cbv zeta; apply c_split, Hc|]. split; [left; reflexivity|]. split; [apply reg_outcome|]. split; [exact cls_proba|]. split; [exact cls_proba|]. split; [apply i_bool|exact i_trim]. }
  assert (Kw : split_known w). { pose proof E as H. unfold ssm_init in H. bi H w1 B. bi H th T. ri H Nz. bi H sc' Sc. destruct (M_Data.c_s s); [|discriminate]. cbv zeta in H. bi H w' Rw. bi H gc G. bi H mp Mp. bi H mm M. bi H u Og. bi H nm Nm. apply ok_inj in H. injection H as _ <-. exact (redraw_known _ _ _ _ Re Hc B Rw). }
  destruct (ssm_made q_learner i_rd i_frame s Re i_sound _ _ _ _ _ _ _ _ _ _ _ _ _ E) as (sel & mc & nm & th & st & Es & Ec & Sr & Od & R1 & R2 & R3 & _). rewrite Rl in Es. injection Es as <-. rewrite (clustered_ctx i_frame s Re _ ["c"] Hc) in Ec. cbn [String.eqb Ascii.eqb Bool.eqb] in Ec. subst C.
  eapply fits_cl; [exact E|exact Kw|exact Sr|]. apply (ssm_cl_fit_success q_learner q_predict q_proba); fit_base; [discriminate|exact (some_treatment i_frame s Re)|sp Kw|]. intros t c Hct. rewrite d_of_d by (assumption || (rewrite Rl; reflexivity)).
  split; [apply ready_class; [assumption|right; reflexivity]|]. split; [apply ready_class; [assumption|left; reflexivity]|]. split; apply group_dt; try assumption; try apply R1; auto.
Qed.
Lemma pliv_known s z more score C w : S_Data.reachable i_frame s -> M_Data.r_cl (M_Data.dd_roles s) = Some ["c"] -> M_Data.c_z s = Some (z :: more) ->
  pliv_init q_learner i_rd i_frame s (fun _ _ => 0) reg reg reg None (PInt 2) (PInt 1) score (PBool true) = Ok (C, w) -> split_known w.
Proof.
  intros Re Hc Hz H. unfold pliv_init in H. bi H w1 B. rewrite Hz in H. bi H sc' Sc. bi H cla Ll. bi H clb Lm. bi H clc Lr. cbv zeta in H. bi H gq G. apply ok_inj in H. injection H as _ <-. exact (base_known _ _ Re Hc B).
Qed.
Definition pliv_many_cl_case : Prop := exists s, i_data rcz s /\
  fits_after (pliv_init q_learner i_rd i_frame s (fun _ _ => 0) reg reg reg None (PInt 2) (PInt 1) (PStr "partialling out") (PBool true)).
Lemma pliv_many_cl_cases : pliv_many_cl_case.
Proof.
  apply with_clustered; [i_wf|discriminate|reflexivity|]. intros s Con Rl Re Hc. assert (Hz : M_Data.c_z s = Some ["z"; "z2"]) by (destruct (arrays_reachable i_frame s Re) as (_ & Az & _); rewrite Az, Rl; reflexivity).
  destruct (proj2 (pliv_accepts_all q_learner i_rd i_frame s Con (fun _ _ => 0) reg reg reg None (PInt 2) (PInt 1) (PStr "partialling out") (PBool true))) as ((C & w) & E).
  { split; [apply c_split, Hc|]. split; [exact reg_values|]. split; [exact reg_values|]. split; [exact reg_values|]. rewrite Rl. exists "z", ["z2"]. split; [reflexivity|left; reflexivity]. }
  pose proof (pliv_known s _ _ _ _ _ Re Hc Hz E) as Kw.
  destruct (pliv_made q_learner i_rd i_frame s Re i_sound _ _ _ _ _ _ _ _ _ _ _ E) as (z & more & mc & Ez & _ & Ec & Sr & Od & R1 & R2 & R3 & R4). rewrite Rl in Ez. injection Ez as <- <-. rewrite (clustered_ctx i_frame s Re _ ["c"] Hc), clustered_asserting in Ec. change (one_key _ _) with true in Ec. rewrite asserting_true in Ec. subst C.
  eapply fits_cl; [exact E|exact Kw|exact Sr|]. apply (pliv_several_cl_fit_success q_learner q_predict q_proba); fit_base; [discriminate|exact (some_treatment i_frame s Re)|sp Kw|]. intros t c Hct.
  split; [apply ready_any; [exact Kw|apply R1]|]. split; [intros name v Hv; apply ready_any; [exact Kw|apply R2]|apply ready_any; [exact Kw|apply R3]].
Qed.
Definition pliv_z_cl_case : Prop := exists s, i_data rcz s /\
  fits_after (pliv_partial_z q_learner i_rd i_frame s (fun _ _ => 0) reg reg (PInt 2) (PInt 1) (PStr "partialling out") (PBool true)).
Lemma pliv_z_cl_cases : pliv_z_cl_case.
Proof.
  apply with_clustered; [i_wf|discriminate|reflexivity|]. intros s Con Rl Re Hc. assert (Hz : M_Data.c_z s = Some ["z"; "z2"]) by (destruct (arrays_reachable i_frame s Re) as (_ & Az & _); rewrite Az, Rl; reflexivity).
  destruct (proj2 (pliv_z_accepts_all q_learner i_rd i_frame s Con (fun _ _ => 0) reg reg (PInt 2) (PInt 1) (PStr "partialling out") (PBool true) reg_values)) as ((C & w) & E).
  { split; [apply c_split, Hc|]. split; [exact reg_values|]. split; [reflexivity|]. rewrite Rl. exists "z", ["z2"]. reflexivity. }
  assert (Kw : split_known w). { pose proof E as H. unfold pliv_partial_z in H. bi H p P1. destruct p as (C1 & w1). bi H sc' Sc. bi H l' Lr. cbv zeta in H. apply ok_inj in H. injection H as _ <-. exact (pliv_known s _ _ _ _ _ Re Hc Hz P1). }
  destruct (pliv_z_made q_learner i_rd i_frame s Re i_sound _ _ _ _ _ _ _ _ _ E) as (mc & Ec & Sr & Od & R1). rewrite (clustered_ctx i_frame s Re _ ["c"] Hc) in Ec. subst C.
  eapply fits_cl; [exact E|exact Kw|exact Sr|]. apply (pliv_z_cl_fit_success q_learner q_predict q_proba); fit_base; [discriminate|exact (some_treatment i_frame s Re)|sp Kw|]. intros t c Hct. apply ready_any; [exact Kw|apply R1].
Qed.

(** The benchmark: a concrete case. *)
From Verif Require Import L_BenchData.
From Verif Require Export L_BenchNew L_InitWitness.
From Coq Require Import Lia Lra.
Local Open Scope R_scope.
Local Open Scope string_scope.

Definition b_long : M_Data.roles := M_Data.mk_roles "y" ["d"] ["x"; "c"] None None None None.
Definition b_call : call r_memo := CallIRM reg cls (PInt 2) (PInt 1) (PStr "ATE") WNone (PBool false) (PStr "truncate") (PFloat (1 / 100)) (PBool true).
Lemma b_make s : S_Data.constructed i_frame s -> M_Data.r_d (M_Data.dd_roles s) = ["d"] -> M_Data.r_z (M_Data.dd_roles s) = None -> unclustered s ->
  exists C w0, make q_learner i_rd i_frame b_call s = Ok (C, w0) /\ c_n C = 8%nat /\ c_cluster C = None /\ soundly_reached C w0 /\
    forall w, split_known w -> soundly_reached C w -> exists w', fit C PNone (PBool true) ExtNone (PBool false) w = (w', Ok tt).
Proof.
  intros Con Rd Rz Un. pose proof (S_Data.R_new _ _ Con) as Re. cbn [make b_call].
  destruct (proj2 (irm_accepts q_learner i_rd i_frame s Con Un reg cls (PInt 2) (PInt 1) (PStr "ATE") WNone (PBool false) (PStr "truncate") (PFloat (1 / 100)) (PBool true))) as ((C & w0) & E).
  { split; [exact Rz|]. split; [exists "d"; split; [apply d_binary; exact Rd|exact d_split]|]. split; [left; split; [reflexivity|exact Logic.I]|].
    split; [apply reg_outcome|]. split; [exact cls_proba|]. split; [apply i_bool|exact i_trim]. }
  destruct (irm_made q_learner i_rd i_frame s Re i_sound _ _ _ _ _ _ _ _ _ _ _ _ E) as (c & mc & nm & th & bo & st & Bt & Ec & Sr & Od & R1 & R2 & _). apply (is_d s c) in Bt; [subst c|exact Rd]. rewrite (plain_ctx i_frame s Re _ Un) in Ec. 
  exists C, w0. split; [exact E|]. split; [rewrite Ec; reflexivity|]. split; [rewrite Ec; reflexivity|]. split; [exact Sr|]. intros w Kw Sw. subst C.
  assert (Sm : exists sm, m_smpls (w_obj w) = Some sm) by (destruct Kw as (Kw & _); eauto).
  apply (irm_fit_success q_learner q_predict q_proba); fit_base; [apply (group_d mc w 0 "d" "ml_g0")|apply (group_d mc w 0 "d" "ml_g1")|apply ready_class]; try assumption; try (apply R1); try (left; reflexivity); right; reflexivity.
Qed.
Definition b_ops : list (op unit) := [OSet i_set None].
Lemma b_set (C C2 : ctx unit) w : same_shape C C2 -> run C b_ops w = run C2 b_ops w.
Proof. intros (A & B & D). destruct C as [n dc cl st ls cc eo nu se], C2 as [n2 dc2 cl2 st2 ls2 cc2 eo2 nu2 se2]. cbn in A, B, D. subst. reflexivity. Qed.
Lemma b_later (C : ctx unit) w0 : later C w0 (run C b_ops w0).
Proof. exists b_ops. split; [intros o [<-|[]]; exact Logic.I|reflexivity]. Qed.
Lemma b_known (C : ctx unit) w0 : c_n C = 8%nat -> c_cluster C = None -> split_known (run C b_ops w0).
Proof. intros Hn Hc. destruct C as [n dc cl st ls cc eo nu se]. cbn in Hn, Hc. subst n cl. split; reflexivity. Qed.
Lemma later_fit {P} (C : ctx P) w0 w nj st ext sm w' : later C w0 w -> fit C nj st ext sm w = (w', Ok tt) -> later C w0 w'.
Proof.
  intros (ops & G & ->) H. exists (ops ++ [OFit nj st ext sm])%list. split; [intros o Ho; apply in_app_iff in Ho as [Ho|[<-|[]]]; [auto|exact Logic.I]|].
  rewrite run_app. cbn [run run_op]. rewrite H. reflexivity.
Qed.
Lemma fit_config {P} (C : ctx P) nj st ext sm w w' : c_dcols C <> [] -> wf C w -> fit C nj st ext sm w = (w', Ok tt) -> same_config w' w.
Proof.
  intros D W H. destruct (fit_inv _ _ _ _ _ _ _ (dcols_pos _ D) W H) as (_ & _ & _ & v & Lv & ->). pose proof (li_fr _ _ _ _ _ _ Lv) as F.
  split; [exact (fr_n_rep _ _ _ F)|]. split; [exact (fr_smpls _ _ _ F)|]. split; [exact (fr_smpls_c _ _ _ F)|]. split; [exact (fr_nfpc _ _ _ F)|]. intros l t. change (m_params (w_obj v) l t = m_params (w_obj w) l t). now rewrite (fr_params _ _ _ F).
Qed.
Lemma b_case : exists s s2 C C2 w0 w1 w w2 w2', S_Data.constructed i_frame s /\ M_Data.dd_roles s = b_long /\ make q_learner i_rd i_frame b_call s = Ok (C, w0) /\
  later C w0 w1 /\ fit C PNone (PBool true) ExtNone (PBool false) w1 = (w, Ok tt) /\ later C w0 w /\ m_sens (w_obj w) <> None /\ all_estimates w /\
  S_Data.constructed i_frame s2 /\ without ["c"] (M_Data.dd_roles s) (M_Data.dd_roles s2) /\ M_Data.dd_other s2 = M_Data.dd_other s /\ some_features (M_Data.dd_roles s2) (M_Data.dd_other s2) /\
  make q_learner i_rd i_frame b_call s2 = Ok (C2, w0) /\ later C2 w0 w2 /\ same_config w w2 /\ fit C2 PNone (PBool true) ExtNone (PBool false) w2 = (w2', Ok tt).
Proof.
  assert (Wl : S_Data.well_formed i_frame b_long) by i_wf.
  destruct (i_exists b_long Wl ltac:(discriminate)) as (s & Con & Rl & Ot).
  destruct (b_make s Con) as (C & w0 & M & Cn & Cc & Sr & Ft); [rewrite Rl; reflexivity|rewrite Rl; reflexivity|unfold unclustered; rewrite Rl; reflexivity|].
  destruct (short_exists q_learner i_rd i_frame b_call s C w0 ["c"] Con M) as (s2 & C2 & Con2 & Wo & O2 & M2).
  assert (R2 : M_Data.r_d (M_Data.dd_roles s2) = ["d"] /\ M_Data.r_z (M_Data.dd_roles s2) = None /\ unclustered s2) by (unfold unclustered; destruct Wo as (_ & -> & -> & _ & _ & -> & _); rewrite Rl; auto).
  destruct R2 as (R2a & R2b & R2c). destruct (b_make s2 Con2 R2a R2b R2c) as (C2' & w0' & M2' & Cn2 & Cc2 & Sr2 & Ft2). rewrite M2 in M2'. apply ok_inj in M2'. injection M2' as <- <-.
  destruct (L_Bench.bench_shape q_learner i_rd i_frame i_sound b_call s s2 ["c"] C w0 C2 w0 Con Con2 Wo O2 M M2) as (_ & Sh & D2 & Es & _).
  assert (Dc : c_dcols C <> []) by (destruct Sh as (_ & -> & _); exact D2).
  pose proof (b_later C w0) as Lt. pose proof (b_known C w0 Cn Cc) as Kn. destruct (Ft _ Kn (reached_later _ _ _ Sr Lt)) as (w & Fl).
  pose proof (b_later C2 w0) as Lt2. pose proof (b_known C2 w0 Cn2 Cc2) as Kn2. destruct (Ft2 _ Kn2 (reached_later _ _ _ Sr2 Lt2)) as (w2' & Fl2).
  assert (W1 : wf C (run C b_ops w0)) by exact (made_wf _ q_learner i_rd i_frame b_call s C w0 _ (S_Data.R_new _ _ Con) i_sound M Lt).
  exists s, s2, C, C2, w0, (run C b_ops w0), w, (run C2 b_ops w0), w2'.
  split; [exact Con|]. split; [exact Rl|]. split; [exact M|]. split; [exact Lt|]. split; [exact Fl|]. split; [exact (later_fit _ _ _ _ _ _ _ _ Lt Fl)|]. split.
  { destruct (after_long q_learner i_rd i_frame i_sound b_call s s2 ["c"] C C2 w0 w0 w Con Con2 Wo O2 M M2 PNone (PBool true) ExtNone (PBool false) _ Lt Fl) as (? & ? & ? & ? & _ & _ & Q & _). exact Q. }
  split; [exact (fit_estimates _ C _ _ _ _ _ _ Dc W1 Fl)|].
  split; [exact Con2|]. split; [exact Wo|]. split; [exact O2|]. split.
  { intros c Hc H. assert (Hx : In "x" (S_Data.features (M_Data.dd_roles s2) (M_Data.dd_other s2) c)); [|rewrite H in Hx; exact Hx].
    unfold S_Data.features. apply in_app_iff. left. destruct Wo as (_ & _ & _ & _ & _ & _ & keep & -> & K). rewrite Rl. apply filter_In. split; [now left|]. apply K. cbn. intros [Q|[]]. discriminate. }
  split; [exact M2|]. split; [exact Lt2|]. split; [|exact Fl2].
  rewrite <- (b_set C C2 w0 Sh). exact (fit_config C _ _ _ _ _ _ Dc W1 Fl).
Qed.

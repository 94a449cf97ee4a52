(** Reported targets and external predictions. *)
From Verif Require Export L_NuisFree.
From Coq Require Import Lia Lra.
Local Open Scope R_scope.
Local Open Scope res_scope.
Local Open Scope string_scope.

Section Targets.
Context {E P : Type}.
Variable L : learner E row P.
Variables (f : E -> row -> R) (g : E -> row -> list R).
Variable su : setup E P.
Notation n := (su_n su).
Notation Fit := (fit_ok L g su).

Lemma faithful_codes lrn y c : plain_labels su lrn y -> (c = y \/ codes n y c /\ su_proba su lrn = true) -> forall i, (i < n)%nat -> c i = y i.
Proof. intros H [->|(C & Hp)] i Hi; [reflexivity|]. destruct H as [H|(H1 & H2)]; [congruence|]. apply (codes_zero_one n); assumption. Qed.
Lemma target_all name lrn x y smpls h : setting L f g su smpls -> Fit name lrn y everyone smpls -> su_ext su name = None -> plain_labels su lrn y ->
  or_ext su name (fit_checked L su name lrn x y smpls smpls) = Ok h -> exists t, h_targets h = Some t /\ forall i, (i < n)%nat -> t i = Some (y i).
Proof.
  intros S F Ex Pl H. unfold or_ext in H. rewrite Ex in H. apply checked_inv in H. apply (fit_all L f g) in H as (_ & _ & t & c & T1 & T2 & T3); [|exact S|exact (F Ex)]. exists t. split; [exact T1|].
  intros i Hi. rewrite (T3 i Hi). f_equal. apply (faithful_codes lrn y c); assumption.
Qed.
Lemma target_sub name lrn x y c (G : nat -> Prop) smpls h : (forall i, c i = true <-> G i) -> setting L f g su smpls -> Fit name lrn y G smpls -> su_ext su name = None -> plain_labels su lrn y ->
  or_ext su name (let! h := fit_checked L su name lrn x y (sub su c smpls) smpls in Ok (mask c h)) = Ok h ->
  exists t, h_targets h = Some t /\ forall i, (i < n)%nat -> t i = if c i then Some (y i) else None.
Proof.
  intros HG S F Ex Pl H. unfold or_ext in H. rewrite Ex in H. inv1 H. inv1 H. subst h. apply checked_inv in E0. apply (fit_sub L f g su _ _ _ _ _ G) in E0 as (_ & _ & t & cc & T1 & T2 & T3); [|exact HG|exact S|exact (F Ex)].
  cbn [mask h_targets]. rewrite T1. cbn [option_map]. eexists. split; [reflexivity|]. intros i Hi. cbv beta. destruct (c i); [|reflexivity]. rewrite (T3 i Hi). f_equal. apply (faithful_codes lrn y cc); assumption.
Qed.
Lemma on_all e hs name h y t : dict_get name hs = Some h -> h_targets h = Some t -> (forall i, (i < n)%nat -> t i = Some (y i)) -> target_on su (mk_out e hs) name y everyone.
Proof. intros H1 H2 H3. exists t. cbn [mk_out no_targets]. rewrite H1. split; [exact H2|]. intros i Hi. split; [intros _; apply H3, Hi|intro C; exfalso; apply C; exact Logic.I]. Qed.
Lemma on_sub e hs name h y t c G : (forall i, c i = true <-> G i) -> dict_get name hs = Some h -> h_targets h = Some t -> (forall i, (i < n)%nat -> t i = if c i then Some (y i) else None) -> target_on su (mk_out e hs) name y G.
Proof.
  intros HG H1 H2 H3. exists t. cbn [mk_out no_targets]. rewrite H1. split; [exact H2|]. intros i Hi. rewrite (H3 i Hi). split; intro C; destruct (c i) eqn:Ec; try reflexivity.
  - apply HG in C. congruence.
  - exfalso. apply C, HG, Ec.
Qed.
Lemma plr_targets iv bt x y d smpls out : setting L f g su smpls -> Fit "ml_l" "ml_l" y everyone smpls -> Fit "ml_m" "ml_m" d everyone smpls ->
  plain_labels su "ml_l" y -> plain_labels su "ml_m" d -> plr_nuis L su iv bt x y d smpls = Ok out ->
  (su_ext su "ml_l" = None -> su_ext su "ml_g" = None -> target_on su out "ml_l" y everyone) /\ (su_ext su "ml_m" = None -> target_on su out "ml_m" d everyone).
Proof.
  intros S Fl Fm Pl Pm H. unfold plr_nuis in H. inv1 H. inv1 H. inv1 H. inv1 H. inv1 H. subst out. split.
  - intros Ex Eg. rewrite Eg, andb_false_r in E0. destruct (target_all _ _ _ _ _ _ S Fl Ex Pl E0) as (t & T1 & T2). eapply on_all; [reflexivity|exact T1|exact T2].
  - intro Ex. destruct (target_all _ _ _ _ _ _ S Fm Ex Pm E1) as (t & T1 & T2). eapply on_all; [reflexivity|exact T1|exact T2].
Qed.
Lemma irm_targets atte norm bo tr thr w x y d smpls out : setting L f g su smpls -> Fit "ml_g0" "ml_g" y (fun j => d j = 0) smpls -> Fit "ml_g1" "ml_g" y (fun j => d j = 1) smpls ->
  Fit "ml_m" "ml_m" d everyone smpls -> plain_labels su "ml_g" y -> plain_labels su "ml_m" d -> irm_nuis L su atte norm bo tr thr w x y d smpls = Ok out ->
  (su_ext su "ml_g0" = None -> target_on su out "ml_g0" y (fun j => d j = 0)) /\ (su_ext su "ml_g1" = None -> target_on su out "ml_g1" y (fun j => d j = 1)) /\
  (su_ext su "ml_m" = None -> target_on su out "ml_m" d everyone).
Proof.
  intros S F0 F1 Fm Pg Pm H. unfold irm_nuis in H. inv1 H. inv1 H. inv1 H. inv1 H. inv1 H. subst out.
  assert (E0' : or_ext su "ml_g0" (let! h := fit_checked L su "ml_g0" "ml_g" x y (sub su (is01 d 0) smpls) smpls in Ok (mask (is01 d 0) h)) = Ok h).
  { unfold or_ext in *. destruct (su_ext su "ml_g0"); [exact E0|]. inv1 E0. inv1 E0. inv1 E0. subst h. reflexivity. }
  split; [|split]; intro Ex.
  - destruct (target_sub _ _ _ _ _ _ _ _ (is01_iff d 0) S F0 Ex Pg E0') as (t & T1 & T2). eapply on_sub; [apply is01_iff|reflexivity|exact T1|exact T2].
  - destruct (target_sub _ _ _ _ _ _ _ _ (is01_iff d 1) S F1 Ex Pg E1) as (t & T1 & T2). eapply on_sub; [apply is01_iff|reflexivity|exact T1|exact T2].
  - destruct (target_all _ _ _ _ _ _ S Fm Ex Pm E2) as (t & T1 & T2). eapply on_all; [reflexivity|exact T1|exact T2].
Qed.
Lemma did_targets obs norm tr thr x y d smpls out : setting L f g su smpls -> Fit "ml_g0" "ml_g" y (fun j => d j = 0) smpls -> Fit "ml_g1" "ml_g" y (fun j => d j = 1) smpls ->
  plain_labels su "ml_g" y -> did_nuis L su obs norm tr thr x y d smpls = Ok out ->
  (su_ext su "ml_g0" = None -> target_on su out "ml_g0" y (fun j => d j = 0)) /\ (su_ext su "ml_g1" = None -> target_on su out "ml_g1" y (fun j => d j = 1)).
Proof.
  intros S F0 F1 Pg H. unfold did_nuis in H. inv1 H. inv1 H. inv1 H. inv1 H. subst out. split; intro Ex.
  - destruct (target_sub _ _ _ _ _ _ _ _ (is01_iff d 0) S F0 Ex Pg E0) as (t & T1 & T2). eapply on_sub; [apply is01_iff|reflexivity|exact T1|exact T2].
  - destruct (target_sub _ _ _ _ _ _ _ _ (is01_iff d 1) S F1 Ex Pg E1) as (t & T1 & T2). eapply on_sub; [apply is01_iff|reflexivity|exact T1|exact T2].
Qed.
(** Potential outcomes: also with external predictions. *)
Lemma apo_targets norm bo tr thr w x y d lvl smpls out : setting L f g su smpls -> Fit "ml_g_d_lvl0" "ml_g" y (fun j => lvl j = 0) smpls -> Fit "ml_g_d_lvl1" "ml_g" y (fun j => lvl j = 1) smpls ->
  Fit "ml_m" "ml_m" lvl everyone smpls -> plain_labels su "ml_g" y -> plain_labels su "ml_m" lvl -> apo_nuis L su norm bo tr thr w x y d lvl smpls = Ok out ->
  target_on su out "ml_g_d_lvl0" y (fun j => lvl j = 0) /\ target_on su out "ml_g_d_lvl1" y (fun j => lvl j = 1) /\ target_on su out "ml_m" lvl everyone.
Proof.
  intros S F0 F1 Fm Pg Pm H. unfold apo_nuis in H. inv1 H. inv1 H. inv1 H. inv1 H. inv1 H. inv1 H. subst out.
  assert (A : forall name c xx v h (G : nat -> Prop), (forall i, c i = true <-> G i) -> Fit name "ml_g" v G smpls -> plain_labels su "ml_g" v ->
     apo_ext su name c v (let! h := fit_checked L su name "ml_g" xx v (sub su c smpls) smpls in Ok (mask c h)) = Ok h -> exists t, h_targets h = Some t /\ forall i, (i < n)%nat -> t i = if c i then Some (v i) else None).
  { intros name c xx v hh G HG Fn Pn H. unfold apo_ext in H. destruct (su_ext su name) as [e|] eqn:Ex; [inv1 H; subst hh; eexists; split; [reflexivity|reflexivity]|].
    apply (target_sub name "ml_g" xx v c G smpls hh HG S Fn Ex Pn). unfold or_ext. rewrite Ex. exact H. }
  split; [|split].
  - destruct (A _ _ _ _ _ _ (is01_iff lvl 0) F0 Pg E1) as (t & T1 & T2). eapply on_sub; [apply is01_iff|reflexivity|exact T1|exact T2].
  - destruct (A _ _ _ _ _ _ (is01_iff lvl 1) F1 Pg E0) as (t & T1 & T2). eapply on_sub; [apply is01_iff|reflexivity|exact T1|exact T2].
  - assert (Q : exists t, h_targets h1 = Some t /\ forall i, (i < n)%nat -> t i = Some (lvl i)).
    { unfold apo_ext in E2. destruct (su_ext su "ml_m") as [e|] eqn:Ex; [inv1 E2; subst h1; eexists; split; reflexivity|]. apply (target_all "ml_m" "ml_m" x lvl smpls h1 S Fm Ex Pm). unfold or_ext. rewrite Ex. exact E2. }
    destruct Q as (t & T1 & T2). eapply on_all; [reflexivity|exact T1|exact T2].
Qed.
(** Sample selection: targets of ml_g on all rows. *)
Lemma ssm_targets norm tr thr x y d s smpls out : setting L f g su smpls ->
  labels_ok L g su "ml_g" y (fun j => d j = 1 /\ s j = 1) smpls -> labels_ok L g su "ml_g" y (fun j => d j = 0 /\ s j = 1) smpls -> plain_labels su "ml_g" y -> ssm_mar_nuis L su norm tr thr x y d s smpls = Ok out ->
  target_on su out "ml_g_d1" y everyone /\ target_on su out "ml_g_d0" y everyone.
Proof.
  intros S F1 F0 Pg H. unfold ssm_mar_nuis in H. inv1 H. inv1 H. inv1 H. inv1 H. inv1 H. subst out.
  apply checked_inv in E2, E3. apply (fit_sub L f g su _ _ _ _ _ (fun j => d j = 1 /\ s j = 1)) in E2 as (_ & _ & t1 & c1 & T1 & T2 & T3); [|apply is01_2_iff|exact S|exact F1].
  apply (fit_sub L f g su _ _ _ _ _ (fun j => d j = 0 /\ s j = 1)) in E3 as (_ & _ & t0 & c0 & U1 & U2 & U3); [|apply is01_2_iff|exact S|exact F0].
  split; (eapply on_all; [reflexivity|eassumption|]); intros i Hi; [rewrite (T3 i Hi)|rewrite (U3 i Hi)]; f_equal; eapply faithful_codes; eassumption.
Qed.
Lemma ssm_targets_wide norm tr thr x y d s smpls out i : setting L f g su smpls ->
  labels_ok L g su "ml_g" y (fun j => d j = 1 /\ s j = 1) smpls -> labels_ok L g su "ml_g" y (fun j => d j = 0 /\ s j = 1) smpls -> plain_labels su "ml_g" y -> ssm_mar_nuis L su norm tr thr x y d s smpls = Ok out ->
  (i < n)%nat -> s i <> 1 -> ~ target_on su out "ml_g_d1" y (fun j => d j = 1 /\ s j = 1) /\ ~ target_on su out "ml_g_d0" y (fun j => d j = 0 /\ s j = 1).
Proof.
  intros S F1 F0 Pg H Hi Hs. destruct (ssm_targets _ _ _ _ _ _ _ _ _ S F1 F0 Pg H) as ((t & T1 & T2) & (u & U1 & U2)). split; intros (v & V1 & V2).
  - assert (v = t) by congruence. subst v. destruct (T2 i Hi) as (A & _), (V2 i Hi) as (_ & B). rewrite (A Logic.I) in B. assert (C : ~ (d i = 1 /\ s i = 1)) by tauto. specialize (B C). discriminate.
  - assert (v = u) by congruence. subst v. destruct (U2 i Hi) as (A & _), (V2 i Hi) as (_ & B). rewrite (A Logic.I) in B. assert (C : ~ (d i = 0 /\ s i = 1)) by tauto. specialize (B C). discriminate.
Qed.

(** ** External predictions *)
Lemma pliv_z_ignores e x zrow y d smpls : pliv_z_nuis L (with_ext su e) x zrow y d smpls = pliv_z_nuis L su x zrow y d smpls.
Proof. reflexivity. Qed.
Lemma pliv_xz_ignores e x zrow y d smpls : pliv_xz_nuis L (with_ext su e) x zrow y d smpls = pliv_xz_nuis L su x zrow y d smpls.
Proof. reflexivity. Qed.
Lemma pliv_ignores e x zrow y d smpls : pliv_z_nuis L (with_ext su e) x zrow y d smpls = pliv_z_nuis L su x zrow y d smpls /\ pliv_xz_nuis L (with_ext su e) x zrow y d smpls = pliv_xz_nuis L su x zrow y d smpls.
Proof. split; reflexivity. Qed.
Lemma takers_ignored norm bo at_ nt tr thr x y z d smpls out e0 e1 : iivm_nuis L su norm bo at_ nt tr thr x y z d smpls = Ok out -> su_ext su "ml_r0" = Some e0 -> su_ext su "ml_r1" = Some e1 ->
  (at_ = false -> forall i, no_preds out "ml_r0" i = Some 0) /\ (nt = false -> forall i, no_preds out "ml_r1" i = Some 1).
Proof.
  intros H X0 X1. unfold iivm_nuis in H. inv1 H. inv1 H. inv1 H. inv1 H. inv1 H. inv1 H. subst out. split; intros ->; [clear E4|clear E3]; rewrite ?X0, ?X1 in *; cbn [bind] in *.
  - injection E3 as <-. reflexivity.
  - injection E4 as <-. reflexivity.
Qed.
End Targets.

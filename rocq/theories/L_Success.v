(** Nuisance estimation succeeds when its learners can be trained. *)
From Verif Require Export L_Checks.
From Coq Require Import Lia Lra.
Local Open Scope R_scope.
Local Open Scope res_scope.
Local Open Scope string_scope.

Section Success.
Context {E P : Type}.
Variable L : learner E row P.
Variables (f : E -> row -> R) (g : E -> row -> list R).
Variable su : setup E P.
Notation n := (su_n su).

Lemma some_fold smpls : (0 < n)%nat -> partition_of n smpls -> smpls <> [].
Proof. intros Hn Hp ->. unfold partition_of in Hp. cbn in Hp. apply Permutation_nil in Hp. destruct n; [lia|discriminate]. Qed.
Lemma param_exists (ps : params P) K k : (k < K)%nat -> (forall l, ps = FoldDicts l -> length l = K) -> exists p, param_of ps k p.
Proof.
  intros Hk H. destruct ps as [|q|l]; cbn; [eauto|eauto|]. specialize (H l eq_refl). destruct (nth_error l k) as [q|] eqn:Q; [eauto|]. apply nth_error_None in Q. lia.
Qed.
Lemma two_labels y i j : (i < n)%nat -> (j < n)%nat -> y i <> y j -> (2 <= length (labels n y))%nat.
Proof.
  intros Hi Hj Hne. pose proof (labels_spec n y) as (Hs & Hl). assert (A : In (y i) (labels n y)) by (apply Hl; eauto). assert (B : In (y j) (labels n y)) by (apply Hl; eauto).
  destruct (labels n y) as [|a [|b l]]; cbn in *; [contradiction| |lia]. destruct A as [A|[]], B as [B|[]]. congruence.
Qed.
Lemma fit_total name lrn x y smpls : (0 < n)%nat -> setting L f g su smpls -> trainable L g su name lrn y everyone smpls -> exists h, fit_nuis L su name lrn x y smpls = Ok h.
Proof.
  intros Hn S [T1 T2 T3 T4 T5]. pose proof S as [S1 S2 S3 S4 S5]. assert (Hs : smpls <> []) by (apply some_fold; assumption).
  assert (HK : (0 < length smpls)%nat) by (destruct smpls; [congruence|cbn; lia]).
  set (pb := su_proba su lrn) in *.
  assert (Hf : forall k, (k < length smpls)%nat -> exists m, fits L (su_learner su lrn) x smpls (su_params su name) (used n pb (YVec y)) k m).
  { intros k Hk. destruct (param_exists (su_params su name) (length smpls) k Hk T2) as (p & Hp). set (v := if pb then encode n y else y).
    set (h := nth k smpls ([], [])). assert (Hin : In h smpls) by (apply nth_In; exact Hk). destruct (T3 h Hin) as (j & J1 & _ & J2).
    assert (Hd : train_rows x v h <> []). { unfold train_rows. intro Z. apply map_eq_nil in Z. rewrite Z in J2. contradiction. }
    destruct (T1 k p _ Hk Hp Hd) as (m & Hm). exists m, p, (train_rows x v h). split; [exact Hp|]. split; [unfold v, h; destruct pb; reflexivity|exact Hm]. }
  assert (Hc : pb = true -> forall k m, (k < length smpls)%nat -> fits L (su_learner su lrn) x smpls (su_params su name) (used n true (YVec y)) k m ->
     ln_classes L m = seq 0 (length (labels n y)) /\ (forall xi, length (g m xi) = length (labels n y)) /\ (2 <= length (labels n y))%nat).
  { intros Hq k m Hk Hm. destruct (T4 Hq) as (C1 & C2). destruct (T5 Hq) as (i & j & I1 & I2 & I3).
    assert (Hlt : labels_in_train n y smpls). { intros h i' Hh Hi. destruct (C2 h i' Hh Hi) as (j' & _ & _ & Hj & Hy). eauto. }
    destruct (classes_full L g (su_learner su lrn) n x smpls (su_params su name) y k m C1 Hlt S4 Hk Hm) as [Q1 Q2].
    split; [exact Q1|]. split; [exact Q2|]. exact (two_labels y i j I1 I2 I3). }
  assert (H : exists r, cv_predict L (su_order su name) (su_learner su lrn) n x (YVec y) smpls (su_params su name) pb false (su_models su) = Ok r).
  { rewrite cv_cases by assumption. destruct (is_fast _ _ _ _) eqn:Ef.
    - apply (fast_def L f g S1 S2 (su_learner su lrn) n x smpls (su_params su name) S3 (su_order su name) y); [apply S5| |exact HK|exact Hf|].
      + unfold is_fast in Ef. destruct (is_list_params (su_params su name)); [cbn in Ef; discriminate|reflexivity].
      + intros Hq k m xi Hk Hm. rewrite Hq in Hm. destruct (Hc Hq k m Hk Hm) as (Q1 & Q2 & Q3). unfold eorow. rewrite Q1, seq_length, Nat.eqb_refl, Q2. exact Q3.
    - apply (manual_def L f g S1 (su_learner su lrn) n x smpls (su_params su name)); [apply S5|eauto|discriminate| |exact Hf|].
      + destruct (su_params su name) as [| |l] eqn:Q; [trivial|trivial|]. exact (T2 l eq_refl).
      + intros Hq k m xi Hk Hm. rewrite Hq in Hm. destruct (Hc Hq k m Hk Hm) as (_ & Q2 & Q3). rewrite Q2. exact Q3. }
  destruct H as (r & H). unfold fit_nuis. fold pb. rewrite H. eexists. reflexivity.
Qed.
Lemma known_finite smpls h : partition_of n smpls -> known su h -> finite_on smpls h = true.
Proof.
  intros Hp Hk. unfold finite_on. apply forallb_forall. intros i Hi. assert (Q : In i (seq 0 n)) by (eapply Permutation_in; [exact Hp|exact Hi]). apply in_seq in Q. rewrite (Hk i) by lia. reflexivity.
Qed.
Lemma trainable_sub name lrn y c (G : nat -> Prop) smpls : (forall i, c i = true <-> G i) -> trainable L g su name lrn y G smpls -> trainable L g su name lrn y everyone (sub su c smpls).
Proof.
  intros HG [T1 T2 T3 T4 T5]. assert (Hl : length (sub su c smpls) = length smpls) by (unfold sub, cond_smpls; apply map_length). constructor.
  - rewrite Hl. exact T1.
  - rewrite Hl. exact T2.
  - intros h Hh. unfold sub, cond_smpls in Hh. apply in_map_iff in Hh as (h0 & <- & Hh0). destruct (T3 h0 Hh0) as (j & J1 & J2 & J3). exists j. split; [exact J1|]. split; [exact Logic.I|]. cbn. apply intersect_in. rewrite HG. auto.
  - eapply labels_sub; eassumption.
  - exact T5.
Qed.
Lemma sub_total name lrn x y c (G : nat -> Prop) smpls : (forall i, c i = true <-> G i) -> (0 < n)%nat -> setting L f g su smpls -> trainable L g su name lrn y G smpls ->
  exists h, fit_nuis L su name lrn x y (sub su c smpls) = Ok h /\ known su h /\ finite_on smpls h = true.
Proof.
  intros HG Hn S T. destruct (fit_total name lrn x y (sub su c smpls) Hn (setting_sub L f g su smpls c S)) as (h & Eh); [eapply trainable_sub; eassumption|].
  exists h. split; [exact Eh|]. assert (K : known su h). { apply (fit_sub L f g su name lrn x y c G smpls h HG S (tr_labels _ _ _ _ _ _ _ _ T)) in Eh. tauto. }
  split; [exact K|]. apply known_finite; [apply S|exact K].
Qed.
Lemma all_total name lrn x y smpls : (0 < n)%nat -> setting L f g su smpls -> trainable L g su name lrn y everyone smpls ->
  exists h, fit_nuis L su name lrn x y smpls = Ok h /\ known su h /\ finite_on smpls h = true.
Proof.
  intros Hn S T. destruct (fit_total name lrn x y smpls Hn S T) as (h & Eh). exists h. split; [exact Eh|].
  assert (K : known su h). { apply (fit_all L f g su name lrn x y smpls h S) in Eh; [tauto|]. exact (tr_labels _ _ _ _ _ _ _ _ T). }
  split; [exact K|]. apply known_finite; [apply S|exact K].
Qed.
(** Checked forms, external or fitted. *)
Lemma get_all name lrn x y smpls : (0 < n)%nat -> setting L f g su smpls -> obtainable L g su name lrn y everyone smpls ->
  exists h, or_ext su name (fit_checked L su name lrn x y smpls smpls) = Ok h /\ known su h.
Proof.
  intros Hn S T. unfold or_ext. destruct (su_ext su name) as [v|] eqn:Ex; [eexists; split; [reflexivity|apply known_ext]|].
  destruct (all_total name lrn x y smpls Hn S (T Ex)) as (h & Eh & K & F). unfold fit_checked. rewrite Eh. cbn [bind]. rewrite F. exists h. split; [reflexivity|exact K].
Qed.
Lemma get_sub name lrn x y c (G : nat -> Prop) smpls : (forall i, c i = true <-> G i) -> (0 < n)%nat -> setting L f g su smpls -> trainable L g su name lrn y G smpls ->
  exists h, fit_checked L su name lrn x y (sub su c smpls) smpls = Ok h /\ known su h.
Proof.
  intros HG Hn S T. destruct (sub_total name lrn x y c G smpls HG Hn S T) as (h & Eh & K & F). unfold fit_checked. rewrite Eh. cbn [bind]. rewrite F. exists h. split; [reflexivity|exact K].
Qed.
(** Predictions that are not labels pass the check. *)
Lemma soft_fit name lrn x y sel smpls h : (0 < n)%nat -> never_labels f g su name lrn -> su_ext su name = None -> cross_fitted L f g su name lrn x y sel smpls (hv h) -> known su h -> binary_preds n h = false.
Proof.
  intros Hn Hv Ex (c & _ & C) K. destruct (binary_preds n h) eqn:B; [exfalso|reflexivity]. apply (proj1 (binary_preds_iff n h)) with (i := 0%nat) in B; [|exact Hn].
  destruct (C 0%nat Hn) as (k & h0 & rows & p & m & _ & _ & _ & _ & V). unfold never_labels in Hv. rewrite Ex in Hv. specialize (Hv m (x 0%nat)). pose proof (K 0%nat Hn) as Q.
  destruct (su_proba su lrn); [destruct (Hv _ V)|rewrite <- V in Hv; destruct Hv]; destruct B as [B|B]; rewrite B in Q; injection Q as Q; congruence.
Qed.
Lemma soft_ext name lrn v : never_labels f g su name lrn -> su_ext su name = Some v -> binary_preds n (ext_hat v) = false.
Proof. intros Hv Ex. unfold never_labels in Hv. rewrite Ex in Hv. destruct (binary_preds n (ext_hat v)) eqn:B; [|reflexivity]. exfalso. apply Hv, ext_binary. exact B. Qed.

(** Outcome functions in a subgroup, with the check for labels. *)
Lemma g_total name lrn x y c (G : nat -> Prop) smpls : (forall i, c i = true <-> G i) -> (0 < n)%nat -> setting L f g su smpls -> obtainable L g su name lrn y G smpls ->
  exists h, or_ext su name (let! h := fit_checked L su name lrn x y (sub su c smpls) smpls in Ok (mask c h)) = Ok h /\ known su h /\
    (never_labels f g su name lrn -> binary_preds n h = false).
Proof.
  intros HG Hn S T. unfold or_ext. destruct (su_ext su name) as [v|] eqn:Ex.
  - eexists. split; [reflexivity|]. split; [apply known_ext|]. intro Hv. eapply soft_ext; eassumption.
  - destruct (get_sub name lrn x y c G smpls HG Hn S (T Ex)) as (h & Eh & K). rewrite Eh. cbn [bind]. exists (mask c h). split; [reflexivity|]. split; [exact K|]. intro Hv.
    apply checked_inv in Eh. apply (fit_sub L f g su name lrn x y c G smpls h HG S (tr_labels _ _ _ _ _ _ _ _ (T Ex))) in Eh as (C & _).
    change (binary_preds n (mask c h)) with (binary_preds n h). eapply soft_fit; eassumption.
Qed.
Lemma m_total name lrn x y smpls : (0 < n)%nat -> setting L f g su smpls -> obtainable L g su name lrn y everyone smpls ->
  exists h, or_ext su name (fit_checked L su name lrn x y smpls smpls) = Ok h /\ known su h /\ (never_labels f g su name lrn -> binary_preds n h = false).
Proof.
  intros Hn S T. destruct (get_all name lrn x y smpls Hn S T) as (h & Eh & K). exists h. split; [exact Eh|]. split; [exact K|]. intro Hv.
  unfold or_ext in Eh. destruct (su_ext su name) as [v|] eqn:Ex; [injection Eh as <-; eapply soft_ext; eassumption|].
  apply checked_inv in Eh. apply (fit_all L f g su name lrn x y smpls h S) in Eh as (C & _); [|exact (tr_labels _ _ _ _ _ _ _ _ (T Ex))]. eapply soft_fit; eassumption.
Qed.
Lemma check_passes (bin : bool) h name lrn : (bin = true -> never_labels f g su name lrn) -> (never_labels f g su name lrn -> binary_preds n h = false) -> bin && binary_preds n h = false.
Proof. intros A B. destruct bin; [apply B, A; reflexivity|reflexivity]. Qed.

Lemma plr_success (iv bin : bool) x y d smpls : (0 < n)%nat -> setting L f g su smpls ->
  (iv = false \/ su_ext su "ml_g" = None -> obtainable L g su "ml_l" "ml_l" y everyone smpls) -> obtainable L g su "ml_m" "ml_m" d everyone smpls ->
  (iv = true -> forall t, obtainable L g su "ml_g" "ml_g" t everyone smpls) ->
  (bin = true -> never_labels f g su "ml_m" "ml_m") -> exists out, plr_nuis L su iv bin x y d smpls = Ok out.
Proof.
  intros Hn S Tl Tm Tg Hb. unfold plr_nuis.
  assert (A : exists l, or_ext su "ml_l" (if iv && match su_ext su "ml_g" with Some _ => true | None => false end then Ok no_hat else fit_checked L su "ml_l" "ml_l" x y smpls smpls) = Ok l).
  { destruct (iv && _) eqn:Q; [unfold or_ext; destruct (su_ext su "ml_l"); eexists; reflexivity|].
    destruct (get_all "ml_l" "ml_l" x y smpls Hn S) as (h & Eh & _); [apply Tl; destruct iv; [right; destruct (su_ext su "ml_g"); [discriminate|reflexivity]|left; reflexivity]|]. eauto. }
  destruct A as (l & ->). destruct (m_total "ml_m" "ml_m" x d smpls Hn S Tm) as (m & -> & Km & Bm). cbn [bind]. rewrite (check_passes bin m _ _ Hb Bm). cbn [negb require].
  destruct iv; [|eexists; reflexivity]. cbv zeta. match goal with |- context [or_ext su "ml_g" (fit_checked _ _ _ _ _ ?t _ _)] => destruct (get_all "ml_g" "ml_g" x t smpls Hn S (Tg eq_refl t)) as (h & -> & _) end.
  eexists. reflexivity.
Qed.
Lemma irm_success atte norm (bin : bool) tr thr w x y d smpls : (0 < n)%nat -> setting L f g su smpls ->
  obtainable L g su "ml_g0" "ml_g" y (fun i => d i = 0) smpls -> obtainable L g su "ml_g1" "ml_g" y (fun i => d i = 1) smpls -> obtainable L g su "ml_m" "ml_m" d everyone smpls ->
  (bin = true -> su_ext su "ml_g0" = None -> never_labels f g su "ml_g0" "ml_g") -> (bin = true -> atte = false -> never_labels f g su "ml_g1" "ml_g") ->
  exists out, irm_nuis L su atte norm bin tr thr w x y d smpls = Ok out.
Proof.
  intros Hn S T0 T1 Tm H0 H1. unfold irm_nuis.
  assert (A : exists h, or_ext su "ml_g0" (let! h := fit_checked L su "ml_g0" "ml_g" x y (sub su (is01 d 0) smpls) smpls in require (negb (bin && binary_preds n h)) ValueError (Ok (mask (is01 d 0) h))) = Ok h).
  { unfold or_ext. destruct (su_ext su "ml_g0") as [v|] eqn:Ex; [eexists; reflexivity|].
    destruct (g_total "ml_g0" "ml_g" x y (is01 d 0) _ smpls (is01_iff d 0) Hn S T0) as (h & Eh & K & B). unfold or_ext in Eh. rewrite Ex in Eh.
    destruct (fit_checked L su "ml_g0" "ml_g" x y (sub su (is01 d 0) smpls) smpls) as [h'|]; [|discriminate]. cbn [bind] in *. injection Eh as <-.
    change (binary_preds n (mask (is01 d 0) h')) with (binary_preds n h') in B. rewrite (check_passes bin h' "ml_g0" "ml_g" (fun Z => H0 Z eq_refl) B). eexists. reflexivity. }
  destruct A as (g0 & ->). cbn [bind]. destruct (g_total "ml_g1" "ml_g" x y (is01 d 1) _ smpls (is01_iff d 1) Hn S T1) as (g1 & -> & K1 & B1). cbn [bind].
  assert (Q : bin && negb atte && binary_preds n g1 = false). { destruct bin, atte; cbn; try reflexivity. apply B1, H1; reflexivity. }
  rewrite Q. cbn [negb require]. destruct (get_all "ml_m" "ml_m" x d smpls Hn S Tm) as (m & -> & _). eexists. reflexivity.
Qed.
Lemma apo_ext_total name c y k : (su_ext su name = None -> exists h : hat, k = Ok h) -> exists h, apo_ext su name c y k = Ok h.
Proof. intro H. unfold apo_ext. destruct (su_ext su name); [eexists; reflexivity|]. destruct (H eq_refl) as (h & ->). eauto. Qed.
Lemma apo_g name lrn x y c (G : nat -> Prop) smpls (bin : bool) : (forall i, c i = true <-> G i) -> (0 < n)%nat -> setting L f g su smpls -> obtainable L g su name lrn y G smpls -> (bin = true -> never_labels f g su name lrn) ->
  exists h, apo_ext su name c y (let! h := fit_checked L su name lrn x y (sub su c smpls) smpls in Ok (mask c h)) = Ok h /\ bin && binary_preds n h = false.
Proof.
  intros HG Hn S T Hb. destruct (g_total name lrn x y c G smpls HG Hn S T) as (h & Eh & K & B). unfold apo_ext, or_ext in *. destruct (su_ext su name) as [v|] eqn:Ex.
  - injection Eh as <-. eexists. split; [reflexivity|]. apply (check_passes bin (ext_hat v) name lrn Hb B).
  - exists h. split; [exact Eh|]. apply (check_passes bin h name lrn Hb B).
Qed.
Lemma apo_success norm (bin : bool) tr thr w x y d t smpls : (0 < n)%nat -> setting L f g su smpls ->
  obtainable L g su "ml_g_d_lvl0" "ml_g" y (fun i => t i = 0) smpls -> obtainable L g su "ml_g_d_lvl1" "ml_g" y (fun i => t i = 1) smpls -> obtainable L g su "ml_m" "ml_m" t everyone smpls ->
  (bin = true -> never_labels f g su "ml_g_d_lvl0" "ml_g" /\ never_labels f g su "ml_g_d_lvl1" "ml_g") ->
  exists out, apo_nuis L su norm bin tr thr w x y d t smpls = Ok out.
Proof.
  intros Hn S T0 T1 Tm Hb. unfold apo_nuis. cbv zeta.
  destruct (apo_g "ml_g_d_lvl1" "ml_g" x y (is01 t 1) _ smpls bin (is01_iff t 1) Hn S T1) as (g1 & -> & B1); [tauto|]. cbn [bind]. rewrite B1. cbn [negb require].
  destruct (apo_g "ml_g_d_lvl0" "ml_g" (fun i => d i :: x i) y (is01 t 0) _ smpls bin (is01_iff t 0) Hn S T0) as (g0 & -> & B0); [tauto|]. cbn [bind]. rewrite B0. cbn [negb require].
  destruct (get_all "ml_m" "ml_m" x t smpls Hn S Tm) as (m & Em & _). destruct (apo_ext_total "ml_m" (fun _ => true) t (fit_checked L su "ml_m" "ml_m" x t smpls smpls)) as (m' & ->).
  { intro Ex. unfold or_ext in Em. rewrite Ex in Em. eauto. }
  eexists. reflexivity.
Qed.
Lemma iivm_success norm (bin at_ nt tr : bool) thr x y z d smpls : (0 < n)%nat -> setting L f g su smpls ->
  obtainable L g su "ml_g0" "ml_g" y (fun i => z i = 0) smpls -> obtainable L g su "ml_g1" "ml_g" y (fun i => z i = 1) smpls -> obtainable L g su "ml_m" "ml_m" z everyone smpls ->
  (at_ = true -> obtainable L g su "ml_r0" "ml_r" d (fun i => z i = 0) smpls) -> (nt = true -> obtainable L g su "ml_r1" "ml_r" d (fun i => z i = 1) smpls) ->
  (bin = true -> never_labels f g su "ml_g0" "ml_g" /\ never_labels f g su "ml_g1" "ml_g") ->
  exists out, iivm_nuis L su norm bin at_ nt tr thr x y z d smpls = Ok out.
Proof.
  intros Hn S T0 T1 Tm R0 R1 Hb. unfold iivm_nuis. cbv zeta.
  destruct (g_total "ml_g0" "ml_g" x y (is01 z 0) _ smpls (is01_iff z 0) Hn S T0) as (g0 & -> & K0 & B0). cbn [bind]. rewrite (check_passes bin g0 "ml_g0" "ml_g") by tauto. cbn [negb require bind].
  destruct (g_total "ml_g1" "ml_g" x y (is01 z 1) _ smpls (is01_iff z 1) Hn S T1) as (g1 & -> & K1 & B1). cbn [bind]. rewrite (check_passes bin g1 "ml_g1" "ml_g") by tauto. cbn [negb require bind].
  destruct (get_all "ml_m" "ml_m" x z smpls Hn S Tm) as (m & -> & _). cbn [bind].
  assert (A : forall name b (have : bool) dflt, (have = true -> obtainable L g su name "ml_r" d (fun i => z i = b) smpls) ->
     exists h, (let! h := if have then or_ext su name (fit_nuis L su name "ml_r" x d (sub su (is01 z b) smpls)) else Ok (const_hat dflt) in
       if match su_ext su name with Some _ => true | None => false end then Ok h else require (finite_on smpls h) ValueError (Ok (mask (is01 z b) h))) = Ok h).
  { intros name b have dflt T. destruct have.
    - unfold or_ext. destruct (su_ext su name) as [v|] eqn:Ex; [eexists; reflexivity|]. destruct (sub_total name "ml_r" x d (is01 z b) _ smpls (is01_iff z b) Hn S (T eq_refl Ex)) as (h & -> & _ & F). cbn [bind]. rewrite F. eexists. reflexivity.
    - cbn [bind]. destruct (su_ext su name); [eexists; reflexivity|]. assert (F : finite_on smpls (const_hat dflt) = true) by (apply forallb_forall; reflexivity). rewrite F. eexists. reflexivity. }
  destruct (A "ml_r0" 0 at_ 0 R0) as (r0 & ->). cbn [bind]. destruct (A "ml_r1" 1 nt 1 R1) as (r1 & ->). eexists. reflexivity.
Qed.
Lemma did_success (obs norm tr : bool) thr x y d smpls : (0 < n)%nat -> setting L f g su smpls ->
  obtainable L g su "ml_g0" "ml_g" y (fun i => d i = 0) smpls -> obtainable L g su "ml_g1" "ml_g" y (fun i => d i = 1) smpls -> (obs = true -> obtainable L g su "ml_m" "ml_m" d everyone smpls) ->
  exists out, did_nuis L su obs norm tr thr x y d smpls = Ok out.
Proof.
  intros Hn S T0 T1 Tm. unfold did_nuis. cbv zeta. destruct (g_total "ml_g0" "ml_g" x y (is01 d 0) _ smpls (is01_iff d 0) Hn S T0) as (g0 & -> & _). destruct (g_total "ml_g1" "ml_g" x y (is01 d 1) _ smpls (is01_iff d 1) Hn S T1) as (g1 & -> & _). cbn [bind].
  destruct obs; [|eexists; reflexivity].
  assert (A : exists h, or_ext su "ml_m" (fit_nuis L su "ml_m" "ml_m" x d smpls) = Ok h /\ finite_on smpls h = true).
  { unfold or_ext. destruct (su_ext su "ml_m") as [v|] eqn:Ex; [eexists; split; [reflexivity|apply known_finite; [apply S|apply known_ext]]|]. destruct (all_total "ml_m" "ml_m" x d smpls Hn S (Tm eq_refl Ex)) as (h & Eh & _ & F). eauto. }
  destruct A as (m & -> & F). cbn [bind]. rewrite F. eexists. reflexivity.
Qed.
Lemma cs_success (obs norm tr : bool) thr x y d t smpls : (0 < n)%nat -> setting L f g su smpls ->
  (forall a b name, In (name, (a, b)) [("ml_g_d0_t0", (0, 0)); ("ml_g_d0_t1", (0, 1)); ("ml_g_d1_t0", (1, 0)); ("ml_g_d1_t1", (1, 1))] -> obtainable L g su name "ml_g" y (fun i => d i = a /\ t i = b) smpls) ->
  (obs = true -> obtainable L g su "ml_m" "ml_m" d everyone smpls) ->
  exists out, cs_nuis L su obs norm tr thr x y d t smpls = Ok out.
Proof.
  intros Hn S T Tm. unfold cs_nuis. cbv zeta.
  assert (A : forall a b name, obtainable L g su name "ml_g" y (fun i => d i = a /\ t i = b) smpls -> exists h, or_ext su name (let! h := fit_nuis L su name "ml_g" x y (sub su (is01_2 d t a b) smpls) in Ok (mask (is01_2 d t a b) h)) = Ok h).
  { intros a b name Tg. unfold or_ext. destruct (su_ext su name) as [v|] eqn:Ex; [eexists; reflexivity|]. destruct (sub_total name "ml_g" x y (is01_2 d t a b) _ smpls (is01_2_iff d t a b) Hn S (Tg Ex)) as (h & -> & _). eexists. reflexivity. }
  destruct (A 0 0 "ml_g_d0_t0") as (h00 & ->); [apply T; cbn; tauto|]. destruct (A 0 1 "ml_g_d0_t1") as (h01 & ->); [apply T; cbn; tauto|].
  destruct (A 1 0 "ml_g_d1_t0") as (h10 & ->); [apply T; cbn; tauto|]. destruct (A 1 1 "ml_g_d1_t1") as (h11 & ->); [apply T; cbn; tauto|]. cbn [bind].
  destruct obs; [|eexists; reflexivity]. destruct (get_all "ml_m" "ml_m" x d smpls Hn S (Tm eq_refl)) as (m & -> & _). eexists. reflexivity.
Qed.
Lemma pliv_success (iv : bool) x y d z smpls : (0 < n)%nat -> setting L f g su smpls ->
  obtainable L g su "ml_l" "ml_l" y everyone smpls -> obtainable L g su "ml_m" "ml_m" z everyone smpls -> obtainable L g su "ml_r" "ml_r" d everyone smpls ->
  (iv = true -> forall t, obtainable L g su "ml_g" "ml_g" t everyone smpls) -> exists out, pliv_x_nuis L su iv x y d z smpls = Ok out.
Proof.
  intros Hn S Tl Tm Tr Tg. unfold pliv_x_nuis. destruct (get_all "ml_l" "ml_l" x y smpls Hn S Tl) as (l & -> & _). destruct (get_all "ml_m" "ml_m" x z smpls Hn S Tm) as (m & -> & _). destruct (get_all "ml_r" "ml_r" x d smpls Hn S Tr) as (r & -> & _).
  cbn [bind]. destruct iv; [|eexists; reflexivity]. cbv zeta. match goal with |- context [or_ext su "ml_g" (fit_checked _ _ _ _ _ ?t _ _)] => destruct (get_all "ml_g" "ml_g" x t smpls Hn S (Tg eq_refl t)) as (h & -> & _) end. eexists. reflexivity.
Qed.
Lemma pliv_several_success proj x y d zs smpls : (0 < n)%nat -> setting L f g su smpls ->
  obtainable L g su "ml_l" "ml_l" y everyone smpls -> (forall name z, In (name, z) zs -> obtainable L g su ("ml_m_" ++ name)%string "ml_m" z everyone smpls) -> obtainable L g su "ml_r" "ml_r" d everyone smpls ->
  exists out, pliv_xs_nuis L su proj x y d zs smpls = Ok out.
Proof.
  intros Hn S Tl Tm Tr. unfold pliv_xs_nuis. destruct (get_all "ml_l" "ml_l" x y smpls Hn S Tl) as (l & -> & _). cbn [bind].
  assert (A : exists ms, map_res (fun p : string * vec => let name := ("ml_m_" ++ fst p)%string in let! h := or_ext su name (fit_checked L su name "ml_m" x (snd p) smpls smpls) in Ok (name, h)) zs = Ok ms).
  { clear Tl Tr. induction zs as [|(name, z) zs IH]; [eexists; reflexivity|]. cbn [map_res fst snd]. cbv zeta. destruct (get_all ("ml_m_" ++ name)%string "ml_m" x z smpls Hn S (Tm name z (or_introl eq_refl))) as (h & -> & _). cbn [bind].
    destruct IH as (ms & Q); [intros; apply Tm; right; assumption|]. cbv zeta in Q. rewrite Q. eexists. reflexivity. }
  destruct A as (ms & Qm). cbv zeta in Qm. rewrite Qm. cbn [bind]. destruct (get_all "ml_r" "ml_r" x d smpls Hn S Tr) as (r & -> & _). eexists. reflexivity.
Qed.
Lemma pliv_z_success x zrow y d smpls : (0 < n)%nat -> setting L f g su smpls -> trainable L g su "ml_r" "ml_r" d everyone smpls -> exists out, pliv_z_nuis L su x zrow y d smpls = Ok out.
Proof.
  intros Hn S T. unfold pliv_z_nuis. cbv zeta. unfold fit_checked. match goal with |- context [fit_nuis L su "ml_r" "ml_r" ?v _ _] => destruct (all_total "ml_r" "ml_r" v d smpls Hn S T) as (h & -> & _ & F) end. cbn [bind]. rewrite F. eexists. reflexivity.
Qed.
Lemma ssm_success norm tr thr x y d s smpls : (0 < n)%nat -> setting L f g su smpls ->
  trainable L g su "ml_pi" "ml_pi" s everyone smpls -> trainable L g su "ml_m" "ml_m" d everyone smpls ->
  trainable L g su "ml_g_d1" "ml_g" y (fun i => d i = 1 /\ s i = 1) smpls -> trainable L g su "ml_g_d0" "ml_g" y (fun i => d i = 0 /\ s i = 1) smpls ->
  exists out, ssm_mar_nuis L su norm tr thr x y d s smpls = Ok out.
Proof.
  intros Hn S Tp Tm T1 T0. unfold ssm_mar_nuis. cbv zeta.
  assert (A : forall name lrn v t, trainable L g su name lrn t everyone smpls -> exists h, fit_checked L su name lrn v t smpls smpls = Ok h).
  { intros name lrn v t T. destruct (all_total name lrn v t smpls Hn S T) as (h & Eh & _ & F). exists h. unfold fit_checked. rewrite Eh. cbn [bind]. rewrite F. reflexivity. }
  destruct (A "ml_pi" "ml_pi" (fun i => (x i ++ [d i])%list) s Tp) as (p & ->). destruct (A "ml_m" "ml_m" x d Tm) as (m & ->).
  destruct (get_sub "ml_g_d1" "ml_g" x y (is01_2 d s 1 1) _ smpls (is01_2_iff d s 1 1) Hn S T1) as (g1 & -> & _). destruct (get_sub "ml_g_d0" "ml_g" x y (is01_2 d s 0 1) _ smpls (is01_2_iff d s 0 1) Hn S T0) as (g0 & -> & _).
  eexists. reflexivity.
Qed.
End Success.

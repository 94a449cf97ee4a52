(** The outcome and treatment of a row do not influence the nuisance predictions
    used for that row. *)
From Verif Require Export L_NuisNested.
From Coq Require Import Lia Lra.
Local Open Scope R_scope.
Local Open Scope res_scope.
Local Open Scope string_scope.

Lemma tested_fun smpls i k h k' h' : tested_in smpls i k h -> tested_in smpls i k' h' -> k = k' /\ h = h'.
Proof. intros (A1 & A2 & A3) (B1 & B2 & B3). assert (k' = k) by (apply (A3 k' h'); assumption). subst k'. split; [reflexivity|congruence]. Qed.
Lemma label_list_fun n y y' a b : same_labels n y y' -> label_list n y a -> label_list n y' b -> a = b.
Proof. intros H (A1 & A2) (B1 & B2). apply ssorted_Rlt_eq; try assumption. intro z. rewrite A2, B2. apply H. Qed.
Lemma codes_agree n y y' c c' j : same_labels n y y' -> codes n y c -> codes n y' c' -> (j < n)%nat -> y j = y' j -> c j = c' j.
Proof.
  intros H (a & A1 & A2) (b & B1 & B2) Hj Ey. assert (a = b) by (eapply label_list_fun; eassumption). subst b. destruct (A2 j Hj) as (p & P1 & ->), (B2 j Hj) as (q & Q1 & ->). f_equal.
  destruct A1 as (A1 & _). rewrite <- Ey in Q1. assert (Nd : NoDup a). { clear - A1. induction A1 as [|z l Hl IH Hf]; [constructor|]. constructor; [|exact IH]. rewrite Forall_forall in Hf. intro Hin. specialize (Hf z Hin). lra. }
  assert (Lp : (p < length a)%nat) by (apply nth_error_Some; congruence). apply (proj1 (NoDup_nth_error a) Nd p q Lp). congruence.
Qed.

Section Free.
Context {E P : Type}.
Variable L : learner E row P.
Variables (f : E -> row -> R) (g : E -> row -> list R).
Variable su : setup E P.
Notation n := (su_n su).

Lemma param_fun (ps : params P) k p p' : param_of ps k p -> param_of ps k p' -> p = p'.
Proof. destruct ps; cbn; [congruence|congruence|]. intros (q & Q1 & ->) (q' & Q2 & ->). congruence. Qed.
Lemma fitted_fun est p data m m' : fitted L est p data m -> fitted L est p data m' -> m = m'.
Proof. destruct p; cbn; [|congruence]. intros (e & E1 & E2) (e' & E1' & E2'). congruence. Qed.

(** Data that agree on all other rows. *)
Lemma group_same G G' i rows rows' train : ~ In i train -> (forall j, (j < n)%nat -> j <> i -> (G j <-> G' j)) -> group_rows n G train rows -> group_rows n G' train rows' -> rows = rows'.
Proof.
  intros Hi H (S1 & A) (S2 & B). apply sorted_lt_eq; try assumption. intro z. rewrite A, B. split; intros (Z1 & Z2 & Z3); (split; [exact Z1|split; [|exact Z3]]); assert (z <> i) by (intros ->; contradiction); apply (H z Z1 H0); exact Z2.
Qed.
Lemma whole_same i rows rows' (train : list nat) : ~ In i train -> whole_train train rows -> whole_train train rows' -> rows = rows'.
Proof. unfold whole_train. congruence. Qed.

Definition same_sel i (sel sel' : rows_sel) : Prop := forall train rows rows', ~ In i train -> sel train rows -> sel' train rows' -> rows = rows' /\ forall j, In j rows -> In j train.
Lemma same_whole i : same_sel i whole_train whole_train.
Proof. intros train rows rows' _ -> ->. split; [reflexivity|auto]. Qed.
Lemma same_group i G G' : (forall j, (j < n)%nat -> j <> i -> (G j <-> G' j)) -> same_sel i (group_rows n G) (group_rows n G').
Proof. intros H train rows rows' Hi A B. split; [eapply group_same; eassumption|]. intros j Hj. apply A in Hj. tauto. Qed.

Lemma crossfit_free name lrn x y y' sel sel' smpls v v' i : train_in_range n smpls -> avoids smpls -> (i < n)%nat -> same_sel i sel sel' -> agree_off su i y y' ->
  (su_proba su lrn = true -> same_labels n y y') ->
  cross_fitted L f g su name lrn x y sel smpls v -> cross_fitted L f g su name lrn x y' sel' smpls v' -> v i = v' i.
Proof.
  intros Hr Ha Hi Hs Hy Hl (c & C1 & C2) (c' & C1' & C2'). destruct (C2 i Hi) as (k & h & rows & p & m & T & S1 & P1 & F1 & V1), (C2' i Hi) as (k' & h' & rows' & p' & m' & T' & S1' & P1' & F1' & V1').
  destruct (tested_fun _ _ _ _ _ _ T T') as (<- & <-). assert (p' = p) by (eapply param_fun; eassumption). subst p'. pose proof T as (T1 & T2 & _).
  assert (Hni : ~ In i (fst h)) by (intro Hin; apply (Ha h i (nth_error_In _ _ T1) Hin T2)). destruct (Hs _ _ _ Hni S1 S1') as (<- & Hsub).
  assert (D : map (fun j => (x j, c j)) rows = map (fun j => (x j, c' j)) rows).
  { apply map_ext_in. intros j Hj. f_equal. specialize (Hsub j Hj). assert (Hj' : (j < n)%nat) by (apply (Hr h j (nth_error_In _ _ T1) Hsub)). assert (Hne : j <> i) by (intros ->; contradiction). specialize (Hy j Hj' Hne).
    destruct (su_proba su lrn); [|subst c c'; exact Hy]. apply (codes_agree n y y'); auto. }
  rewrite <- D in F1'. assert (m' = m) by (eapply fitted_fun; eassumption). subst m'. destruct (su_proba su lrn); congruence.
Qed.
Lemma nuisance_free name lrn x y y' sel sel' smpls v v' i : train_in_range n smpls -> avoids smpls -> (i < n)%nat -> same_sel i sel sel' -> agree_off su i y y' ->
  (su_proba su lrn = true -> same_labels n y y') ->
  nuisance L f g su name lrn x y sel smpls v -> nuisance L f g su name lrn x y' sel' smpls v' -> v i = v' i.
Proof.
  intros Hr Ha Hi Hs Hy Hl H H'. unfold nuisance in *. destruct (su_ext su name); [rewrite H, H'; reflexivity|]. eapply crossfit_free; eassumption.
Qed.
Lemma reported_same out out' name v v' i : (i < n)%nat -> reported su out name v -> reported su out' name v' -> v i = v' i -> no_preds out name i = no_preds out' name i.
Proof. intros Hi A B Ev. rewrite (A i Hi), (B i Hi), Ev. reflexivity. Qed.
Lemma trimmed_same tr thr m0 m m0' m' i : (i < n)%nat -> trimmed su tr thr m0 m -> trimmed su tr thr m0' m' -> m0 i = m0' i -> m i = m' i.
Proof. intros Hi A B Ev. rewrite (A i Hi), (B i Hi), Ev. reflexivity. Qed.
Lemma sel_is (b : R) i d d' : agree_off su i d d' -> same_sel i (group_rows n (fun j => d j = b)) (group_rows n (fun j => d' j = b)).
Proof. intro H. apply same_group. intros j Hj Hne. rewrite (H j Hj Hne). reflexivity. Qed.
Lemma sel_is2 (a b : R) i d d' t t' : agree_off su i d d' -> agree_off su i t t' -> same_sel i (group_rows n (fun j => d j = a /\ t j = b)) (group_rows n (fun j => d' j = a /\ t' j = b)).
Proof. intros H H'. apply same_group. intros j Hj Hne. rewrite (H j Hj Hne), (H' j Hj Hne). reflexivity. Qed.

Ltac free N N' T := eapply reported_same; [assumption|eassumption|eassumption|]; eapply nuisance_free; [exact (st_range _ _ _ _ _ T)|eassumption|eassumption| | |  |exact N|exact N'].

Lemma plr_free bt x y d y' d' smpls out out' i : setting L f g su smpls -> avoids smpls -> (i < n)%nat -> agree_off su i y y' -> agree_off su i d d' ->
  free_fit L g su "ml_l" "ml_l" y y' everyone everyone smpls -> free_fit L g su "ml_m" "ml_m" d d' everyone everyone smpls ->
  plr_nuis L su false bt x y d smpls = Ok out -> plr_nuis L su false bt x y' d' smpls = Ok out' ->
  forall l, In l ["ml_l"; "ml_m"] -> no_preds out l i = no_preds out' l i.
Proof.
  intros S Ha Hi Hy Hd (A1 & A2 & A3) (B1 & B2 & B3) H H'. apply (plr_partialling_out L f g) in H as (l & m & N1 & N2 & R1 & R2 & _); [|assumption..]. apply (plr_partialling_out L f g) in H' as (l' & m' & N1' & N2' & R1' & R2' & _); [|assumption..].
  intros s [<-|[<-|[]]].
  - free N1 N1' S; [apply same_whole|exact Hy|exact A3].
  - free N2 N2' S; [apply same_whole|exact Hd|exact B3].
Qed.
Lemma irm_free atte norm bo tr thr w x y d y' d' smpls out out' i : setting L f g su smpls -> avoids smpls -> (i < n)%nat -> agree_off su i y y' -> agree_off su i d d' ->
  free_fit L g su "ml_g0" "ml_g" y y' (fun j => d j = 0) (fun j => d' j = 0) smpls -> free_fit L g su "ml_g1" "ml_g" y y' (fun j => d j = 1) (fun j => d' j = 1) smpls -> free_fit L g su "ml_m" "ml_m" d d' everyone everyone smpls ->
  irm_nuis L su atte norm bo tr thr w x y d smpls = Ok out -> irm_nuis L su atte norm bo tr thr w x y' d' smpls = Ok out' ->
  forall l, In l ["ml_g0"; "ml_g1"; "ml_m"] -> no_preds out l i = no_preds out' l i.
Proof.
  intros S Ha Hi Hy Hd (A1 & A2 & A3) (B1 & B2 & B3) (C1 & C2 & C3) H H'.
  apply (irm_spec L f g) in H as (g0 & g1 & m0 & m & N0 & N1 & N2 & T & R0 & R1 & R2 & _); [|assumption..]. apply (irm_spec L f g) in H' as (g0' & g1' & m0' & m' & N0' & N1' & N2' & T' & R0' & R1' & R2' & _); [|assumption..].
  intros s [<-|[<-|[<-|[]]]].
  - free N0 N0' S; [apply sel_is, Hd|exact Hy|exact A3].
  - free N1 N1' S; [apply sel_is, Hd|exact Hy|exact B3].
  - eapply reported_same; [assumption|eassumption|eassumption|]. eapply trimmed_same; [assumption|exact T|exact T'|]. eapply nuisance_free; [exact (st_range _ _ _ _ _ S)|eassumption|assumption|apply same_whole|exact Hd|exact C3|exact N2|exact N2'].
Qed.
Lemma apo_free norm bo tr thr w x y d lvl y' lvl' smpls out out' i : setting L f g su smpls -> avoids smpls -> (i < n)%nat -> agree_off su i y y' -> agree_off su i lvl lvl' ->
  free_fit L g su "ml_g_d_lvl0" "ml_g" y y' (fun j => lvl j = 0) (fun j => lvl' j = 0) smpls -> free_fit L g su "ml_g_d_lvl1" "ml_g" y y' (fun j => lvl j = 1) (fun j => lvl' j = 1) smpls ->
  free_fit L g su "ml_m" "ml_m" lvl lvl' everyone everyone smpls ->
  apo_nuis L su norm bo tr thr w x y d lvl smpls = Ok out -> apo_nuis L su norm bo tr thr w x y' d lvl' smpls = Ok out' ->
  forall l, In l ["ml_g_d_lvl0"; "ml_g_d_lvl1"; "ml_m"] -> no_preds out l i = no_preds out' l i.
Proof.
  intros S Ha Hi Hy Hd (A1 & A2 & A3) (B1 & B2 & B3) (C1 & C2 & C3) H H'.
  apply (apo_spec L f g) in H as (g0 & g1 & m0 & m & N0 & N1 & N2 & T & R0 & R1 & R2 & _); [|assumption..]. apply (apo_spec L f g) in H' as (g0' & g1' & m0' & m' & N0' & N1' & N2' & T' & R0' & R1' & R2' & _); [|assumption..].
  intros s [<-|[<-|[<-|[]]]].
  - free N0 N0' S; [apply sel_is, Hd|exact Hy|exact A3].
  - free N1 N1' S; [apply sel_is, Hd|exact Hy|exact B3].
  - eapply reported_same; [assumption|eassumption|eassumption|]. eapply trimmed_same; [assumption|exact T|exact T'|]. eapply nuisance_free; [exact (st_range _ _ _ _ _ S)|eassumption|assumption|apply same_whole|exact Hd|exact C3|exact N2|exact N2'].
Qed.
Lemma iivm_free norm bo at_ nt tr thr x y z d y' z' d' smpls out out' i : setting L f g su smpls -> avoids smpls -> (i < n)%nat -> agree_off su i y y' -> agree_off su i z z' -> agree_off su i d d' ->
  free_fit L g su "ml_g0" "ml_g" y y' (fun j => z j = 0) (fun j => z' j = 0) smpls -> free_fit L g su "ml_g1" "ml_g" y y' (fun j => z j = 1) (fun j => z' j = 1) smpls -> free_fit L g su "ml_m" "ml_m" z z' everyone everyone smpls ->
  free_fit L g su "ml_r0" "ml_r" d d' (fun j => z j = 0) (fun j => z' j = 0) smpls -> free_fit L g su "ml_r1" "ml_r" d d' (fun j => z j = 1) (fun j => z' j = 1) smpls ->
  iivm_nuis L su norm bo at_ nt tr thr x y z d smpls = Ok out -> iivm_nuis L su norm bo at_ nt tr thr x y' z' d' smpls = Ok out' ->
  forall l, In l ["ml_g0"; "ml_g1"; "ml_m"; "ml_r0"; "ml_r1"] -> no_preds out l i = no_preds out' l i.
Proof.
  intros S Ha Hi Hy Hz Hd (A1 & A2 & A3) (B1 & B2 & B3) (C1 & C2 & C3) (D1 & D2 & D3) (F1 & F2 & F3) H H'.
  apply (iivm_spec L f g) in H as (g0 & g1 & m0 & m & r0 & r1 & N0 & N1 & N2 & T & N3 & N4 & R0 & R1 & R2 & R3 & R4 & _); [|auto..].
  apply (iivm_spec L f g) in H' as (g0' & g1' & m0' & m' & r0' & r1' & N0' & N1' & N2' & T' & N3' & N4' & R0' & R1' & R2' & R3' & R4' & _); [|auto..].
  intros s [<-|[<-|[<-|[<-|[<-|[]]]]]].
  - free N0 N0' S; [apply sel_is, Hz|exact Hy|exact A3].
  - free N1 N1' S; [apply sel_is, Hz|exact Hy|exact B3].
  - eapply reported_same; [assumption|eassumption|eassumption|]. eapply trimmed_same; [assumption|exact T|exact T'|]. eapply nuisance_free; [exact (st_range _ _ _ _ _ S)|eassumption|assumption|apply same_whole|exact Hz|exact C3|exact N2|exact N2'].
  - unfold taker_fn in N3, N3'. destruct at_; [free N3 N3' S; [apply sel_is, Hz|exact Hd|exact D3]|]. eapply reported_same; [assumption|eassumption|eassumption|]. rewrite N3, N3' by assumption. reflexivity.
  - unfold taker_fn in N4, N4'. destruct nt; [free N4 N4' S; [apply sel_is, Hz|exact Hd|exact F3]|]. eapply reported_same; [assumption|eassumption|eassumption|]. rewrite N4, N4' by assumption. reflexivity.
Qed.
Lemma did_free obs norm tr thr x y d y' d' smpls out out' i : setting L f g su smpls -> avoids smpls -> (i < n)%nat -> agree_off su i y y' -> agree_off su i d d' ->
  free_fit L g su "ml_g0" "ml_g" y y' (fun j => d j = 0) (fun j => d' j = 0) smpls -> free_fit L g su "ml_g1" "ml_g" y y' (fun j => d j = 1) (fun j => d' j = 1) smpls ->
  free_fit L g su "ml_m" "ml_m" d d' everyone everyone smpls -> did_nuis L su obs norm tr thr x y d smpls = Ok out -> did_nuis L su obs norm tr thr x y' d' smpls = Ok out' ->
  forall l, In l (if obs then ["ml_g0"; "ml_g1"; "ml_m"] else ["ml_g0"; "ml_g1"]) -> no_preds out l i = no_preds out' l i.
Proof.
  intros S Ha Hi Hy Hd (A1 & A2 & A3) (B1 & B2 & B3) (C1 & C2 & C3) H H'. destruct obs.
  - apply (did_obs L f g) in H as (g0 & g1 & m0 & m & p & N0 & N1 & N2 & T & _ & R0 & R1 & R2 & _); [|assumption..]. apply (did_obs L f g) in H' as (g0' & g1' & m0' & m' & p' & N0' & N1' & N2' & T' & _ & R0' & R1' & R2' & _); [|assumption..].
    intros s [<-|[<-|[<-|[]]]].
    + free N0 N0' S; [apply sel_is, Hd|exact Hy|exact A3].
    + free N1 N1' S; [apply sel_is, Hd|exact Hy|exact B3].
    + eapply reported_same; [assumption|eassumption|eassumption|]. eapply trimmed_same; [assumption|exact T|exact T'|]. eapply nuisance_free; [exact (st_range _ _ _ _ _ S)|eassumption|assumption|apply same_whole|exact Hd|exact C3|exact N2|exact N2'].
  - apply (did_exp L f g) in H as (g0 & g1 & p & N0 & N1 & _ & R0 & R1 & _); [|assumption..]. apply (did_exp L f g) in H' as (g0' & g1' & p' & N0' & N1' & _ & R0' & R1' & _); [|assumption..].
    intros s [<-|[<-|[]]].
    + free N0 N0' S; [apply sel_is, Hd|exact Hy|exact A3].
    + free N1 N1' S; [apply sel_is, Hd|exact Hy|exact B3].
Qed.
Lemma cs_free obs norm tr thr x y d t y' d' t' smpls out out' i : setting L f g su smpls -> avoids smpls -> (i < n)%nat -> agree_off su i y y' -> agree_off su i d d' -> agree_off su i t t' ->
  (forall a b name, In (name, a, b) [("ml_g_d0_t0", 0, 0); ("ml_g_d0_t1", 0, 1); ("ml_g_d1_t0", 1, 0); ("ml_g_d1_t1", 1, 1)] ->
    free_fit L g su name "ml_g" y y' (fun j => d j = a /\ t j = b) (fun j => d' j = a /\ t' j = b) smpls) ->
  free_fit L g su "ml_m" "ml_m" d d' everyone everyone smpls -> cs_nuis L su obs norm tr thr x y d t smpls = Ok out -> cs_nuis L su obs norm tr thr x y' d' t' smpls = Ok out' ->
  forall l, In l (if obs then ["ml_g_d0_t0"; "ml_g_d0_t1"; "ml_g_d1_t0"; "ml_g_d1_t1"; "ml_m"] else ["ml_g_d0_t0"; "ml_g_d0_t1"; "ml_g_d1_t0"; "ml_g_d1_t1"]) -> no_preds out l i = no_preds out' l i.
Proof.
  intros S Ha Hi Hy Hd Ht A (C1 & C2 & C3) H H'.
  assert (Key : forall l gg gg' a b, In (l, a, b) [("ml_g_d0_t0", 0, 0); ("ml_g_d0_t1", 0, 1); ("ml_g_d1_t0", 1, 0); ("ml_g_d1_t1", 1, 1)] ->
     nuisance L f g su l "ml_g" x y (group_rows n (fun j => d j = a /\ t j = b)) smpls gg /\ reported su out l gg -> nuisance L f g su l "ml_g" x y' (group_rows n (fun j => d' j = a /\ t' j = b)) smpls gg' /\ reported su out' l gg' -> no_preds out l i = no_preds out' l i).
  { intros l gg gg' a b Hin (N & Rr) (N' & Rr'). destruct (A a b l Hin) as (_ & _ & A3). free N N' S; [apply sel_is2; assumption|exact Hy|exact A3]. }
  assert (A1 : forall a b name, In (name, a, b) [("ml_g_d0_t0", 0, 0); ("ml_g_d0_t1", 0, 1); ("ml_g_d1_t0", 1, 0); ("ml_g_d1_t1", 1, 1)] -> fit_ok L g su name "ml_g" y (fun j => d j = a /\ t j = b) smpls) by (intros a b nm Hin; apply (A a b nm Hin)).
  assert (A2 : forall a b name, In (name, a, b) [("ml_g_d0_t0", 0, 0); ("ml_g_d0_t1", 0, 1); ("ml_g_d1_t0", 1, 0); ("ml_g_d1_t1", 1, 1)] -> fit_ok L g su name "ml_g" y' (fun j => d' j = a /\ t' j = b) smpls) by (intros a b nm Hin; apply (A a b nm Hin)).
  destruct obs.
  - apply (cs_obs L f g) in H as (g00 & g01 & g10 & g11 & m0 & m & p & lam & Ng & N2 & T & R2 & _); [|assumption..]. apply (cs_obs L f g) in H' as (g00' & g01' & g10' & g11' & m0' & m' & p' & lam' & Ng' & N2' & T' & R2' & _); [|assumption..].
    intros s [<-|[<-|[<-|[<-|[<-|[]]]]]].
    + eapply Key; [|eapply Ng|eapply Ng']; [left; reflexivity|left; reflexivity|left; reflexivity].
    + eapply Key; [|eapply Ng|eapply Ng']; [right; left; reflexivity|right; left; reflexivity|right; left; reflexivity].
    + eapply Key; [|eapply Ng|eapply Ng']; [right; right; left; reflexivity|right; right; left; reflexivity|right; right; left; reflexivity].
    + eapply Key; [|eapply Ng|eapply Ng']; [right; right; right; left; reflexivity|right; right; right; left; reflexivity|right; right; right; left; reflexivity].
    + eapply reported_same; [assumption|eassumption|eassumption|]. eapply trimmed_same; [assumption|exact T|exact T'|]. eapply nuisance_free; [exact (st_range _ _ _ _ _ S)|eassumption|assumption|apply same_whole|exact Hd|exact C3|exact N2|exact N2'].
  - apply (cs_exp L f g) in H as (g00 & g01 & g10 & g11 & p & lam & Ng & _); [|assumption..]. apply (cs_exp L f g) in H' as (g00' & g01' & g10' & g11' & p' & lam' & Ng' & _); [|assumption..].
    intros s [<-|[<-|[<-|[<-|[]]]]].
    + eapply Key; [|eapply Ng|eapply Ng']; [left; reflexivity|left; reflexivity|left; reflexivity].
    + eapply Key; [|eapply Ng|eapply Ng']; [right; left; reflexivity|right; left; reflexivity|right; left; reflexivity].
    + eapply Key; [|eapply Ng|eapply Ng']; [right; right; left; reflexivity|right; right; left; reflexivity|right; right; left; reflexivity].
    + eapply Key; [|eapply Ng|eapply Ng']; [right; right; right; left; reflexivity|right; right; right; left; reflexivity|right; right; right; left; reflexivity].
Qed.
Lemma pliv_free x y d z y' d' z' smpls out out' i : setting L f g su smpls -> avoids smpls -> (i < n)%nat -> agree_off su i y y' -> agree_off su i d d' -> agree_off su i z z' ->
  free_fit L g su "ml_l" "ml_l" y y' everyone everyone smpls -> free_fit L g su "ml_m" "ml_m" z z' everyone everyone smpls -> free_fit L g su "ml_r" "ml_r" d d' everyone everyone smpls ->
  pliv_x_nuis L su false x y d z smpls = Ok out -> pliv_x_nuis L su false x y' d' z' smpls = Ok out' ->
  forall l, In l ["ml_l"; "ml_m"; "ml_r"] -> no_preds out l i = no_preds out' l i.
Proof.
  intros S Ha Hi Hy Hd Hz (A1 & A2 & A3) (B1 & B2 & B3) (C1 & C2 & C3) H H'. apply (pliv_partialling_out L f g) in H as (l & m & r & N1 & N2 & N3 & R1 & R2 & R3 & _); [|assumption..].
  apply (pliv_partialling_out L f g) in H' as (l' & m' & r' & N1' & N2' & N3' & R1' & R2' & R3' & _); [|assumption..].
  intros s [<-|[<-|[<-|[]]]].
  - free N1 N1' S; [apply same_whole|exact Hy|exact A3].
  - free N2 N2' S; [apply same_whole|exact Hz|exact B3].
  - free N3 N3' S; [apply same_whole|exact Hd|exact C3].
Qed.
Lemma fitted_on_same name lrn k x x' y y' rows e e' : (forall j, In j rows -> x j = x' j /\ y j = y' j) -> fitted_on L su name lrn k x y rows e -> fitted_on L su name lrn k x' y' rows e' -> e = e'.
Proof.
  intros H (p & P1 & F1) (p' & P1' & F1'). assert (p' = p) by (eapply param_fun; eassumption). subst p'. assert (D : map (fun j => (x j, y j)) rows = map (fun j => (x' j, y' j)) rows) by (apply map_ext_in; intros j Hj; destruct (H j Hj); congruence).
  rewrite <- D in F1'. eapply fitted_fun; eassumption.
Qed.
Lemma pliv_xz_free x zrow y d y' d' smpls out out' i : setting L f g su smpls -> avoids smpls -> (i < n)%nat -> agree_off su i y y' -> agree_off su i d d' ->
  labels_ok L g su "ml_l" y everyone smpls -> labels_ok L g su "ml_l" y' everyone smpls -> (su_proba su "ml_l" = true -> same_labels n y y') ->
  pliv_xz_nuis L su x zrow y d smpls = Ok out -> pliv_xz_nuis L su x zrow y' d' smpls = Ok out' ->
  forall l, In l ["ml_l"; "ml_m"; "ml_r"] -> no_preds out l i = no_preds out' l i.
Proof.
  intros S Ha Hi Hy Hd A1 A2 A3 H H'. apply (pliv_xz L f g) in H as (l & m & mt & N1 & N2 & R1 & R2 & R3 & _); [|assumption..]. apply (pliv_xz L f g) in H' as (l' & m' & mt' & N1' & N2' & R1' & R2' & R3' & _); [|assumption..].
  destruct (N2 i Hi) as (k & h & e & e1 & T & F1 & V1 & F2 & V2), (N2' i Hi) as (k' & h' & e' & e1' & T' & F1' & V1' & F2' & V2'). destruct (tested_fun _ _ _ _ _ _ T T') as (<- & <-). destruct T as (T1 & T2 & _).
  assert (Hni : ~ In i (fst h)) by (intro Hin; apply (Ha h i (nth_error_In _ _ T1) Hin T2)).
  assert (e = e'). { eapply fitted_on_same; [|exact F1|exact F1']. intros j Hj. split; [reflexivity|]. apply Hd; [apply (st_range _ _ _ _ _ S h j (nth_error_In _ _ T1) Hj)|intros ->; contradiction]. }
  subst e'. assert (e1 = e1') by (eapply fitted_on_same; [|exact F2|exact F2']; intros j _; split; reflexivity). subst e1'.
  intros s [<-|[<-|[<-|[]]]]; (eapply reported_same; [assumption|eassumption|eassumption|]); [|congruence|congruence].
  eapply crossfit_free; [exact (st_range _ _ _ _ _ S)|eassumption|assumption|apply same_whole|exact Hy|exact A3|exact N1|exact N1'].
Qed.
Lemma ssm_mar_free norm tr thr x y d s y' smpls out out' i : setting L f g su smpls -> avoids smpls -> (i < n)%nat -> agree_off su i y y' ->
  labels_ok L g su "ml_pi" s everyone smpls -> labels_ok L g su "ml_m" d everyone smpls ->
  (forall b, b = 0 \/ b = 1 -> labels_ok L g su "ml_g" y (fun j => d j = b /\ s j = 1) smpls /\ labels_ok L g su "ml_g" y' (fun j => d j = b /\ s j = 1) smpls) -> (su_proba su "ml_g" = true -> same_labels n y y') ->
  ssm_mar_nuis L su norm tr thr x y d s smpls = Ok out -> ssm_mar_nuis L su norm tr thr x y' d s smpls = Ok out' ->
  forall l, In l ["ml_g_d0"; "ml_g_d1"; "ml_pi"; "ml_m"] -> no_preds out l i = no_preds out' l i.
Proof.
  intros S Ha Hi Hy A B C D H H'. destruct (C 0 (or_introl eq_refl)) as (C1 & C2), (C 1 (or_intror eq_refl)) as (C3 & C4).
  apply (ssm_mar L f g) in H as (pi & m0 & m & g1 & g0 & N1 & N2 & T & N3 & N4 & R1 & R2 & R3 & R4 & _); [|assumption..]. apply (ssm_mar L f g) in H' as (pi' & m0' & m' & g1' & g0' & N1' & N2' & T' & N3' & N4' & R1' & R2' & R3' & R4' & _); [|assumption..].
  assert (Rf : forall v : vec, agree_off su i v v) by (intros v j _ _; reflexivity). assert (Lf : forall v : vec, same_labels n v v) by (intros v z; reflexivity).
  intros l [<-|[<-|[<-|[<-|[]]]]]; (eapply reported_same; [assumption|eassumption|eassumption|]).
  - eapply crossfit_free; [exact (st_range _ _ _ _ _ S)|eassumption|assumption|apply sel_is2; apply Rf|exact Hy|exact D|exact N4|exact N4'].
  - eapply crossfit_free; [exact (st_range _ _ _ _ _ S)|eassumption|assumption|apply sel_is2; apply Rf|exact Hy|exact D|exact N3|exact N3'].
  - eapply crossfit_free; [exact (st_range _ _ _ _ _ S)|eassumption|assumption|apply same_whole|apply Rf|intros _; apply Lf|exact N1|exact N1'].
  - eapply trimmed_same; [assumption|exact T|exact T'|]. eapply crossfit_free; [exact (st_range _ _ _ _ _ S)|eassumption|assumption|apply same_whole|apply Rf|intros _; apply Lf|exact N2|exact N2'].
Qed.
Lemma prob_fun e v p p' : prob_at f g e v p -> prob_at f g e v p' -> p = p'.
Proof. intros (A & B) (A' & B'). destruct (Nat.eq_dec (length (g e v)) 2) as [H|H]; [specialize (A H); specialize (A' H); congruence|rewrite (B H), (B' H); reflexivity]. Qed.
(** Also the selection indicator and the treatment of other rows' halves. *)
Lemma ssm_non_free tts norm tr thr x zrow y d s y' smpls out out' i : setting L f g su smpls -> avoids smpls -> classifier_ok L g -> halving tts -> (i < n)%nat -> agree_off su i y y' ->
  ssm_non_nuis L su tts (length smpls) norm tr thr x zrow y d s smpls = Ok out -> ssm_non_nuis L su tts (length smpls) norm tr thr x zrow y' d s smpls = Ok out' ->
  forall l, In l ["ml_g_d0"; "ml_g_d1"; "ml_pi"; "ml_m"] -> no_preds out l i = no_preds out' l i.
Proof.
  intros S Ha Hc Hh Hi Hy H H'.
  apply (ssm_non L f g) in H as (pi & m0 & m & g1 & g0 & N & T & R1 & R2 & R3 & R4 & _); [|assumption..]. apply (ssm_non L f g) in H' as (pi' & m0' & m' & g1' & g0' & N' & T' & R1' & R2' & R3' & R4' & _); [|assumption..].
  destruct (N i Hi) as (k & h & q & rows1 & rows0 & ep & em & e1 & e0 & Z), (N' i Hi) as (k' & h' & q' & rows1' & rows0' & ep' & em' & e1' & e0' & Z'). cbn zeta in Z, Z'.
  destruct Z as (Z1 & Z2 & Z3 & Z4 & Z5 & Z6 & Z7 & Z8 & Z9 & Z10 & Z11 & Z12), Z' as (Y1 & Y2 & Y3 & Y4 & Y5 & Y6 & Y7 & Y8 & Y9 & Y10 & Y11 & Y12). destruct (tested_fun _ _ _ _ _ _ Z1 Y1) as (<- & <-). destruct Z1 as (U1 & U2 & _).
  assert (Hni : ~ In i (fst h)) by (intro Hin; apply (Ha h i (nth_error_In _ _ U1) Hin U2)). pose proof (fun j => st_range _ _ _ _ _ S h j (nth_error_In _ _ U1)) as Hrg.
  set (st := map (fun j => d j + 2 * s j) (fst h)) in *. pose proof (Hh (fst h) st) as (_ & HB & _).
  assert (ep' = ep) by (eapply fitted_on_same; [|exact Y2|exact Z2]; intros; split; reflexivity). subst ep'.
  assert (Eq : forall j, (j < n)%nat -> q j = q' j) by (intros j Hj; eapply prob_fun; [apply Z3, Hj|apply Y3, Hj]).
  assert (Hq : forall j, In j (snd (tts (fst h) st)) -> q j = q' j) by (intros j Hj; apply Eq, Hrg, HB, Hj).
  assert (Rw : forall G rows rows', group_rows n G (snd (tts (fst h) st)) rows -> group_rows n G (snd (tts (fst h) st)) rows' -> rows = rows').
  { intros G r r' (Q1 & Q2) (Q1' & Q2'). apply sorted_lt_eq; try assumption. intro z. rewrite Q2, Q2'. reflexivity. }
  assert (rows1 = rows1') by (eapply Rw; eassumption). assert (rows0 = rows0') by (eapply Rw; eassumption). subst rows1' rows0'.
  assert (em' = em) by (eapply fitted_on_same; [|exact Y5|exact Z5]; intros j Hj; cbv beta; rewrite (Hq j Hj); split; reflexivity). subst em'.
  assert (In1 : forall rows G j, group_rows n G (snd (tts (fst h) st)) rows -> In j rows -> (x j ++ [q j] = x j ++ [q' j])%list /\ y j = y' j).
  { intros rows G j (_ & Q) Hj. apply Q in Hj as (Hj1 & _ & Hj2). rewrite (Hq j Hj2). split; [reflexivity|]. apply Hy; [exact Hj1|]. intros ->. apply Hni, HB, Hj2. }
  assert (e1 = e1') by (eapply fitted_on_same; [|exact Z8|exact Y8]; intros j Hj; eapply In1; [exact Z7|exact Hj]). assert (e0 = e0') by (eapply fitted_on_same; [|exact Z11|exact Y11]; intros j Hj; eapply In1; [exact Z10|exact Hj]). subst e1' e0'.
  rewrite <- (Eq i Hi) in Y4, Y6, Y9, Y12.
  intros l [<-|[<-|[<-|[<-|[]]]]]; (eapply reported_same; [assumption|eassumption|eassumption|]); [congruence|congruence|congruence|].
  eapply trimmed_same; [assumption|exact T|exact T'|]. eapply prob_fun; [exact Z6|exact Y6].
Qed.
End Free.

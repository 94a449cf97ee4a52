(** Different formulations of one estimation problem: predictions. *)
From Verif Require Export S_Equal L_Units.
From Verif Require Import L_CrossPath L_Scores.
From Coq Require Import Lia Lra.
Local Open Scope R_scope.
Local Open Scope string_scope.

Lemma codes_binary n y c : binary n y -> both_groups n y -> codes n y c -> forall i, (i < n)%nat -> c i = y i.
Proof.
  intros B ((i0 & H0 & Y0) & (i1 & H1 & Y1)) (lab & (S1 & I1) & C1) i Hi.
  assert (lab = [0; 1]) as ->.
  { apply ssorted_Rlt_eq; [exact S1|repeat constructor; lra|]. intro z. rewrite I1. split.
    - intros (j & Hj & <-). destruct (B j Hj) as [->| ->]; cbn; auto.
    - intros [<-|[<-|[]]]; eauto. }
  destruct (C1 i Hi) as (p & Hp & ->). destruct p as [|[|p]]; [injection Hp as <-|injection Hp as <-|destruct p; discriminate]; reflexivity.
Qed.
Section Pred.
Context {E P : Type} (L : learner E row P) (f : E -> row -> R) (g : E -> row -> list R).
Variables (mc mc' : machinery E P) (w w' : world P) (n : nat) (ext ext' : ext_arg) (r t t' : nat) (col col' name name' lrn lrn' : string) (pr : bool) (lo : E).
Variables (x x' : nat -> row) (y y' : vec) (sel sel' : rows_sel) (fs : list fold) (v v' : vec).
Hypotheses (M1 : mc_learner mc lrn = lo) (M2 : mc_learner mc' lrn' = lo) (P1 : mc_proba mc lrn = pr) (P2 : mc_proba mc' lrn' = pr).
Hypothesis Rg : forall h j, In h fs -> In j (fst h) -> (j < n)%nat.
Hypothesis Sm : sel_match n sel sel'.
Hypothesis Hx : forall i, (i < n)%nat -> x' i = x i.
Hypothesis U : used_prediction L f g mc w n ext r t col name lrn x y sel fs v.
Hypothesis U' : used_prediction L f g mc' w' n ext' r t' col' name' lrn' x' y' sel' fs v'.
Lemma learned_pair : (forall e, ~ supplied ext col name r e) -> (forall e, ~ supplied ext' col' name' r e) -> nth r (m_params (w_obj w') name' col') None = nth r (m_params (w_obj w) name col) None ->
  exists c c', (if pr then codes n y c else c = y) /\ (if pr then codes n y' c' else c' = y') /\ forall i, (i < n)%nat -> exists rows e m m', (forall j, In j rows -> (j < n)%nat) /\
    ln_fit L e (map (fun j => (x j, c j)) rows) = Ok m /\ ln_fit L e (map (fun j => (x j, c' j)) rows) = Ok m' /\
    (if pr then nth_error (g m (x i)) 1 = Some (v i) else v i = f m (x i)) /\ (if pr then nth_error (g m' (x i)) 1 = Some (v' i) else v' i = f m' (x i)).
Proof.
  intros N1 N2 Hp. destruct U as (_ & U2), U' as (_ & U2'). destruct (U2 N1) as (c & Cc & V). destruct (U2' N2) as (c' & Cc' & V'). cbn [setup_of su_proba su_n su_learner su_params] in *. rewrite P1 in *. rewrite P2 in *.
  exists c, c'. split; [exact Cc|]. split; [exact Cc'|]. intros i Hi.
  destruct (V i Hi) as (k & h & rows & p & m & (T1 & T2 & T3) & Se & Pa & Fi & X). destruct (V' i Hi) as (k' & h' & rows' & p' & m' & (T1' & T2' & T3') & Se' & Pa' & Fi' & X').
  assert (k' = k) as -> by (eapply T3; eassumption). assert (h' = h) as -> by congruence. pose proof (nth_error_In _ _ T1) as Ih.
  destruct (Sm _ _ _ (fun j => Rg h j Ih) Se Se') as (-> & Rr).
  assert (p' = p) as ->. { rewrite Hp in Pa'. unfold param_of in Pa, Pa'. destruct (params_of _) as [|q|l]; [congruence|congruence|]. destruct Pa as (q1 & A1 & ->), Pa' as (q2 & A2 & ->). congruence. }
  rewrite M1 in Fi. rewrite M2 in Fi'. rewrite Hx in X' by exact Hi.
  assert (Ed : map (fun j => (x' j, c' j)) rows = map (fun j => (x j, c' j)) rows) by (apply map_ext_in; intros j Hj; rewrite Hx by auto; reflexivity). rewrite Ed in Fi'.
  unfold fitted in Fi, Fi'. destruct p as [q|]; [destruct Fi as (e1 & A1 & A2), Fi' as (e2 & B1 & B2); rewrite A1 in B1; injection B1 as <-; exists rows, e1, m, m'; auto|exists rows, (ln_clone L lo), m, m'; auto].
Qed.
Lemma matched_prediction : (forall i, (i < n)%nat -> y' i = y i) -> matched w w' ext ext' col name col' name' r -> forall i, (i < n)%nat -> v' i = v i.
Proof.
  intros Hy [(N1 & N2 & Hp)|(e & S1 & S2)] i Hi; [|rewrite (proj1 U e S1), (proj1 U' e S2); reflexivity].
  destruct (learned_pair N1 N2 Hp) as (c & c' & Cc & Cc' & H). destruct (H i Hi) as (rows & e & m & m' & Rr & F1 & F2 & X & X').
  assert (Ec : forall j, (j < n)%nat -> c' j = c j) by (destruct pr; [apply (codes_same n y y'); auto|subst c c'; exact Hy]).
  assert (m' = m) as ->. { rewrite (map_ext_in _ (fun j => (x j, c j))) in F2 by (intros j Hj; rewrite Ec by auto; reflexivity). congruence. }
  destruct pr; congruence.
Qed.
Lemma mirrored_prediction : pr = true -> binary n y -> both_groups n y -> (forall i, (i < n)%nat -> y' i = 1 - y i) -> mirrored L g w w' ext ext' col name col' name' r -> forall i, (i < n)%nat -> v' i = 1 - v i.
Proof.
  intros Q B ((i0 & H0 & Y0) & (i1 & H1 & Y1)) Hy [(N1 & N2 & Hp & Sy)|(e & e' & S1 & S2 & He)] i Hi; [|rewrite (proj1 U e S1), (proj1 U' e' S2); apply He].
  destruct (learned_pair N1 N2 Hp) as (c & c' & Cc & Cc' & H). destruct (H i Hi) as (rows & e & m & m' & Rr & F1 & F2 & X & X'). rewrite Q in *.
  assert (Ec : forall j, (j < n)%nat -> c j = y j) by (apply codes_binary; [exact B|split; eauto|exact Cc]).
  assert (Ec' : forall j, (j < n)%nat -> c' j = 1 - y j).
  { intros j Hj. rewrite <- Hy by exact Hj. revert j Hj. apply codes_binary; [intros j Hj; rewrite Hy by exact Hj; destruct (B j Hj) as [->| ->]; [right|left]; ring| |exact Cc'].
    split; [exists i1; split; [exact H1|rewrite Hy, Y1 by exact H1; ring]|exists i0; split; [exact H0|rewrite Hy, Y0 by exact H0; ring]]. }
  rewrite (map_ext_in _ (fun j => (x j, y j))) in F1 by (intros j Hj; rewrite Ec by auto; reflexivity).
  rewrite (map_ext_in _ (fun j => (x j, 1 - y j))) in F2 by (intros j Hj; rewrite Ec' by auto; reflexivity).
  refine (Sy e _ m m' _ F1 _ (x i) _ _ X X').
  - intros q Hq. apply in_map_iff in Hq as (j & <- & Hj). exact (B j (Rr j Hj)).
  - rewrite map_map. exact F2.
Qed.
End Pred.
Lemma clip_mirror n thr m0 m0' m m' : 0 < thr < 1 / 2 -> (forall i, (i < n)%nat -> m0' i = 1 - m0 i) -> clipped n true thr m0 m -> clipped n true thr m0' m' -> forall i, (i < n)%nat -> m' i = 1 - m i.
Proof.
  intros T H C1 C2 i Hi. rewrite (C1 i Hi), (C2 i Hi), (H i Hi). unfold Rmin, Rmax. repeat destruct (Rle_dec _ _); lra.
Qed.
Lemma adjust_mirror n m m' d d' nm : (forall i, (i < n)%nat -> m' i = 1 - m i) -> (forall i, (i < n)%nat -> d' i = 1 - d i) -> forall i, (i < n)%nat -> ps_adjust n m' d' nm i = 1 - ps_adjust n m d nm i.
Proof.
  intros Hm Hd i Hi. rewrite (adjust_ext n (compl m) m' (compl d) d' nm Hm Hd i Hi). unfold ps_adjust. destruct nm; [|reflexivity]. rewrite normalize_compl. reflexivity.
Qed.
Lemma equal_estimate F F' n t t' r k theta psi J theta' psi' J' : estimate_is F n t r theta psi J -> estimate_is F' n t' r theta' psi' J' -> k = 1 \/ k = -1 ->
  J' = J -> theta' = k * theta -> (forall i, (i < n)%nat -> psi' i = k * psi i) ->
  at_ (fw_all_thetas F') [t'; r] = k * at_ (fw_all_thetas F) [t; r] /\ at_ (fw_all_ses F') [t'; r] = at_ (fw_all_ses F) [t; r].
Proof.
  intros (T1 & S1 & _) (T2 & S2 & _) Hk -> -> HP. rewrite T1, T2, S1, S2. split; [reflexivity|]. do 2 f_equal. apply sumf_ext. intros i Hi. rewrite HP by exact Hi. destruct Hk as [->| ->]; ring.
Qed.

(** Lemmas about the summary tables. *)
From Verif Require Export S_Summary L_Inference L_ModelHist L_Contrast.
From Coq Require Import Lia Lra Ascii.
Local Open Scope R_scope.

Lemma nth_error_combine {A B} (l : list A) (r : list B) : forall i a b, nth_error l i = Some a -> nth_error r i = Some b -> nth_error (combine l r) i = Some (a, b).
Proof. revert r. induction l as [|x l IH]; intros [|y r] [|i] a b H1 H2; try discriminate; cbn in *; [congruence|now apply IH]. Qed.

Section Join.
Context {K : Type}.
Variable eqb : K -> K -> bool.
Hypothesis eqb_ok : forall a b, eqb a b = true <-> a = b.

Definition joined (p : K * (R * R * R * R)) (c : R * R) : K * srow := let '(k, (a, s, t, v)) := p in (k, {| sr_coef := a; sr_se := s; sr_t := t; sr_p := v; sr_ci := Some c |}).
Lemma filter_label idx : forall (cis : list (R * R)) i k c, NoDup idx -> nth_error idx i = Some k -> nth_error cis i = Some c -> filter (fun q => eqb k (fst q)) (combine idx cis) = [(k, c)].
Proof.
  assert (Z : forall idx (cis : list (R * R)) k, ~ In k idx -> filter (fun q => eqb k (fst q)) (combine idx cis) = []).
  { induction idx0 as [|j idx0 IH]; intros [|c cis] k H; try reflexivity. cbn [combine filter fst]. destruct (eqb k j) eqn:E; [apply eqb_ok in E; subst; destruct H; now left|]. apply IH. intro H'. apply H. now right. }
  induction idx as [|j idx IH]; intros [|c cis] [|i] k c0 N H1 H2; try discriminate; inversion_clear N as [|? ? A B]; cbn [combine filter fst].
  - injection H1 as ->. injection H2 as ->. rewrite (proj2 (eqb_ok k k) eq_refl), Z by exact A. reflexivity.
  - destruct (eqb k j) eqn:E; [apply eqb_ok in E; subst; destruct A; eapply nth_error_In; exact H1|]. eapply IH; eassumption.
Qed.
Lemma join_unique idx rows cis : NoDup idx -> length rows = length idx -> length cis = length idx ->
  length (left_join eqb (combine idx rows) (combine idx cis)) = length idx /\
  forall i k a c, nth_error idx i = Some k -> nth_error rows i = Some a -> nth_error cis i = Some c -> nth_error (left_join eqb (combine idx rows) (combine idx cis)) i = Some (joined (k, a) c).
Proof.
  intros N Lr Lc.
  assert (G : forall pre suf rs, idx = (pre ++ suf)%list -> length rs = length suf -> 
    length (left_join eqb (combine suf rs) (combine idx cis)) = length suf /\
    forall i k a c, nth_error suf i = Some k -> nth_error rs i = Some a -> nth_error cis (length pre + i) = Some c -> nth_error (left_join eqb (combine suf rs) (combine idx cis)) i = Some (joined (k, a) c)).
  { intros pre suf. revert pre. induction suf as [|k0 suf IH]; intros pre rs E Ln; [destruct rs; [|discriminate]; split; [reflexivity|intros [|i] ? ? ? H; discriminate H]|].
    destruct rs as [|a0 rs]; [discriminate|]. cbn in Ln. destruct (IH (pre ++ [k0])%list rs) as (I1 & I2); [rewrite <- app_assoc; exact E|lia|].
    assert (P0 : nth_error idx (length pre) = Some k0) by (rewrite E, nth_error_app2, Nat.sub_diag by lia; reflexivity).
    assert (Lt : (length pre < length cis)%nat) by (rewrite Lc, E, app_length; cbn; lia).
    destruct (nth_error cis (length pre)) as [c0|] eqn:Ec; [|apply nth_error_None in Ec; lia].
    unfold left_join in *. cbn [combine flat_map]. destruct a0 as (((a1 & a2) & a3) & a4). rewrite (filter_label idx cis (length pre) k0 c0 N P0 Ec). cbn [map app fst snd length]. split; [f_equal; exact I1|].
    intros [|i] k a c H1 H2 H3; cbn [nth_error] in *.
    - injection H1 as <-. injection H2 as <-. rewrite Nat.add_0_r, Ec in H3. injection H3 as <-. reflexivity.
    - apply I2; [exact H1|exact H2|]. rewrite app_length. cbn [length]. replace (length pre + 1 + i)%nat with (length pre + S i)%nat by lia. exact H3. }
  destruct (G [] idx rows eq_refl Lr) as (A & B). split; [exact A|]. intros i k a c H1 H2 H3. apply B; assumption.
Qed.

Lemma nth_error_mapseq {A} (g : nat -> A) n t : (t < n)%nat -> nth_error (map g (seq 0 n)) t = Some (g t).
Proof. intro H. rewrite nth_error_map, (nth_error_nth' _ 0%nat) by (rewrite seq_length; exact H). rewrite seq_nth by exact H. reflexivity. Qed.
Lemma level_95 : 1 - (1 - 95 / 100) / 2 = 975 / 1000.
Proof. lra. Qed.
Lemma ci_of ppf f : exists ci, confint ppf f (PBool false) (PFloat (95 / 100)) = Ok ci /\ forall t cdf, sr_ci (param_row ppf cdf f t) = Some (at_ ci [t; 0%nat], at_ ci [t; 1%nat]).
Proof.
  destruct (confint_total ppf f false (95 / 100)) as (ci & E); [lra|discriminate|]. exists ci. split; [exact E|]. intros t cdf. apply confint_inv in E as (_ & _ & _ & E0 & E1). rewrite E0, E1. unfold ci_crit. rewrite level_95. reflexivity.
Qed.
Lemma labelled ppf cdf f (idx : list K) : NoDup idx -> length idx = fw_n_thetas f -> exists tab, labelled_summary eqb ppf cdf f idx = Ok tab /\ one_row_each ppf cdf f idx tab.
Proof.
  intros N Ln. destruct (ci_of ppf f) as (ci & Ec & Hc). unfold labelled_summary, generate_summary. rewrite Ec. cbn [bind]. unfold fw_rows at 1. rewrite map_length, seq_length, Ln, Nat.eqb_refl. cbn [require]. eexists. split; [reflexivity|].
  destruct (join_unique idx (fw_rows cdf f) (ci_rows (fw_n_thetas f) ci) N) as (A & B); [unfold fw_rows; rewrite map_length, seq_length; now rewrite Ln|unfold ci_rows; rewrite map_length, seq_length; now rewrite Ln|].
  split; [rewrite A; exact Ln|]. intros t k Hk. assert (Ht : (t < fw_n_thetas f)%nat) by (rewrite <- Ln; apply nth_error_Some; congruence).
  erewrite B; [|exact Hk|unfold fw_rows; apply nth_error_mapseq; exact Ht|unfold ci_rows; apply nth_error_mapseq; exact Ht]. cbn [joined]. do 2 f_equal.
  specialize (Hc t cdf). unfold param_row in *. cbn [sr_ci] in Hc. rewrite <- Hc. reflexivity.
Qed.
Lemma labelled_refuses ppf cdf f (idx : list K) : length idx <> fw_n_thetas f -> labelled_summary eqb ppf cdf f idx = Err ValueError.
Proof.
  intro H. destruct (ci_of ppf f) as (ci & Ec & _). unfold labelled_summary, generate_summary. rewrite Ec. cbn [bind]. unfold fw_rows. rewrite map_length, seq_length. apply Nat.eqb_neq in H. rewrite H. reflexivity.
Qed.
End Join.

Lemma label_eqb_ok a b : label_eqb a b = true <-> a = b.
Proof. destruct a, b; cbn; [rewrite String.eqb_eq|..|rewrite Nat.eqb_eq]; split; congruence. Qed.

(** ** Frameworks *)
Lemma framework_summary ppf cdf f : fw_wf f -> (forall l, fw_names f = Some l -> NoDup l) -> exists tab, fw_summary ppf cdf f = Ok tab /\ one_row_each ppf cdf f (fw_labels f) tab.
Proof.
  intros W N. unfold fw_summary. apply labelled; [exact label_eqb_ok| |]; unfold fw_labels; destruct (fw_names f) as [l|] eqn:E.
  - apply FinFun.Injective_map_NoDup; [intros a b; congruence|apply N; reflexivity].
  - apply FinFun.Injective_map_NoDup; [intros a b; congruence|apply seq_NoDup].
  - rewrite map_length. apply (wf_names _ W), E.
  - rewrite map_length. apply seq_length.
Qed.

(** ** Models *)
Lemma model_summary {P} (C : ctx P) ppf cdf w nj store ext sm w' : c_dcols C <> [] -> NoDup (c_dcols C) -> reachable C w -> fit C nj store ext sm w = (w', Ok tt) ->
  exists f tab w2, current_fw w' f /\ obj_table C ppf cdf w' = (w2, Ok tab) /\ length tab = length (c_dcols C) /\ current_fw w2 f /\ w_obj w2 = w_obj w' /\ w_heap w2 = w_heap w' /\
    forall t d, nth_error (c_dcols C) t = Some d -> nth_error tab t = Some (d, model_row ppf cdf f t).
Proof.
  intros Hd N Hr H. destruct (fit_reports C w nj store ext sm w' Hd Hr H) as (out & f & _ & (k & o & B1 & B2 & Ef) & Rp & (_ & Om & _) & _).
  destruct (ci_of ppf f) as (ci & Ec & Hc). unfold obj_table, obj_summary.
  assert (Nn : forallb (fun t => match b_at (m_coef (w_obj w')) [t] with None => true | _ => false end) (seq 0 (length (c_dcols C))) = false).
  { destruct (c_dcols C) as [|d l] eqn:Ed; [congruence|]. cbn [length seq forallb]. destruct (Om 0%nat) as (-> & _); [cbn; lia|]. reflexivity. }
  assert (Lf : fw_n_thetas f = length (c_dcols C)) by apply (rp_n_thetas _ _ _ _ Rp).
  eexists f, _, _. split; [exists k, o; auto|].
  assert (Cq : obj_confint ppf (PBool false) (PFloat (95 / 100)) w' = ({| w_heap := w_heap w'; w_fws := set_nth k {| fo_base := f; fo_all_thetas := fo_all_thetas o; fo_all_ses := fo_all_ses o; fo_vs := fo_vs o |} (w_fws w'); w_obj := w_obj w' |}, Ok ci)).
  { unfold obj_confint, fw_method, with_framework. rewrite (andthen_eq _ _ w' w' w') by reflexivity. rewrite B1, B2. unfold m_lift. rewrite <- Ef, Ec. reflexivity. }
  split.
  { erewrite andthen_eq; [|erewrite andthen_eq; [|reflexivity]; rewrite Nn; erewrite andthen_eq; [|exact Cq]; reflexivity]. reflexivity. }
  match goal with |- context[left_join String.eqb (combine _ ?rows) (combine _ (ci_rows ?m ci))] => destruct (join_unique String.eqb String.eqb_eq (c_dcols C) rows (ci_rows m ci) N) as (A & B); [rewrite map_length, seq_length; reflexivity|unfold ci_rows; rewrite map_length, seq_length; reflexivity|] end.
  split; [exact A|]. split.
  { eexists k, _. cbn [w_obj w_fws w_heap]. split; [exact B1|]. split; [apply set_nth_error_same; apply nth_error_Some; congruence|]. rewrite Ef. reflexivity. }
  split; [reflexivity|]. split; [reflexivity|]. intros t d Hk. assert (Ht : (t < length (c_dcols C))%nat) by (apply nth_error_Some; congruence).
  erewrite B; [|exact Hk|apply nth_error_mapseq; exact Ht|unfold ci_rows; apply nth_error_mapseq; exact Ht]. destruct (Om t Ht) as (-> & ->). cbn [joined oget]. do 2 f_equal.
  specialize (Hc t cdf). unfold model_row, param_row in *. cbn [sr_ci] in Hc. cbn [sr_coef sr_se sr_t sr_p sr_ci]. rewrite Hc. reflexivity.
Qed.
(** Without estimates the table is empty. *)
Lemma table_empty {P} (C : ctx P) ppf cdf w : all_nan (m_coef (w_obj w)) -> obj_table C ppf cdf w = (w, Ok []).
Proof.
  intro H. unfold obj_table, obj_summary. erewrite andthen_eq; [|erewrite andthen_eq; [|reflexivity]; cbv zeta].
  2:{ replace (forallb _ _) with true; [reflexivity|]. symmetry. apply forallb_forall. intros t _. now rewrite H. }
  reflexivity.
Qed.
Lemma table_after_split {P} (C : ctx P) ppf cdf s asc w w' : set_sample_splitting C s asc w = (w', Ok tt) -> obj_table C ppf cdf w' = (w', Ok []).
Proof. intro H. apply table_empty. exact (proj1 (set_clears C s asc w w' H)). Qed.

(** ** Wrappers *)
Lemma wrapper_table {K S} (eqb : K -> K -> bool) ppf cdf (w : wrapper (K := S)) (idx : list K) : (forall a b, eqb a b = true <-> a = b) -> NoDup idx ->
  (wr_fw w = None -> wrapper_summary eqb ppf cdf w idx = Ok []) /\
  forall f, wr_fw w = Some f -> length idx = fw_n_thetas f -> exists tab, wrapper_summary eqb ppf cdf w idx = Ok tab /\ one_row_each ppf cdf f idx tab.
Proof.
  intros He N. unfold wrapper_summary. split; [now intros ->|]. intros f -> L. now apply labelled.
Qed.

(** ** Contrasts *)
Lemma blank_split : forall a b u v, ~ In " "%char (list_ascii_of_string a) -> ~ In " "%char (list_ascii_of_string b) ->
  (a ++ String " " u)%string = (b ++ String " " v)%string -> a = b /\ u = v.
Proof.
  induction a as [|x a IH]; intros [|y b] u v Ha Hb E; cbn in *.
  - injection E as ->. auto.
  - injection E as <- _. destruct Hb. now left.
  - injection E as -> _. destruct Ha. now left.
  - injection E as -> E. destruct (IH b u v) as (-> & ->); auto.
Qed.
Lemma contrast_names_distinct show pairs : readable show -> NoDup pairs -> NoDup (map (fun p : Z * Z => (show (fst p) ++ " vs " ++ show (snd p))%string) pairs).
Proof.
  intros (Hi & Hb) N. apply FinFun.Injective_map_NoDup; [|exact N]. intros (a & b) (c & d) E. cbn [fst snd] in E. cbn [append] in E.
  destruct (blank_split (show a) (show c) _ _ (Hb a) (Hb c) E) as (E1 & E2). injection E2 as E2. apply Hi in E1, E2. now subst.
Qed.
Lemma contrast_table n nr show levels models fw arg ppf cdf : readable show ->
  NoDup levels -> (2 <= length levels)%nat -> length models = length levels -> level_models n nr (map fst models) ->
  (forall m, In m models -> nonneg_sens nr (snd m)) -> NoDup (refs_list arg) -> refs_list arg <> [] -> (forall r, In r (refs_list arg) -> In r levels) ->
  exists h pairs tab, causal_contrast show levels (Some fw) (map Some models) arg = Ok h /\ one_per_pair levels (refs_list arg) pairs /\ reports_differences show levels models pairs h /\
    fw_summary ppf cdf h = Ok tab /\ length tab = length pairs /\
    forall t a b, nth_error pairs t = Some (a, b) -> nth_error tab t = Some (Named (show a ++ " vs " ++ show b), param_row ppf cdf h t).
Proof.
  intros Sh H1 H2 H3 H4 H5 H6 H7 H8. destruct (contrast_reports n nr show levels models fw arg H1 H2 H3 H4 H5 H6 H7 H8) as (h & pairs & E & Op & Rd & W & _).
  destruct (framework_summary ppf cdf h W) as (tab & Et & Lt & Vt). { intros l El. destruct Rd as (_ & Nm & _). rewrite Nm in El. injection El as <-. apply contrast_names_distinct; [exact Sh|apply Op]. }
  exists h, pairs, tab. split; [exact E|]. split; [exact Op|]. split; [exact Rd|]. split; [exact Et|]. destruct Rd as (Nt & Nm & _). split; [rewrite Lt; exact Nt|].
  intros t a b Hp. apply Vt. unfold fw_labels. rewrite Nm, map_map. rewrite nth_error_map, Hp. reflexivity.
Qed.

(** ** Repeated labels *)
Section Repeated.
Context {K : Type}.
Variable eqb : K -> K -> bool.
Hypothesis eqb_ok : forall a b, eqb a b = true <-> a = b.

Lemma left_join_in l r (k : K) a c : In (k, a) l -> In (k, c) r -> In (joined (k, a) c) (left_join eqb l r).
Proof.
  intros Hl Hr. unfold left_join. apply in_flat_map. exists (k, a). split; [exact Hl|]. destruct a as (((a1 & a2) & a3) & a4). cbn [joined].
  assert (F : In (k, c) (filter (fun q => eqb k (fst q)) r)) by (apply filter_In; split; [exact Hr|now apply eqb_ok]).
  destruct (filter _ r) as [|q m] eqn:E; [destruct F|]. rewrite <- E in F |- *. apply in_map_iff. exists (k, c). now rewrite E in *.
Qed.
Lemma left_join_long l r : (length l <= length (left_join eqb l r))%nat.
Proof.
  unfold left_join. induction l as [|(k & (((a1 & a2) & a3) & a4)) l IH]; [cbn; lia|]. cbn [flat_map length]. rewrite app_length. match goal with |- (_ <= ?u + _)%nat => assert (1 <= u)%nat; [|lia] end. destruct (filter _ r) as [|q m]; cbn [map length]; lia.
Qed.
Lemma left_join_longer l r (k : K) a c1 c2 l1 l2 l3 : In (k, a) l -> r = (l1 ++ (k, c1) :: l2 ++ (k, c2) :: l3)%list -> (length l < length (left_join eqb l r))%nat.
Proof.
  intros Hl ->. apply in_split in Hl as (u & v & ->). unfold left_join. rewrite flat_map_app, !app_length. cbn [flat_map length]. rewrite app_length.
  pose proof (left_join_long u (l1 ++ (k, c1) :: l2 ++ (k, c2) :: l3)) as A. pose proof (left_join_long v (l1 ++ (k, c1) :: l2 ++ (k, c2) :: l3)) as B. unfold left_join in A, B.
  destruct a as (((a1 & a2) & a3) & a4).
  assert (F : (2 <= length (filter (fun q => eqb k (fst q)) (l1 ++ (k, c1) :: l2 ++ (k, c2) :: l3)%list))%nat).
  { rewrite filter_app, app_length. cbn [filter fst]. rewrite (proj2 (eqb_ok k k) eq_refl). cbn [length]. rewrite filter_app, app_length. cbn [filter fst]. rewrite (proj2 (eqb_ok k k) eq_refl). cbn [length]. lia. }
  destruct (filter _ _) as [|q m]; [cbn in F; lia|]. rewrite map_length. lia.
Qed.
Lemma repeated_labels ppf cdf f (idx : list K) : length idx = fw_n_thetas f -> exists tab, labelled_summary eqb ppf cdf f idx = Ok tab /\
  forall i j k, (i < j)%nat -> nth_error idx i = Some k -> nth_error idx j = Some k ->
    (fw_n_thetas f < length tab)%nat /\ In (k, mixed_row ppf cdf f i j) tab /\ In (k, mixed_row ppf cdf f j i) tab.
Proof.
  intro Ln. destruct (ci_of ppf f) as (ci & Ec & Hc). unfold labelled_summary, generate_summary. rewrite Ec. cbn [bind]. unfold fw_rows at 1. rewrite map_length, seq_length, Ln, Nat.eqb_refl. cbn [require]. eexists. split; [reflexivity|].
  intros i j k Hij Hi Hj. assert (Ij : (j < fw_n_thetas f)%nat) by (rewrite <- Ln; apply nth_error_Some; congruence).
  assert (Pl : forall t, nth_error idx t = Some k -> (t < fw_n_thetas f)%nat -> In (k, (at_ (fw_thetas f) [t], at_ (fw_ses f) [t], at_ (fw_t_stats f) [t], at_ (fw_pvals cdf f) [t])) (combine idx (fw_rows cdf f))).
  { intros t Hk Ht. apply nth_error_In with t. apply nth_error_combine; [exact Hk|]. unfold fw_rows. now rewrite nth_error_mapseq. }
  assert (Qn : forall t, nth_error idx t = Some k -> (t < fw_n_thetas f)%nat -> nth_error (combine idx (ci_rows (fw_n_thetas f) ci)) t = Some (k, (at_ ci [t; 0%nat], at_ ci [t; 1%nat]))).
  { intros t Hk Ht. apply nth_error_combine; [exact Hk|]. unfold ci_rows. now rewrite nth_error_mapseq. }
  assert (Mx : forall s t, nth_error idx s = Some k -> nth_error idx t = Some k -> (s < fw_n_thetas f)%nat -> (t < fw_n_thetas f)%nat -> In (k, mixed_row ppf cdf f s t) (left_join eqb (combine idx (fw_rows cdf f)) (combine idx (ci_rows (fw_n_thetas f) ci)))).
  { intros s t A B D E. pose proof (left_join_in _ _ _ _ _ (Pl s A D) (nth_error_In _ _ (Qn t B E))) as F. cbn [joined] in F. unfold mixed_row. rewrite (Hc t cdf). exact F. }
  assert (Ii : (i < fw_n_thetas f)%nat) by lia. split; [|auto].
  pose proof (Qn i Hi Ii) as Qi. pose proof (Qn j Hj Ij) as Qj. apply nth_error_split in Qi as (l1 & l2 & E1 & L1). rewrite E1 in Qj. rewrite nth_error_app2 in Qj by lia. replace (j - length l1)%nat with (S (j - length l1 - 1)) in Qj by lia. cbn [nth_error] in Qj. apply nth_error_split in Qj as (l3 & l4 & E2 & _).
  replace (fw_n_thetas f) with (length (combine idx (fw_rows cdf f))) at 1 by (rewrite combine_length; unfold fw_rows; rewrite map_length, seq_length, Ln; apply Nat.min_id).
  eapply left_join_longer; [exact (Pl i Hi Ii)|]. rewrite E1, E2. reflexivity.
Qed.
End Repeated.

(** The name setter accepts repeated names. *)
Lemma repeated_names ppf cdf f names i j k : fw_wf f -> length names = fw_n_thetas f -> (i < j)%nat -> nth_error names i = Some k -> nth_error names j = Some k ->
  exists f' tab, set_names f names = Ok f' /\ fw_summary ppf cdf f' = Ok tab /\ (fw_n_thetas f < length tab)%nat /\ In (Named k, mixed_row ppf cdf f i j) tab /\ In (Named k, mixed_row ppf cdf f j i) tab.
Proof.
  intros W Ln Hij Hi Hj. unfold set_names, check_names. rewrite all_some_map. rewrite Ln, Nat.eqb_refl. cbn [require bind].
  match goal with |- context [Ok ?g = Ok _] => destruct (repeated_labels label_eqb label_eqb_ok ppf cdf g (fw_labels g)) as (tab & Et & Ht); [unfold fw_labels; cbn [fw_names]; rewrite map_length; exact Ln|exists g, tab] end.
  split; [reflexivity|]. split; [exact Et|]. apply (Ht i j (Named k) Hij); unfold fw_labels; cbn [fw_names]; rewrite nth_error_map; [rewrite Hi|rewrite Hj]; reflexivity.
Qed.

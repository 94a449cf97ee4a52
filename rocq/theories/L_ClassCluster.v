(** Complete fits with clustered data. *)
From Verif Require Export L_ClassFits.
From Coq Require Import Lia Lra FunctionalExtensionality.
Local Open Scope R_scope.
Local Open Scope res_scope.
Local Open Scope string_scope.

Lemma fold_sums_rows fs : forall gs (u v : vec), (forall h i, In h fs -> In i (snd h) -> u i = v i) -> fold_sums fs gs u = fold_sums fs gs v.
Proof.
  induction fs as [|h fs IH]; intros [|c gs] u v H; try reflexivity. cbn [fold_sums]. f_equal; [|apply IH; intros; eapply H; [right|]; eassumption].
  do 2 f_equal. apply map_ext_in. intros i Hi. apply (H h); [left; reflexivity|exact Hi].
Qed.
Lemma total_rows n sel dec (u v : vec) : (forall i, (i < n)%nat -> u i = v i) -> total n sel dec u = total n sel dec v.
Proof. intro H. unfold total. f_equal. apply map_ext_in. intros i Hi. apply in_seq in Hi. rewrite H by lia. reflexivity. Qed.
Lemma cell_rows n cvs (u v : vec) c : (forall i, (i < n)%nat -> u i = v i) -> cell_term n cvs u c = cell_term n cvs v c.
Proof.
  intro H. unfold cell_term. destruct cvs as [|cv [|cw [|? ?]]]; try reflexivity; destruct (snd c) as [|I1 [|I2 [|? ?]]]; try reflexivity.
  - do 2 f_equal. apply map_ext. intro z. unfold total1. now rewrite (total_rows n _ _ u v H).
  - f_equal. f_equal; f_equal; apply map_ext; intro z; unfold total2; now rewrite (total_rows n _ _ u v H).
Qed.

Section Fit.
Context {E P : Type}.
Variable L : learner E row P.
Variables (f : E -> row -> R) (g : E -> row -> list R).
Variable mc : machinery E P.
Notation Used := (used_prediction L f g mc).
Notation Labels := (labels_everywhere L g mc).

Lemma cluster_estimate (C : ctx P) cv w out F sm r t fs (a b : vec) : c_cluster C = Some cv -> cv <> [] -> soundly_reached C w -> reports C w out F -> m_smpls (w_obj w) = Some sm ->
  nth_error sm r = Some fs -> (r < fw_n_rep F)%nat -> (t < fw_n_thetas F)%nat -> partition_of (c_n C) fs ->
  (forall i, (i < c_n C)%nat -> no_a (out r t) i = - a i /\ no_b (out r t) i = b i) ->
  exists c, clusters_of w cv r fs c /\ (moment (c_n C) (Some c) a <> 0 -> clustered_estimate_is F (c_n C) t r c a b).
Proof.
  intros Ec Hcv Hw Rp Es Er Hr Ht Pa Sc. pose proof (reachable_wf _ _ (reached_reachable C w Hw)) as W. pose proof (wf_cv _ _ W cv Ec) as Hl.
  assert (Hsc : exists sc, m_smpls_cluster (w_obj w) = Some sc /\ length sc = m_n_rep (w_obj w)) by (eapply (wf_smpls_c _ _ W); eassumption).
  destruct Hsc as (sc & Esc & Lsc). rewrite (rp_n_rep _ _ _ _ Rp) in Hr. destruct (nth_error sc r) as [cs|] eqn:Ecs; [|apply nth_error_None in Ecs; lia].
  set (c := {| ca_vars := cv; ca_smpls := fs; ca_smpls_cluster := cs; ca_n_folds_per_cluster := m_nfpc (w_obj w) |}). exists c.
  split; [repeat split; exists sc; split; assumption|]. intros Hm. assert (Ecl : split_cluster C w r = Some c).
  { unfold split_cluster, c. rewrite Ec, Es, Esc. now rewrite (nth_error_nth _ _ _ Er), (nth_error_nth _ _ _ Ecs). }
  assert (Rows : forall u v : vec, (forall i, (i < c_n C)%nat -> u i = v i) -> moment (c_n C) (Some c) u = moment (c_n C) (Some c) v).
  { intros u v H. cbn [moment]. apply fold_sums_rows. intros h i Hh Hi. apply H. cbn [c ca_smpls] in Hh. assert (X : In i (flat_map snd fs)) by (apply in_flat_map; eauto).
    apply (Permutation_in _ Pa) in X. apply in_seq in X. lia. }
  assert (Ma : moment (c_n C) (Some c) (no_a (out r t)) = - moment (c_n C) (Some c) a).
  { rewrite (Rows _ (fun i => a i * -1 + b i * 0)) by (intros i Hi; destruct (Sc i Hi) as (-> & _); ring). rewrite moment_lin. ring. }
  assert (Mb : moment (c_n C) (Some c) (no_b (out r t)) = moment (c_n C) (Some c) b) by (apply Rows; intros i Hi; apply Sc, Hi).
  assert (Hr2 : (r < fw_n_rep F)%nat) by (rewrite (rp_n_rep _ _ _ _ Rp); exact Hr).
  assert (Et : at_ (fw_all_thetas F) [t; r] = moment (c_n C) (Some c) b / moment (c_n C) (Some c) a).
  { rewrite (rp_theta _ _ _ _ Rp r t Hr2 Ht), Ecl. unfold theta_of. rewrite !moment_agg, Ma, Mb. field. exact Hm. }
  split; [exact Et|]. intros k (Cm1 & Cm2) Hk. destruct (rp_se _ _ _ _ Rp r t Hr2 Ht) as (s2 & V & ->). rewrite Ecl in V.
  pose proof (cluster_formula (c_n C) (psi_of C (Some c) (out r t)) (no_a (out r t)) c k Hcv Hl Cm1 Cm2 Hk) as Cf. cbv zeta in Cf. rewrite Cf in V. apply ok_inj, (f_equal fst) in V. cbn [fst] in V. rewrite <- V, Ma.
  f_equal. f_equal; [f_equal; f_equal; unfold Rdiv; ring|]. do 2 f_equal. apply map_ext. intro x. apply cell_rows. intros i Hi. unfold psi_of.
  assert (Et2 : theta_of C (Some c) (out r t) = at_ (fw_all_thetas F) [t; r]) by (rewrite (rp_theta _ _ _ _ Rp r t Hr2 Ht), Ecl; reflexivity). rewrite Et2. destruct (Sc i Hi) as (-> & ->). ring.
Qed.

Ltac startc C H Hw HL :=
  let Q := fresh "Q" in pose proof (fun a b => fit_rep L f g mc C _ _ _ _ _ _ a b Hw HL H) as Q;
  destruct Q as (F & sm & out & Fd & Rp & K); [try discriminate; try assumption|cbn; congruence|];
  exists F, sm; split; [exact Fd|].

Lemma clustered_plr_fit cv n dcols bin x y d w nj store ext smod w' : let C := clustered cv (plr_ctx L mc n dcols false bin x y d) in
  (0 < n)%nat -> dcols <> [] -> cv <> [] -> soundly_reached C w -> sound_learning L f g mc w ->
  Labels w n "ml_l" y everyone -> (forall t, Labels w n "ml_m" (d t) everyone) ->
  fit C nj store ext smod w = (w', Ok tt) ->
  exists F sm, fit_done w w' F sm (length dcols) /\
    forall r t fs col, nth_error sm r = Some fs -> nth_error dcols t = Some col -> exists l m c,
      Used w n ext r t col "ml_l" "ml_l" (x t) y whole_train fs l /\
      Used w n ext r t col "ml_m" "ml_m" (x t) (d t) whole_train fs m /\ clusters_of w cv r fs c /\
      (moment n (Some c) (fun i => (d t i - m i) ^ 2) <> 0 ->
       clustered_estimate_is F n t r c (fun i => (d t i - m i) ^ 2) (fun i => (d t i - m i) * (y i - l i))).
Proof.
  intros C Hn Hd Hcv Hw HL Hl Hm H. startc C H Hw HL. assert (Es : m_smpls (w_obj w) = Some sm) by apply Fd. intros r t fs col Hr Ht.
  destruct (K r t fs col Hr Ht) as (Hr' & Ht' & e & M & S & N). cbn [C clustered plr_ctx c_nuis c_n] in N, S.
  edestruct (plr_partialling_out L f g) as (l & m & N1 & N2 & _ & _ & Sc); [exact S|lab Hl Es Hr|lab (Hm t) Es Hr|exact N|].
  destruct (cluster_estimate C cv w out F sm r t fs (fun i => (d t i - m i) ^ 2) (fun i => (d t i - m i) * (y i - l i)) eq_refl Hcv Hw Rp Es Hr Hr' Ht' (st_part _ _ _ _ _ S)) as (c & Cl & Q); [exact Sc|].
  exists l, m, c. split; [used M N1|]. split; [used M N2|]. split; [exact Cl|exact Q].
Qed.
Lemma clustered_pliv_fit cv n dcols x y d z w nj store ext smod w' : let C := clustered cv (pliv_ctx L mc n dcols false x y d z) in
  (0 < n)%nat -> dcols <> [] -> cv <> [] -> soundly_reached C w -> sound_learning L f g mc w ->
  Labels w n "ml_l" y everyone -> Labels w n "ml_m" z everyone -> (forall t, Labels w n "ml_r" (d t) everyone) ->
  fit C nj store ext smod w = (w', Ok tt) ->
  exists F sm, fit_done w w' F sm (length dcols) /\
    forall r t fs col, nth_error sm r = Some fs -> nth_error dcols t = Some col -> exists l m q c,
      Used w n ext r t col "ml_l" "ml_l" (x t) y whole_train fs l /\ Used w n ext r t col "ml_m" "ml_m" (x t) z whole_train fs m /\
      Used w n ext r t col "ml_r" "ml_r" (x t) (d t) whole_train fs q /\ clusters_of w cv r fs c /\
      (moment n (Some c) (fun i => (z i - m i) * (d t i - q i)) <> 0 ->
       clustered_estimate_is F n t r c (fun i => (z i - m i) * (d t i - q i)) (fun i => (z i - m i) * (y i - l i))).
Proof.
  intros C Hn Hd Hcv Hw HL Hl Hm Hq H. startc C H Hw HL. assert (Es : m_smpls (w_obj w) = Some sm) by apply Fd. intros r t fs col Hr Ht.
  destruct (K r t fs col Hr Ht) as (Hr' & Ht' & e & M & S & N). cbn [C clustered pliv_ctx c_nuis c_n] in N, S.
  edestruct (pliv_partialling_out L f g) as (l & m & q & N1 & N2 & N3 & _ & _ & _ & Sc); [exact S|lab Hl Es Hr|lab Hm Es Hr|lab (Hq t) Es Hr|exact N|].
  destruct (cluster_estimate C cv w out F sm r t fs (fun i => (z i - m i) * (d t i - q i)) (fun i => (z i - m i) * (y i - l i)) eq_refl Hcv Hw Rp Es Hr Hr' Ht' (st_part _ _ _ _ _ S)) as (c & Cl & Q);
    [intros i Hi; destruct (Sc i Hi) as (-> & ->); split; [cbv beta; ring|reflexivity]|].
  exists l, m, q, c. split; [used M N1|]. split; [used M N2|]. split; [used M N3|]. split; [exact Cl|exact Q].
Qed.
End Fit.

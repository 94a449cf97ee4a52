(** Complete fits of the model classes. *)
From Verif Require Export S_Classes L_NuisFit L_NuisNested L_Weights L_ClusterVar.
From Coq Require Import Lia Lra FunctionalExtensionality.
Local Open Scope R_scope.
Local Open Scope res_scope.
Local Open Scope string_scope.

Section Fit.
Context {E P : Type}.
Variable L : learner E row P.
Variables (f : E -> row -> R) (g : E -> row -> list R).
Variable mc : machinery E P.
Notation Used := (used_prediction L f g mc).
Notation Labels := (labels_everywhere L g mc).

Lemma fit_rep (C : ctx P) w nj store ext smod w' : c_dcols C <> [] -> c_cluster C <> Some [] -> soundly_reached C w -> sound_learning L f g mc w ->
  fit C nj store ext smod w = (w', Ok tt) ->
  exists F sm out, fit_done w w' F sm (length (c_dcols C)) /\ reports C w out F /\
    forall r t fs col, nth_error sm r = Some fs -> nth_error (c_dcols C) t = Some col ->
      (r < fw_n_rep F)%nat /\ (t < fw_n_thetas F)%nat /\ exists e, ext_matches C ext col r e /\
        setting L f g (setup_of mc (c_n C) r t (fun l => nth r (m_params (w_obj w) l col) None) e) fs /\
        c_nuis C r t fs (fun l => nth r (m_params (w_obj w) l col) None) e = Ok (out r t).
Proof.
  intros Hd Hc Hw HL H. destruct (fit_reports C w nj store ext smod w' Hd (reached_reachable C w Hw) H) as (out & F & (sm & Es & Ls & Nr) & Cf & Rp & _).
  exists F, sm, out. assert (Er : fw_n_rep F = length sm) by (rewrite (rp_n_rep _ _ _ _ Rp); symmetry; exact Ls).
  split; [exact (conj Cf (conj (rp_wf _ _ _ _ Rp) (conj (rp_agg _ _ _ _ Rp) (conj Es (conj Er (rp_n_thetas _ _ _ _ Rp))))))|]. split; [exact Rp|].
  intros r t fs col Hr Ht. assert (Hr' : (r < length sm)%nat) by (apply nth_error_Some; congruence). assert (Ht' : (t < length (c_dcols C))%nat) by (apply nth_error_Some; congruence).
  split; [lia|]. split; [rewrite (rp_n_thetas _ _ _ _ Rp); exact Ht'|]. destruct (Nr r t col) as (e & M & N); [lia|exact Ht|]. rewrite (nth_error_nth _ _ _ Hr) in N.
  exists e. split; [exact M|]. split; [|exact N]. eapply rep_setting; eassumption.
Qed.
Lemma plain_estimate (C : ctx P) w out F r t (a b : vec) : (0 < c_n C)%nat -> c_cluster C = None -> reports C w out F -> (r < fw_n_rep F)%nat -> (t < fw_n_thetas F)%nat ->
  (forall i, (i < c_n C)%nat -> no_a (out r t) i = a i /\ no_b (out r t) i = b i) -> sumf (c_n C) a <> 0 ->
  let th := - sumf (c_n C) b / sumf (c_n C) a in estimate_is F (c_n C) t r th (fun i => a i * th + b i) (- sumf (c_n C) a).
Proof.
  intros Hn Ec Rp Hr Ht Sc Ha th. assert (Ea : sumf (c_n C) (no_a (out r t)) = sumf (c_n C) a) by (apply sumf_ext; intros i Hi; apply (Sc i Hi)).
  assert (Eb : sumf (c_n C) (no_b (out r t)) = sumf (c_n C) b) by (apply sumf_ext; intros i Hi; apply (Sc i Hi)).
  destruct (rep_results C w out F r t Hn Ec Rp Hr Ht) as (R1 & R2); [rewrite Ea; exact Ha|]. cbv zeta in R1, R2. rewrite Ea, Eb in R1, R2. fold th in R1, R2. split; [exact R1|]. rewrite R2, Rabs_Ropp. split.
  - do 2 f_equal. apply sumf_ext. intros i Hi. destruct (Sc i Hi) as (-> & ->). reflexivity.
  - intros i Hi. rewrite (rp_psi _ _ _ _ Rp r t i Hr Ht Hi). assert (Hz : INR (c_n C) <> 0) by (apply not_0_INR; lia). unfold psi_of. rewrite <- (rp_theta _ _ _ _ Rp r t Hr Ht), R1.
    destruct (Sc i Hi) as (-> & ->). unfold meanf. rewrite Ea. field. split; assumption.
Qed.
(** Scores whose derivatives are given up to a common factor. *)
Lemma estimate_eq F n t r th th' psi psi' J J' : estimate_is F n t r th psi J -> th = th' -> (forall i, (i < n)%nat -> psi i = psi' i) -> J = J' -> estimate_is F n t r th' psi' J'.
Proof.
  intros (A & B & D) <- Hp <-. split; [exact A|]. split; [|intros i Hi; rewrite <- Hp by exact Hi; exact (D i Hi)].
  rewrite B. do 2 f_equal. apply sumf_ext. intros i Hi. rewrite Hp by exact Hi. reflexivity.
Qed.
(** Ratio form: derivative -a, rest b. *)
Lemma ratio_estimate (C : ctx P) w out F r t (a b : vec) : (0 < c_n C)%nat -> c_cluster C = None -> reports C w out F -> (r < fw_n_rep F)%nat -> (t < fw_n_thetas F)%nat ->
  (forall i, (i < c_n C)%nat -> no_a (out r t) i = - a i /\ no_b (out r t) i = b i) -> sumf (c_n C) a <> 0 ->
  let th := sumf (c_n C) b / sumf (c_n C) a in estimate_is F (c_n C) t r th (fun i => b i - th * a i) (sumf (c_n C) a).
Proof.
  intros Hn Ec Rp Hr Ht Sc Ha th. assert (Ea : sumf (c_n C) (fun i => - a i) = - sumf (c_n C) a) by apply sumf_opp.
  pose proof (plain_estimate C w out F r t (fun i => - a i) b Hn Ec Rp Hr Ht Sc) as Q. cbv zeta in Q. rewrite Ea in Q.
  assert (Et : - sumf (c_n C) b / - sumf (c_n C) a = th) by (unfold th; field; exact Ha). rewrite Et in Q.
  eapply estimate_eq; [apply Q; lra|reflexivity|intros i _; cbv beta; ring|ring].
Qed.
End Fit.

Ltac start L f g mc C H Hw HL :=
  let Q := fresh "Q" in pose proof (fun a b => fit_rep L f g mc C _ _ _ _ _ _ a b Hw HL H) as Q;
  destruct Q as (F & sm & out & Fd & Rp & K); [try discriminate; try assumption|discriminate|];
  exists F, sm; split; [exact Fd|].
Ltac used M N := eapply rep_used; [apply M; cbn; tauto|exact N].

Section Classes.
Context {E P : Type}.
Variable L : learner E row P.
Variables (f : E -> row -> R) (g : E -> row -> list R).
Variable mc : machinery E P.
Notation Used := (used_prediction L f g mc).
Notation Labels := (labels_everywhere L g mc).

Lemma plr_iv_fit n dcols bin x y d w nj store ext smod w' : let C := plr_ctx L mc n dcols true bin x y d in
  (0 < n)%nat -> dcols <> [] -> soundly_reached C w -> sound_learning L f g mc w ->
  Labels w n "ml_l" y everyone -> (forall t, Labels w n "ml_m" (d t) everyone) -> mc_proba mc "ml_g" = false ->
  fit C nj store ext smod w = (w', Ok tt) ->
  exists F sm, fit_done w w' F sm (length dcols) /\
    forall r t fs col, nth_error sm r = Some fs -> nth_error dcols t = Some col -> exists m gg,
      Used w n ext r t col "ml_m" "ml_m" (x t) (d t) whole_train fs m /\
      (exists v, Used w n ext r t col "ml_g" "ml_g" (x t) v whole_train fs gg /\
         ((forall e, ~ supplied ext col "ml_g" r e) -> exists l th, Used w n ext r t col "ml_l" "ml_l" (x t) y whole_train fs l /\ v = (fun i => y i - th * d t i) /\
           (sumf n (fun i => (d t i - m i) ^ 2) <> 0 -> th = sumf n (fun i => (d t i - m i) * (y i - l i)) / sumf n (fun i => (d t i - m i) ^ 2)))) /\
      (sumf n (fun i => (d t i - m i) * d t i) <> 0 ->
       let theta := sumf n (fun i => (d t i - m i) * (y i - gg i)) / sumf n (fun i => (d t i - m i) * d t i) in
       estimate_is F n t r theta (fun i => (d t i - m i) * (y i - gg i - theta * d t i)) (sumf n (fun i => (d t i - m i) * d t i))).
Proof.
  intros C Hn Hd Hw HL Hl Hm Hg H. start L f g mc C H Hw HL. assert (Es : m_smpls (w_obj w) = Some sm) by apply Fd. intros r t fs col Hr Ht.
  destruct (K r t fs col Hr Ht) as (Hr' & Ht' & e & M & S & N). cbn [C plr_ctx c_nuis c_n] in N, S.
  edestruct (plr_iv_type L f g) as (m & gg & N1 & _ & _ & Ng & Sc); [exact S|intros _; eapply rep_labels; [exact Hl|exact Es|exact Hr]|intros _; eapply rep_labels; [exact (Hm t)|exact Es|exact Hr]|intros v _ Z; cbn [setup_of su_proba] in Z; congruence|exact N|].
  exists m, gg. split; [used M N1|]. split.
  - assert (Mg : match e "ml_g" with Some v => supplied ext col "ml_g" r v | None => forall v, ~ supplied ext col "ml_g" r v end) by (apply M; cbn; tauto).
    cbn [setup_of su_ext] in Ng. destruct (e "ml_g") as [u|] eqn:Eg.
    + exists y. split; [|intro X; exfalso; exact (X _ Mg)]. eapply (rep_used L f g mc) with (e := e); [rewrite Eg; exact Mg|]. unfold nuisance. cbn [setup_of su_ext]. rewrite Eg. exact Ng.
    + destruct Ng as (l & th & Nl & _ & Sl & Cr). exists (fun i => y i - th * d t i). split.
      * eapply (rep_used L f g mc) with (e := e); [rewrite Eg; exact Mg|]. unfold nuisance. cbn [setup_of su_ext]. rewrite Eg. exact Cr.
      * intros _. exists l, th. split; [used M Nl|]. split; [reflexivity|]. unfold slope_of in Sl. cbn [setup_of su_n] in Sl. intro Hs.
        assert (Es2 : sumf n (fun i => (d t i - m i) * (d t i - m i)) = sumf n (fun i => (d t i - m i) ^ 2)) by (apply sumf_ext; intros; ring). rewrite Es2 in Sl.
        rewrite <- (Sl Hs). field. exact Hs.
  - intros Hs theta. eapply estimate_eq; [apply (ratio_estimate C w out F r t (fun i => (d t i - m i) * d t i) (fun i => (d t i - m i) * (y i - gg i)) Hn eq_refl Rp Hr' Ht')|reflexivity| |reflexivity].
    + exact Sc.
    + exact Hs.
    + intros i _. cbv beta zeta. cbn [C c_n plr_ctx pliv_ctx]. fold theta. ring.
Qed.

Lemma pliv_fit n dcols x y d z w nj store ext smod w' : let C := pliv_ctx L mc n dcols false x y d z in
  (0 < n)%nat -> dcols <> [] -> soundly_reached C w -> sound_learning L f g mc w ->
  Labels w n "ml_l" y everyone -> Labels w n "ml_m" z everyone -> (forall t, Labels w n "ml_r" (d t) everyone) ->
  fit C nj store ext smod w = (w', Ok tt) ->
  exists F sm, fit_done w w' F sm (length dcols) /\
    forall r t fs col, nth_error sm r = Some fs -> nth_error dcols t = Some col -> exists l m q,
      Used w n ext r t col "ml_l" "ml_l" (x t) y whole_train fs l /\ Used w n ext r t col "ml_m" "ml_m" (x t) z whole_train fs m /\
      Used w n ext r t col "ml_r" "ml_r" (x t) (d t) whole_train fs q /\
      (sumf n (fun i => (z i - m i) * (d t i - q i)) <> 0 ->
       let theta := sumf n (fun i => (z i - m i) * (y i - l i)) / sumf n (fun i => (z i - m i) * (d t i - q i)) in
       estimate_is F n t r theta (fun i => (z i - m i) * (y i - l i - theta * (d t i - q i))) (sumf n (fun i => (z i - m i) * (d t i - q i)))).
Proof.
  intros C Hn Hd Hw HL Hl Hm Hq H. start L f g mc C H Hw HL. assert (Es : m_smpls (w_obj w) = Some sm) by apply Fd. intros r t fs col Hr Ht.
  destruct (K r t fs col Hr Ht) as (Hr' & Ht' & e & M & S & N). cbn [C pliv_ctx c_nuis c_n] in N, S.
  edestruct (pliv_partialling_out L f g) as (l & m & q & N1 & N2 & N3 & _ & _ & _ & Sc); [exact S|intros _; eapply rep_labels; [exact Hl|exact Es|exact Hr]|intros _; eapply rep_labels; [exact Hm|exact Es|exact Hr]|intros _; eapply rep_labels; [exact (Hq t)|exact Es|exact Hr]|exact N|].
  exists l, m, q. split; [used M N1|]. split; [used M N2|]. split; [used M N3|]. intros Hs theta.
  eapply estimate_eq; [apply (ratio_estimate C w out F r t (fun i => (z i - m i) * (d t i - q i)) (fun i => (z i - m i) * (y i - l i)) Hn eq_refl Rp Hr' Ht')|reflexivity| |reflexivity].
  - intros i Hi. destruct (Sc i Hi) as (-> & ->). split; [ring|reflexivity].
  - exact Hs.
  - intros i _. cbv beta zeta. cbn [C c_n plr_ctx pliv_ctx]. fold theta. ring.
Qed.
End Classes.

(** Complete fits of the remaining model classes with clustered data. *)
From Verif Require Export L_ClassCluster L_ClassDid.
From Coq Require Import Lia Lra FunctionalExtensionality.
Local Open Scope R_scope.
Local Open Scope res_scope.
Local Open Scope string_scope.

Section Fit.
Context {E P : Type}.
Variable L : learner E row P.
Variables (f : E -> row -> R) (g : E -> row -> list R).
Variable mc : machinery E P.
Notation Used := (used_prediction L f g mc).
Notation Labels := (labels_everywhere L g mc).
Notation Own w n r t col := (setup_of mc n r t (fun l => nth r (m_params (w_obj w) l col) None) (fun _ => None)).
Ltac startc C H Hw HL :=
  let Q := fresh "Q" in pose proof (fun a b => fit_rep L f g mc C _ _ _ _ _ _ a b Hw HL H) as Q;
  destruct Q as (F & sm & out & Fd & Rp & K); [try discriminate; try assumption|cbn; congruence|];
  exists F, sm; split; [exact Fd|].

Lemma clustered_plr_iv_fit cv n dcols bin x y d w nj store ext smod w' : let C := clustered cv (plr_ctx L mc n dcols true bin x y d) in
  (0 < n)%nat -> cv <> [] -> dcols <> [] -> soundly_reached C w -> sound_learning L f g mc w ->
  Labels w n "ml_l" y everyone -> (forall t, Labels w n "ml_m" (d t) everyone) -> mc_proba mc "ml_g" = false ->
  fit C nj store ext smod w = (w', Ok tt) ->
  exists F sm, fit_done w w' F sm (length dcols) /\
    forall r t fs col, nth_error sm r = Some fs -> nth_error dcols t = Some col -> exists m gg,
      Used w n ext r t col "ml_m" "ml_m" (x t) (d t) whole_train fs m /\
      (exists v, Used w n ext r t col "ml_g" "ml_g" (x t) v whole_train fs gg /\
         ((forall e, ~ supplied ext col "ml_g" r e) -> exists l th, Used w n ext r t col "ml_l" "ml_l" (x t) y whole_train fs l /\ v = (fun i => y i - th * d t i) /\
           (sumf n (fun i => (d t i - m i) ^ 2) <> 0 -> th = sumf n (fun i => (d t i - m i) * (y i - l i)) / sumf n (fun i => (d t i - m i) ^ 2)))) /\
      exists c, clusters_of w cv r fs c /\ (moment n (Some c) (fun i => (d t i - m i) * d t i) <> 0 -> clustered_estimate_is F n t r c (fun i => (d t i - m i) * d t i) (fun i => (d t i - m i) * (y i - gg i))).
Proof.
  intros C Hn Hcv Hd Hw HL Hl Hm Hg H. startc C H Hw HL. assert (Es : m_smpls (w_obj w) = Some sm) by apply Fd. intros r t fs col Hr Ht.
  destruct (K r t fs col Hr Ht) as (Hr' & Ht' & e & M & S & N). cbn [C clustered plr_ctx c_nuis c_n] in N, S.
  edestruct (plr_iv_type L f g) as (m & gg & N1 & _ & _ & Ng & Sc); [exact S|intros _; eapply rep_labels; [exact Hl|exact Es|exact Hr]|intros _; eapply rep_labels; [exact (Hm t)|exact Es|exact Hr]|intros v _ Z; cbn [setup_of su_proba] in Z; congruence|exact N|].
  exists m, gg. split; [used M N1|]. split.
  - assert (Mg : match e "ml_g" with Some v => supplied ext col "ml_g" r v | None => forall v, ~ supplied ext col "ml_g" r v end) by (apply M; cbn; tauto).
    cbn [setup_of su_ext] in Ng. destruct (e "ml_g") as [u|] eqn:Eg.
    + exists y. split; [|intro X; exfalso; exact (X _ Mg)]. eapply (rep_used L f g mc) with (e := e); [rewrite Eg; exact Mg|]. unfold nuisance. cbn [setup_of su_ext]. rewrite Eg. exact Ng.
    + destruct Ng as (l & th & Nl & _ & Sl & Cr). exists (fun i => y i - th * d t i). split.
      * eapply (rep_used L f g mc) with (e := e); [rewrite Eg; exact Mg|]. unfold nuisance. cbn [setup_of su_ext]. rewrite Eg. exact Cr.
      * intros _. exists l, th. split; [used M Nl|]. split; [reflexivity|]. unfold slope_of in Sl. cbn [setup_of su_n] in Sl. intro Hs.
        assert (Es2 : sumf n (fun i => (d t i - m i) * (d t i - m i)) = sumf n (fun i => (d t i - m i) ^ 2)) by (apply sumf_ext; intros; ring). rewrite Es2 in Sl.
        rewrite <- (Sl Hs). field. exact Hs.
  - destruct (cluster_estimate C cv w out F sm r t fs (fun i => (d t i - m i) * d t i) (fun i => (d t i - m i) * (y i - gg i)) eq_refl Hcv Hw Rp Es Hr Hr' Ht' (st_part _ _ _ _ _ S)) as (c & Cl & Q); [exact Sc|exists c; split; [exact Cl|exact Q]].
Qed.
Lemma clustered_pliv_iv_fit cv n dcols x y d z w nj store ext smod w' : let C := clustered cv (pliv_ctx L mc n dcols true x y d z) in
  (0 < n)%nat -> cv <> [] -> dcols <> [] -> soundly_reached C w -> sound_learning L f g mc w ->
  Labels w n "ml_l" y everyone -> Labels w n "ml_m" z everyone -> (forall t, Labels w n "ml_r" (d t) everyone) -> mc_proba mc "ml_g" = false ->
  fit C nj store ext smod w = (w', Ok tt) ->
  exists F sm, fit_done w w' F sm (length dcols) /\
    forall r t fs col, nth_error sm r = Some fs -> nth_error dcols t = Some col -> exists l m q gg th,
      Used w n ext r t col "ml_l" "ml_l" (x t) y whole_train fs l /\ Used w n ext r t col "ml_m" "ml_m" (x t) z whole_train fs m /\
      Used w n ext r t col "ml_r" "ml_r" (x t) (d t) whole_train fs q /\ Used w n ext r t col "ml_g" "ml_g" (x t) (fun i => y i - th * d t i) whole_train fs gg /\
      (sumf n (fun i => (z i - m i) * (d t i - q i)) <> 0 -> th = sumf n (fun i => (z i - m i) * (y i - l i)) / sumf n (fun i => (z i - m i) * (d t i - q i))) /\
      exists c, clusters_of w cv r fs c /\ (moment n (Some c) (fun i => (z i - m i) * d t i) <> 0 -> clustered_estimate_is F n t r c (fun i => (z i - m i) * d t i) (fun i => (z i - m i) * (y i - gg i))).
Proof.
  intros C Hn Hcv Hd Hw HL Hl Hm Hq Hg H. startc C H Hw HL. assert (Es : m_smpls (w_obj w) = Some sm) by apply Fd. intros r t fs col Hr Ht.
  destruct (K r t fs col Hr Ht) as (Hr' & Ht' & e & M & S & N). cbn [C clustered pliv_ctx c_nuis c_n] in N, S.
  edestruct (pliv_iv_type L f g) as (l & m & q & gg & th & N1 & N2 & N3 & Sl & N4 & _ & _ & _ & _ & Sc); [exact S|lab Hl Es Hr|lab Hm Es Hr|lab (Hq t) Es Hr|intros v _ Z; cbn [setup_of su_proba] in Z; congruence|exact N|].
  exists l, m, q, gg, th. split; [used M N1|]. split; [used M N2|]. split; [used M N3|]. split; [used M N4|]. unfold slope_of in Sl. cbn [setup_of su_n] in Sl.
  split; [intro Hs; rewrite <- (Sl Hs); field; exact Hs|]. destruct (cluster_estimate C cv w out F sm r t fs (fun i => (z i - m i) * d t i) (fun i => (z i - m i) * (y i - gg i)) eq_refl Hcv Hw Rp Es Hr Hr' Ht' (st_part _ _ _ _ _ S)) as (c & Cl & Q); [exact Sc|exists c; split; [exact Cl|exact Q]].
Qed.
Lemma clustered_pliv_several_fit cv proj n dcols x y d zs w nj store ext smod w' : let C := clustered cv (pliv_several_ctx L mc n proj dcols x y d zs) in
  (0 < n)%nat -> cv <> [] -> dcols <> [] -> NoDup (map fst zs) -> soundly_reached C w -> sound_learning L f g mc w ->
  Labels w n "ml_l" y everyone -> (forall name z, In (name, z) zs -> Labels w n "ml_m" z everyone) -> (forall t, Labels w n "ml_r" (d t) everyone) ->
  fit C nj store ext smod w = (w', Ok tt) ->
  exists F sm, fit_done w w' F sm (length dcols) /\
    forall r t fs col, nth_error sm r = Some fs -> nth_error dcols t = Some col -> exists l q (mf : string -> vec),
      Used w n ext r t col "ml_l" "ml_l" (x t) y whole_train fs l /\ Used w n ext r t col "ml_r" "ml_r" (x t) (d t) whole_train fs q /\
      (forall name z, In (name, z) zs -> Used w n ext r t col ("ml_m_" ++ name)%string "ml_m" (x t) z whole_train fs (mf name)) /\
      let v := fun i => map (fun p : string * vec => snd p i - mf (fst p) i) zs in
      let hat := fun i => proj (map (fun j => (v j, d t j - q j)) (seq 0 n)) (v i) in
      exists c, clusters_of w cv r fs c /\ (moment n (Some c) (fun i => hat i * (d t i - q i)) <> 0 -> clustered_estimate_is F n t r c (fun i => hat i * (d t i - q i)) (fun i => hat i * (y i - l i))).
Proof.
  intros C Hn Hcv Hd Nd Hw HL Hl Hm Hq H. startc C H Hw HL. assert (Es : m_smpls (w_obj w) = Some sm) by apply Fd. intros r t fs col Hr Ht.
  destruct (K r t fs col Hr Ht) as (Hr' & Ht' & e & M & S & N). cbn [C clustered pliv_several_ctx c_nuis c_n] in N, S.
  edestruct (pliv_several L f g) as (l & q & mf & N1 & N2 & _ & _ & N3 & Sc); [exact S|exact Nd|lab Hl Es Hr|intros name z Hz; lab (Hm name z Hz) Es Hr|lab (Hq t) Es Hr|exact N|].
  exists l, q, mf. split; [used M N1|]. split; [used M N2|]. split.
  { intros name z Hz. eapply rep_used; [|exact (proj1 (N3 name z Hz))]. apply M. cbn. right. right. apply (in_map (fun p => ("ml_m_" ++ fst p)%string) zs (name, z) Hz). }
  intros v hat. destruct (cluster_estimate C cv w out F sm r t fs (fun i => hat i * (d t i - q i)) (fun i => hat i * (y i - l i)) eq_refl Hcv Hw Rp Es Hr Hr' Ht' (st_part _ _ _ _ _ S)) as (c & Cl & Q);
  [intros i Hi; destruct (Sc i Hi) as (-> & ->); split; [|reflexivity]; transitivity (- ((d t i - q i) * hat i)); [reflexivity|ring]|exists c; split; [exact Cl|exact Q]].
Qed.
Lemma clustered_pliv_z_fit cv n dcols x zrow y d w nj store ext smod w' : let C := clustered cv (pliv_z_ctx L mc n dcols x zrow y d) in
  (0 < n)%nat -> cv <> [] -> dcols <> [] -> soundly_reached C w -> sound_learning L f g mc w -> (forall t, Labels w n "ml_r" (d t) everyone) ->
  fit C nj store ext smod w = (w', Ok tt) ->
  exists F sm, fit_done w w' F sm (length dcols) /\
    forall r t fs col, nth_error sm r = Some fs -> nth_error dcols t = Some col -> exists q,
      cross_fitted L f g (Own w n r t col) "ml_r" "ml_r" (fun i => x t i ++ zrow i)%list (d t) whole_train fs q /\
      exists c, clusters_of w cv r fs c /\ (moment n (Some c) (fun i => q i * d t i) <> 0 -> clustered_estimate_is F n t r c (fun i => q i * d t i) (fun i => q i * y i)).
Proof.
  intros C Hn Hcv Hd Hw HL Hq H. startc C H Hw HL. assert (Es : m_smpls (w_obj w) = Some sm) by apply Fd. intros r t fs col Hr Ht.
  destruct (K r t fs col Hr Ht) as (Hr' & Ht' & e & M & S & N). cbn [C clustered pliv_z_ctx c_nuis c_n] in N, S.
  edestruct (pliv_z L f g) as (q & N1 & _ & Sc); [exact S|lab' (Hq t) Es Hr|exact N|].
  exists q. split; [exact N1|]. destruct (cluster_estimate C cv w out F sm r t fs (fun i => q i * d t i) (fun i => q i * y i) eq_refl Hcv Hw Rp Es Hr Hr' Ht' (st_part _ _ _ _ _ S)) as (c & Cl & Q); [exact Sc|exists c; split; [exact Cl|exact Q]].
Qed.
Lemma clustered_pliv_xz_fit cv n dcols x zrow y d w nj store ext smod w' : let C := clustered cv (pliv_xz_ctx L mc n dcols x zrow y d) in
  (0 < n)%nat -> cv <> [] -> dcols <> [] -> soundly_reached C w -> sound_learning L f g mc w -> Labels w n "ml_l" y everyone ->
  fit C nj store ext smod w = (w', Ok tt) ->
  exists F sm, fit_done w w' F sm (length dcols) /\
    forall r t fs col, nth_error sm r = Some fs -> nth_error dcols t = Some col -> exists l m mt,
      cross_fitted L f g (Own w n r t col) "ml_l" "ml_l" (x t) y whole_train fs l /\
      projected L f (Own w n r t col) (x t) (fun i => x t i ++ zrow i)%list (d t) fs m mt /\
      exists c, clusters_of w cv r fs c /\ (moment n (Some c) (fun i => (m i - mt i) * (d t i - mt i)) <> 0 -> clustered_estimate_is F n t r c (fun i => (m i - mt i) * (d t i - mt i)) (fun i => (m i - mt i) * (y i - l i))).
Proof.
  intros C Hn Hcv Hd Hw HL Hl H. startc C H Hw HL. assert (Es : m_smpls (w_obj w) = Some sm) by apply Fd. intros r t fs col Hr Ht.
  destruct (K r t fs col Hr Ht) as (Hr' & Ht' & e & M & S & N). cbn [C clustered pliv_xz_ctx c_nuis c_n] in N, S.
  edestruct (pliv_xz L f g) as (l & m & mt & N1 & N2 & _ & _ & _ & Sc); [exact S|lab' Hl Es Hr|exact N|].
  exists l, m, mt. split; [exact N1|]. split; [exact N2|]. destruct (cluster_estimate C cv w out F sm r t fs (fun i => (m i - mt i) * (d t i - mt i)) (fun i => (m i - mt i) * (y i - l i)) eq_refl Hcv Hw Rp Es Hr Hr' Ht' (st_part _ _ _ _ _ S)) as (c & Cl & Q); [intros i Hi; destruct (Sc i Hi) as (-> & ->); split; [ring|reflexivity]|exists c; split; [exact Cl|exact Q]].
Qed.
Lemma clustered_irm_ate_fit cv n dcol norm bo tr thr wa nr x y d strata w nj store ext smod w' : let C := clustered cv (irm_ctx L mc n dcol false norm bo tr thr (weights_of wa) x y d strata) in
  (0 < n)%nat -> cv <> [] -> check_weights wa ScATE n nr = Ok tt -> soundly_reached C w -> sound_learning L f g mc w ->
  Labels w n "ml_g" y (fun j => d j = 0) -> Labels w n "ml_g" y (fun j => d j = 1) -> Labels w n "ml_m" d everyone ->
  fit C nj store ext smod w = (w', Ok tt) ->
  exists F sm, fit_done w w' F sm 1 /\ forall r fs, nth_error sm r = Some fs -> (r < nr)%nat -> exists g0 g1 m0 m,
      Used w n ext r 0 dcol "ml_g0" "ml_g" x y (group_rows n (fun j => d j = 0)) fs g0 /\
      Used w n ext r 0 dcol "ml_g1" "ml_g" x y (group_rows n (fun j => d j = 1)) fs g1 /\
      Used w n ext r 0 dcol "ml_m" "ml_m" x d whole_train fs m0 /\ clipped n tr thr m0 m /\
      let W := weights_of wa r in
      let ma := ps_adjust n m d norm in
      let s := fun i => wg W i * (g1 i - g0 i) + resid_weights W i * (d i * (y i - g1 i) / ma i - (1 - d i) * (y i - g0 i) / (1 - ma i)) in
      (off_bounds n ma -> exists c, clusters_of w cv r fs c /\ (moment n (Some c) (fun i => wg W i / meanf n (wg W)) <> 0 -> clustered_estimate_is F n 0 r c (fun i => wg W i / meanf n (wg W)) (s))).
Proof.
  intros C Hn Hcv Ha Hw HL H0 H1 Hm H. startc C H Hw HL. assert (Es : m_smpls (w_obj w) = Some sm) by apply Fd. intros r fs Hr _.
  destruct (K r 0%nat fs dcol Hr eq_refl) as (Hr' & Ht' & e & M & S & N). cbn [C clustered irm_ctx c_nuis c_n] in N, S.
  edestruct (irm_spec L f g) as (g0 & g1 & m0 & m & N1 & N2 & N3 & Tm & _ & _ & _ & Sc); [exact S|lab H0 Es Hr|lab H1 Es Hr|lab Hm Es Hr|exact N|].
  exists g0, g1, m0, m. split; [used M N1|]. split; [used M N2|]. split; [used M N3|]. split; [exact Tm|]. intros W ma s _. cbn [setup_of su_n] in Sc. destruct Sc as (Sa & Sb).
  destruct (cluster_estimate C cv w out F sm r 0 fs (fun i => wg W i / meanf n (wg W)) s eq_refl Hcv Hw Rp Es Hr Hr' Ht' (st_part _ _ _ _ _ S)) as (c & Cl & Q); [|exists c; split; [exact Cl|exact Q]].
  intros i _. rewrite Sa, Sb. split; [unfold irm_score, irm_weights; cbn; fold W; ring|reflexivity].
Qed.
Lemma clustered_irm_atte_fit cv n dcol norm bo tr thr w_ x y d strata w nj store ext smod w' : let C := clustered cv (irm_ctx L mc n dcol true norm bo tr thr w_ x y d strata) in
  (0 < n)%nat -> cv <> [] -> binary n d -> soundly_reached C w -> sound_learning L f g mc w ->
  Labels w n "ml_g" y (fun j => d j = 0) -> Labels w n "ml_g" y (fun j => d j = 1) -> Labels w n "ml_m" d everyone ->
  fit C nj store ext smod w = (w', Ok tt) ->
  exists F sm, fit_done w w' F sm 1 /\ forall r fs, nth_error sm r = Some fs -> exists g0 g1 m0 m,
      Used w n ext r 0 dcol "ml_g0" "ml_g" x y (group_rows n (fun j => d j = 0)) fs g0 /\
      Used w n ext r 0 dcol "ml_g1" "ml_g" x y (group_rows n (fun j => d j = 1)) fs g1 /\
      Used w n ext r 0 dcol "ml_m" "ml_m" x d whole_train fs m0 /\ clipped n tr thr m0 m /\
      let ma := ps_adjust n m d norm in
      let W := wg (w_ r) in
      let s := fun i => W i * (d i * (y i - g0 i) - (1 - d i) * (ma i / (1 - ma i)) * (y i - g0 i)) in
      let p := meanf n (fun i => W i * d i) in
      (p <> 0 -> off_bounds n ma -> exists c, clusters_of w cv r fs c /\ (moment n (Some c) (fun i => W i * d i / p) <> 0 -> clustered_estimate_is F n 0 r c (fun i => W i * d i / p) (fun i => s i / p))).
Proof.
  intros C Hn Hcv B Hw HL H0 H1 Hm H. startc C H Hw HL. assert (Es : m_smpls (w_obj w) = Some sm) by apply Fd. intros r fs Hr.
  destruct (K r 0%nat fs dcol Hr eq_refl) as (Hr' & Ht' & e & M & S & N). cbn [C clustered irm_ctx c_nuis c_n] in N, S.
  edestruct (irm_spec L f g) as (g0 & g1 & m0 & m & N1 & N2 & N3 & Tm & _ & _ & _ & Sc); [exact S|lab H0 Es Hr|lab H1 Es Hr|lab Hm Es Hr|exact N|].
  exists g0, g1, m0, m. split; [used M N1|]. split; [used M N2|]. split; [used M N3|]. split; [exact Tm|]. intros ma W s p Hp Hma.
  cbn [setup_of su_n] in Sc. destruct Sc as (Sa & Sb).
  destruct (cluster_estimate C cv w out F sm r 0 fs (fun i => W i * d i / p) (fun i => s i / p) eq_refl Hcv Hw Rp Es Hr Hr' Ht' (st_part _ _ _ _ _ S)) as (c & Cl & Q); [|exists c; split; [exact Cl|exact Q]].
  intros i Hlt. rewrite Sa, Sb. unfold irm_score, irm_weights. cbn [fst snd el_a el_b]. fold ma W p. assert (Md : meanf n (fun j => W j * d j / p) = 1) by (apply (meanf_norm n (fun j => W j * d j) Hp)). rewrite Md. split; [field; exact Hp|].
  unfold s. destruct (Hma i Hlt) as (Hma1 & _). destruct (B i Hlt) as [Ed|Ed]; rewrite Ed in *.
  - unfold Rdiv. ring.
  - unfold Rdiv. replace ((1 - 1) * (y i - g0 i) * / (1 - ma i)) with 0 by ring. replace ((1 - 1) * (ma i * / (1 - ma i)) * (y i - g0 i)) with 0 by ring. field. split; assumption.
Qed.
Lemma clustered_apo_fit cv n dcol norm bo tr thr wa nr x y d lvl strata w nj store ext smod w' : let C := clustered cv (apo_ctx L mc n dcol norm bo tr thr (weights_of wa) x y d lvl strata) in
  (0 < n)%nat -> cv <> [] -> check_weights wa ScATE n nr = Ok tt -> soundly_reached C w -> sound_learning L f g mc w ->
  Labels w n "ml_g" y (fun j => lvl j = 0) -> Labels w n "ml_g" y (fun j => lvl j = 1) -> Labels w n "ml_m" lvl everyone ->
  fit C nj store ext smod w = (w', Ok tt) ->
  exists F sm, fit_done w w' F sm 1 /\ forall r fs, nth_error sm r = Some fs -> (r < nr)%nat -> exists g1 m0 m,
      Used w n ext r 0 dcol "ml_g_d_lvl1" "ml_g" x y (group_rows n (fun j => lvl j = 1)) fs g1 /\
      Used w n ext r 0 dcol "ml_m" "ml_m" x lvl whole_train fs m0 /\ clipped n tr thr m0 m /\
      let W := weights_of wa r in
      let s := fun i => wg W i * g1 i + resid_weights W i * (lvl i * (y i - g1 i) / ps_adjust n m lvl norm i) in
      ((forall i, (i < n)%nat -> ps_adjust n m lvl norm i <> 0) -> exists c, clusters_of w cv r fs c /\ (moment n (Some c) (fun i => wg W i / meanf n (wg W)) <> 0 -> clustered_estimate_is F n 0 r c (fun i => wg W i / meanf n (wg W)) (s))).
Proof.
  intros C Hn Hcv Ha Hw HL H0 H1 Hm H. startc C H Hw HL. assert (Es : m_smpls (w_obj w) = Some sm) by apply Fd. intros r fs Hr _.
  destruct (K r 0%nat fs dcol Hr eq_refl) as (Hr' & Ht' & e & M & S & N). cbn [C clustered apo_ctx c_nuis c_n] in N, S.
  edestruct (apo_spec L f g) as (g0 & g1 & m0 & m & N1 & N2 & N3 & Tm & _ & _ & _ & Sc); [exact S|lab H0 Es Hr|lab H1 Es Hr|lab Hm Es Hr|exact N|].
  exists g1, m0, m. split; [used M N2|]. split; [used M N3|]. split; [exact Tm|]. intros W s _. cbn [setup_of su_n] in Sc. destruct Sc as (Sa & Sb).
  destruct (cluster_estimate C cv w out F sm r 0 fs (fun i => wg W i / meanf n (wg W)) s eq_refl Hcv Hw Rp Es Hr Hr' Ht' (st_part _ _ _ _ _ S)) as (c & Cl & Q); [|exists c; split; [exact Cl|exact Q]].
  intros i _. rewrite Sa, Sb. split; [unfold apo_score, apo_weights; cbn; fold W; ring|reflexivity].
Qed.
Lemma clustered_iivm_fit cv n dcol norm bo at1 nt1 tr thr x y z d strata w nj store ext smod w' : let C := clustered cv (iivm_ctx L mc n dcol norm bo at1 nt1 tr thr x y z d strata) in
  (0 < n)%nat -> cv <> [] -> soundly_reached C w -> sound_learning L f g mc w ->
  (forall v, v = 0 \/ v = 1 -> Labels w n "ml_g" y (fun j => z j = v)) -> Labels w n "ml_m" z everyone -> (forall v, v = 0 /\ at1 = true \/ v = 1 /\ nt1 = true -> Labels w n "ml_r" d (fun j => z j = v)) ->
  fit C nj store ext smod w = (w', Ok tt) ->
  exists F sm, fit_done w w' F sm 1 /\ forall r fs, nth_error sm r = Some fs -> exists g0 g1 m0 m r0 r1,
      Used w n ext r 0 dcol "ml_g0" "ml_g" x y (group_rows n (fun j => z j = 0)) fs g0 /\
      Used w n ext r 0 dcol "ml_g1" "ml_g" x y (group_rows n (fun j => z j = 1)) fs g1 /\
      Used w n ext r 0 dcol "ml_m" "ml_m" x z whole_train fs m0 /\ clipped n tr thr m0 m /\
      (if at1 then Used w n ext r 0 dcol "ml_r0" "ml_r" x d (group_rows n (fun j => z j = 0)) fs r0 else forall i, (i < n)%nat -> r0 i = 0) /\
      (if nt1 then Used w n ext r 0 dcol "ml_r1" "ml_r" x d (group_rows n (fun j => z j = 1)) fs r1 else forall i, (i < n)%nat -> r1 i = 1) /\
      let ma := iivm_adjust n norm d m in
      let sy := dr_signal y z g0 g1 ma in
      let sd := dr_signal d z r0 r1 ma in
      (off_bounds n ma -> exists c, clusters_of w cv r fs c /\ (moment n (Some c) (sd) <> 0 -> clustered_estimate_is F n 0 r c (sd) (sy))).
Proof.
  intros C Hn Hcv Hw HL Hg Hm Hq H. startc C H Hw HL. assert (Es : m_smpls (w_obj w) = Some sm) by apply Fd. intros r fs Hr.
  destruct (K r 0%nat fs dcol Hr eq_refl) as (Hr' & Ht' & e & M & S & N). cbn [C clustered iivm_ctx c_nuis c_n] in N, S.
  edestruct (iivm_spec L f g) as (g0 & g1 & m0 & m & r0 & r1 & N1 & N2 & N3 & Tm & N4 & N5 & _ & _ & _ & _ & _ & Sc);
    [exact S|lab (Hg 0 (or_introl eq_refl)) Es Hr|lab (Hg 1 (or_intror eq_refl)) Es Hr|lab Hm Es Hr|intros Qa; lab (Hq 0 (or_introl (conj eq_refl Qa))) Es Hr|intros Qa; lab (Hq 1 (or_intror (conj eq_refl Qa))) Es Hr|exact N|].
  exists g0, g1, m0, m, r0, r1. split; [used M N1|]. split; [used M N2|]. split; [used M N3|]. split; [exact Tm|].
  split; [destruct at1; cbn [taker_fn] in N4; [used M N4|exact N4]|]. split; [destruct nt1; cbn [taker_fn] in N5; [used M N5|exact N5]|].
  intros ma sy sd _. cbn [setup_of su_n] in Sc. destruct Sc as (Sa & Sb).
  destruct (cluster_estimate C cv w out F sm r 0 fs sd sy eq_refl Hcv Hw Rp Es Hr Hr' Ht' (st_part _ _ _ _ _ S)) as (c & Cl & Q); [|exists c; split; [exact Cl|exact Q]].
  intros i _. rewrite Sa, Sb. unfold sy, sd, iivm_score, dr_signal, dr_level, compl. cbn [el_a el_b]. fold ma. split; unfold Rdiv; ring.
Qed.
Lemma clustered_did_obs_fit cv n dcol norm tr thr x y d strata w nj store ext smod w' : let C := clustered cv (did_ctx L mc n dcol true norm tr thr x y d strata) in
  (0 < n)%nat -> cv <> [] -> check_trimming tr (PFloat thr) = Ok tt -> soundly_reached C w -> sound_learning L f g mc w ->
  Labels w n "ml_g" y (fun j => d j = 0) -> Labels w n "ml_g" y (fun j => d j = 1) -> Labels w n "ml_m" d everyone ->
  fit C nj store ext smod w = (w', Ok tt) ->
  exists F sm, fit_done w w' F sm 1 /\ forall r fs, nth_error sm r = Some fs -> exists g0 m0 m p,
      Used w n ext r 0 dcol "ml_g0" "ml_g" x y (group_rows n (fun j => d j = 0)) fs g0 /\
      Used w n ext r 0 dcol "ml_m" "ml_m" x d whole_train fs m0 /\ clipped n tr thr m0 m /\ share_of fs d p /\
      let odds := fun i => (1 - d i) * (m i / (1 - m i)) in
      let a := share_weight n norm d p in
      let s := fun i => (a i - share_weight n norm odds p i) * (y i - g0 i) in
      (share_ok n norm d p -> share_ok n norm odds p -> exists c, clusters_of w cv r fs c /\ (moment n (Some c) (a) <> 0 -> clustered_estimate_is F n 0 r c (a) (s))).
Proof.
  intros C Hn Hcv Ck Hw HL H0 H1 Hm H. startc C H Hw HL. assert (Es : m_smpls (w_obj w) = Some sm) by apply Fd. intros r fs Hr.
  destruct (K r 0%nat fs dcol Hr eq_refl) as (Hr' & Ht' & e & M & S & N). cbn [C clustered did_ctx c_nuis c_n] in N, S.
  edestruct (did_obs L f g) as (g0 & g1 & m0 & m & p & N1 & _ & N2 & Tm & Sh & _ & _ & _ & Sc); [exact S|lab H0 Es Hr|lab H1 Es Hr|lab Hm Es Hr|exact N|].
  exists g0, m0, m, p. split; [used M N1|]. split; [used M N2|]. split; [exact Tm|]. split; [exact Sh|]. intros odds a s Ha Ho.
  cbn [setup_of su_n] in Sc. destruct Sc as (Sa & Sb). pose proof (clipped_inside n tr thr m0 m Ck Tm) as In.
  destruct (cluster_estimate C cv w out F sm r 0 fs a s eq_refl Hcv Hw Rp Es Hr Hr' Ht' (st_part _ _ _ _ _ S)) as (c & Cl & Q); [|exists c; split; [exact Cl|exact Q]].
  intros i Hi. rewrite Sa, Sb. specialize (In i Hi). unfold s, a, did_score, did_weights, share_weight, share_ok in *. destruct norm; cbn [el_a el_b].
  - unfold odds. split; ring.
  - specialize (Ha i Hi). unfold odds. split; [ring|]. field. split; [lra|assumption].
Qed.
Lemma clustered_did_exp_fit cv n dcol norm tr thr x y d strata w nj store ext smod w' : let C := clustered cv (did_ctx L mc n dcol false norm tr thr x y d strata) in
  (0 < n)%nat -> cv <> [] -> soundly_reached C w -> sound_learning L f g mc w ->
  Labels w n "ml_g" y (fun j => d j = 0) -> Labels w n "ml_g" y (fun j => d j = 1) ->
  fit C nj store ext smod w = (w', Ok tt) ->
  exists F sm, fit_done w w' F sm 1 /\ forall r fs, nth_error sm r = Some fs -> exists g0 g1 p,
      Used w n ext r 0 dcol "ml_g0" "ml_g" x y (group_rows n (fun j => d j = 0)) fs g0 /\
      Used w n ext r 0 dcol "ml_g1" "ml_g" x y (group_rows n (fun j => d j = 1)) fs g1 /\ share_of fs d p /\
      let a := share_weight n norm d p in
      let s := fun i => g1 i - g0 i + a i * (y i - g1 i) - share_weight n norm (compl d) (compl p) i * (y i - g0 i) in
      (share_ok n norm d p -> share_ok n norm (compl d) (compl p) -> exists c, clusters_of w cv r fs c /\ (moment n (Some c) (fun _ : nat => 1) <> 0 -> clustered_estimate_is F n 0 r c (fun _ : nat => 1) (s))).
Proof.
  intros C Hn Hcv Hw HL H0 H1 H. startc C H Hw HL. assert (Es : m_smpls (w_obj w) = Some sm) by apply Fd. intros r fs Hr.
  destruct (K r 0%nat fs dcol Hr eq_refl) as (Hr' & Ht' & e & M & S & N). cbn [C clustered did_ctx c_nuis c_n] in N, S.
  edestruct (did_exp L f g) as (g0 & g1 & p & N1 & N2 & Sh & _ & _ & Sc); [exact S|lab H0 Es Hr|lab H1 Es Hr|exact N|].
  exists g0, g1, p. split; [used M N1|]. split; [used M N2|]. split; [exact Sh|]. intros a s Ha Ho.
  cbn [setup_of su_n] in Sc. destruct (Sc (fun _ => 0)) as (Sa & Sb).
  destruct (cluster_estimate C cv w out F sm r 0 fs (fun _ : nat => 1) s eq_refl Hcv Hw Rp Es Hr Hr' Ht' (st_part _ _ _ _ _ S)) as (c & Cl & Q); [|exists c; split; [exact Cl|exact Q]].
  intros i Hi. rewrite Sa, Sb. unfold s, a, did_score, did_weights, share_weight, share_ok, compl in *. destruct norm; cbn [el_a el_b].
  - split; [ring|]. field. split; [exact Ho|exact Ha].
  - specialize (Ha i Hi). specialize (Ho i Hi). split; [ring|]. field. split; assumption.
Qed.
Lemma clustered_cs_obs_fit cv n dcol norm tr thr x y d t strata w nj store ext smod w' : let C := clustered cv (cs_ctx L mc n dcol true norm tr thr x y d t strata) in
  (0 < n)%nat -> cv <> [] -> check_trimming tr (PFloat thr) = Ok tt -> soundly_reached C w -> sound_learning L f g mc w ->
  (forall a b, (a = 0 \/ a = 1) -> (b = 0 \/ b = 1) -> Labels w n "ml_g" y (fun j => d j = a /\ t j = b)) -> Labels w n "ml_m" d everyone ->
  fit C nj store ext smod w = (w', Ok tt) ->
  exists F sm, fit_done w w' F sm 1 /\ forall r fs, nth_error sm r = Some fs -> exists g00 g01 g10 g11 m0 m p lam,
      Used w n ext r 0 dcol "ml_g_d0_t0" "ml_g" x y (group_rows n (fun j => d j = 0 /\ t j = 0)) fs g00 /\
      Used w n ext r 0 dcol "ml_g_d0_t1" "ml_g" x y (group_rows n (fun j => d j = 0 /\ t j = 1)) fs g01 /\
      Used w n ext r 0 dcol "ml_g_d1_t0" "ml_g" x y (group_rows n (fun j => d j = 1 /\ t j = 0)) fs g10 /\
      Used w n ext r 0 dcol "ml_g_d1_t1" "ml_g" x y (group_rows n (fun j => d j = 1 /\ t j = 1)) fs g11 /\
      Used w n ext r 0 dcol "ml_m" "ml_m" x d whole_train fs m0 /\ clipped n tr thr m0 m /\ share_of fs d p /\ share_of fs t lam /\
      let odds := fun i => m i / (1 - m i) in
      let d0t1 := fun i => (1 - d i) * t i * odds i in
      let d0t0 := fun i => (1 - d i) * (1 - t i) * odds i in
      let q1 := fun i => p i * lam i in let q0 := fun i => p i * (1 - lam i) in
      let a := share_weight n norm d p in
      let s := fun i => a i * (g11 i - g10 i - (g01 i - g00 i)) +
        share_weight n norm (both d t) q1 i * (y i - g11 i) - share_weight n norm (both d (compl t)) q0 i * (y i - g10 i) -
        (share_weight n norm d0t1 q1 i * (y i - g01 i) - share_weight n norm d0t0 q0 i * (y i - g00 i)) in
      (share_ok n norm d p -> share_ok n norm (both d t) q1 -> share_ok n norm (both d (compl t)) q0 -> share_ok n norm d0t1 q1 -> share_ok n norm d0t0 q0 -> exists c, clusters_of w cv r fs c /\ (moment n (Some c) (a) <> 0 -> clustered_estimate_is F n 0 r c (a) (s))).
Proof.
  intros C Hn Hcv Ck Hw HL Hg Hm H. startc C H Hw HL. assert (Es : m_smpls (w_obj w) = Some sm) by apply Fd. intros r fs Hr.
  destruct (K r 0%nat fs dcol Hr eq_refl) as (Hr' & Ht' & e & M & S & N). cbn [C clustered cs_ctx c_nuis c_n] in N, S.
  edestruct (cs_obs L f g) as (g00 & g01 & g10 & g11 & m0 & m & p & lam & Ng & N2 & Tm & _ & Sh & Sl & Sc); [exact S| |lab Hm Es Hr|exact N|].
  { intros a b name Hin. apply (rep_labels L g mc w sm r 0 fs n) with (t := 0%nat) (r := r); [|exact Es|exact Hr] || (intros _; eapply rep_labels; [apply Hg|exact Es|exact Hr]);
    destruct Hin as [X|[X|[X|[X|[]]]]]; injection X as <- <- <-; auto. }
  exists g00, g01, g10, g11, m0, m, p, lam.
  split; [eapply rep_used; [apply M; cbn; tauto|apply (Ng 0 0 "ml_g_d0_t0" g00); cbn; tauto]|]. split; [eapply rep_used; [apply M; cbn; tauto|apply (Ng 0 1 "ml_g_d0_t1" g01); cbn; tauto]|].
  split; [eapply rep_used; [apply M; cbn; tauto|apply (Ng 1 0 "ml_g_d1_t0" g10); cbn; tauto]|]. split; [eapply rep_used; [apply M; cbn; tauto|apply (Ng 1 1 "ml_g_d1_t1" g11); cbn; tauto]|].
  split; [used M N2|]. split; [exact Tm|]. split; [exact Sh|]. split; [exact Sl|]. intros odds d0t1 d0t0 q1 q0 a s A1 A2 A3 A4 A5.
  cbn [setup_of su_n] in Sc. destruct Sc as (Sa & Sb).
  destruct (cluster_estimate C cv w out F sm r 0 fs a s eq_refl Hcv Hw Rp Es Hr Hr' Ht' (st_part _ _ _ _ _ S)) as (c & Cl & Q); [|exists c; split; [exact Cl|exact Q]].
  intros i Hi. rewrite Sa, Sb. unfold s, a, cs_score, cs_weight_a, cs_resid_weights, share_weight, both, compl. destruct norm; cbn [el_a el_b].
  - unfold d0t1, d0t0, odds. split; ring.
  - unfold d0t1, d0t0, odds, q1, q0, Rdiv. split; ring.
Qed.
Lemma clustered_cs_exp_fit cv n dcol norm tr thr x y d t strata w nj store ext smod w' : let C := clustered cv (cs_ctx L mc n dcol false norm tr thr x y d t strata) in
  (0 < n)%nat -> cv <> [] -> soundly_reached C w -> sound_learning L f g mc w ->
  (forall a b, (a = 0 \/ a = 1) -> (b = 0 \/ b = 1) -> Labels w n "ml_g" y (fun j => d j = a /\ t j = b)) ->
  fit C nj store ext smod w = (w', Ok tt) ->
  exists F sm, fit_done w w' F sm 1 /\ forall r fs, nth_error sm r = Some fs -> exists g00 g01 g10 g11 p lam,
      Used w n ext r 0 dcol "ml_g_d0_t0" "ml_g" x y (group_rows n (fun j => d j = 0 /\ t j = 0)) fs g00 /\
      Used w n ext r 0 dcol "ml_g_d0_t1" "ml_g" x y (group_rows n (fun j => d j = 0 /\ t j = 1)) fs g01 /\
      Used w n ext r 0 dcol "ml_g_d1_t0" "ml_g" x y (group_rows n (fun j => d j = 1 /\ t j = 0)) fs g10 /\
      Used w n ext r 0 dcol "ml_g_d1_t1" "ml_g" x y (group_rows n (fun j => d j = 1 /\ t j = 1)) fs g11 /\
      share_of fs d p /\ share_of fs t lam /\
      let q11 := fun i => p i * lam i in let q10 := fun i => p i * (1 - lam i) in
      let q01 := fun i => (1 - p i) * lam i in let q00 := fun i => (1 - p i) * (1 - lam i) in
      let s := fun i => g11 i - g10 i - (g01 i - g00 i) +
        share_weight n norm (both d t) q11 i * (y i - g11 i) - share_weight n norm (both d (compl t)) q10 i * (y i - g10 i) -
        (share_weight n norm (both (compl d) t) q01 i * (y i - g01 i) - share_weight n norm (both (compl d) (compl t)) q00 i * (y i - g00 i)) in
      (share_ok n norm (both d t) q11 -> share_ok n norm (both d (compl t)) q10 -> share_ok n norm (both (compl d) t) q01 -> share_ok n norm (both (compl d) (compl t)) q00 ->
       exists c, clusters_of w cv r fs c /\ (moment n (Some c) (fun _ : nat => 1) <> 0 -> clustered_estimate_is F n 0 r c (fun _ : nat => 1) (s))).
Proof.
  intros C Hn Hcv Hw HL Hg H. startc C H Hw HL. assert (Es : m_smpls (w_obj w) = Some sm) by apply Fd. intros r fs Hr.
  destruct (K r 0%nat fs dcol Hr eq_refl) as (Hr' & Ht' & e & M & S & N). cbn [C clustered cs_ctx c_nuis c_n] in N, S.
  edestruct (cs_exp L f g) as (g00 & g01 & g10 & g11 & p & lam & Ng & Sh & Sl & Sc); [exact S| |exact N|].
  { intros a b name Hin. intros _; eapply rep_labels; [apply Hg|exact Es|exact Hr];
    destruct Hin as [X|[X|[X|[X|[]]]]]; injection X as <- <- <-; auto. }
  exists g00, g01, g10, g11, p, lam.
  split; [eapply rep_used; [apply M; cbn; tauto|apply (Ng 0 0 "ml_g_d0_t0" g00); cbn; tauto]|]. split; [eapply rep_used; [apply M; cbn; tauto|apply (Ng 0 1 "ml_g_d0_t1" g01); cbn; tauto]|].
  split; [eapply rep_used; [apply M; cbn; tauto|apply (Ng 1 0 "ml_g_d1_t0" g10); cbn; tauto]|]. split; [eapply rep_used; [apply M; cbn; tauto|apply (Ng 1 1 "ml_g_d1_t1" g11); cbn; tauto]|].
  split; [exact Sh|]. split; [exact Sl|]. intros q11 q10 q01 q00 s A1 A2 A3 A4.
  cbn [setup_of su_n] in Sc. destruct (Sc (fun _ => 0)) as (Sa & Sb).
  destruct (cluster_estimate C cv w out F sm r 0 fs (fun _ : nat => 1) s eq_refl Hcv Hw Rp Es Hr Hr' Ht' (st_part _ _ _ _ _ S)) as (c & Cl & Q); [|exists c; split; [exact Cl|exact Q]].
  intros i Hi. rewrite Sa, Sb. unfold s, cs_score, cs_weight_a, cs_resid_weights, share_weight, both, compl. destruct norm; cbn [el_a el_b]; unfold q11, q10, q01, q00, Rdiv; split; ring.
Qed.
Lemma clustered_ssm_fit cv n dcols norm tr thr x y d s strata w nj store ext smod w' : let C := clustered cv (ssm_ctx L mc n dcols norm tr thr x y d s strata) in
  (0 < n)%nat -> cv <> [] -> dcols <> [] -> soundly_reached C w -> sound_learning L f g mc w ->
  Labels w n "ml_pi" s everyone -> (forall t, Labels w n "ml_m" (d t) everyone) -> (forall t v, v = 0 \/ v = 1 -> Labels w n "ml_g" y (fun j => d t j = v /\ s j = 1)) ->
  fit C nj store ext smod w = (w', Ok tt) ->
  exists F sm, fit_done w w' F sm (length dcols) /\ forall r t fs col, nth_error sm r = Some fs -> nth_error dcols t = Some col -> exists pi m0 m g1 g0,
      cross_fitted L f g (Own w n r t col) "ml_pi" "ml_pi" (fun i => x t i ++ [d t i])%list s whole_train fs pi /\
      cross_fitted L f g (Own w n r t col) "ml_m" "ml_m" (x t) (d t) whole_train fs m0 /\ clipped n tr thr m0 m /\
      cross_fitted L f g (Own w n r t col) "ml_g_d1" "ml_g" (x t) y (group_rows n (fun j => d t j = 1 /\ s j = 1)) fs g1 /\
      cross_fitted L f g (Own w n r t col) "ml_g_d0" "ml_g" (x t) y (group_rows n (fun j => d t j = 0 /\ s j = 1)) fs g0 /\
      (binary n (d t) -> off_bounds n m -> (forall i, (i < n)%nat -> pi i <> 0) ->
       let w1 := if norm then sumf n (d t) / sumf n (fun i => d t i * s i / (pi i * m i)) else 1 in
       let w0 := if norm then sumf n (compl (d t)) / sumf n (fun i => (1 - d t i) * s i / (pi i * (1 - m i))) else 1 in
       let v := fun i => g1 i + w1 * (d t i * s i * (y i - g1 i) / (m i * pi i)) - (g0 i + w0 * ((1 - d t i) * s i * (y i - g0 i) / ((1 - m i) * pi i))) in
       (norm = true -> sumf n (fun i => d t i * s i / (pi i * m i)) <> 0 /\ sumf n (fun i => (1 - d t i) * s i / (pi i * (1 - m i))) <> 0) ->
       exists c, clusters_of w cv r fs c /\ (moment n (Some c) (fun _ : nat => 1) <> 0 -> clustered_estimate_is F n t r c (fun _ : nat => 1) (v))).
Proof.
  intros C Hn Hcv Hd Hw HL Hp Hm Hg H. startc C H Hw HL. assert (Es : m_smpls (w_obj w) = Some sm) by apply Fd. intros r t fs col Hr Ht.
  destruct (K r t fs col Hr Ht) as (Hr' & Ht' & e & M & S & N). cbn [C clustered ssm_ctx c_nuis c_n] in N, S.
  edestruct (ssm_mar L f g) as (pi & m0 & m & g1 & g0 & N1 & N2 & Tm & N3 & N4 & _ & _ & _ & _ & Sc); [exact S|lab' Hp Es Hr|lab' (Hm t) Es Hr|lab' (Hg t 1 (or_intror eq_refl)) Es Hr|lab' (Hg t 0 (or_introl eq_refl)) Es Hr|exact N|].
  exists pi, m0, m, g1, g0. split; [exact N1|]. split; [exact N2|]. split; [exact Tm|]. split; [exact N3|]. split; [exact N4|]. intros B _ _ w1 w0 v _.
  cbn [setup_of su_n] in Sc. destruct Sc as (Sa & Sb). set (D := fun i => if Req_EM_T (d t i) 1 then 1 else 0) in *.
  assert (ED : forall i, (i < n)%nat -> D i = d t i) by (intros i Hi; unfold D; destruct (B i Hi) as [-> | ->]; destruct (Req_EM_T _ _); lra).
  destruct (cluster_estimate C cv w out F sm r t fs (fun _ : nat => 1) v eq_refl Hcv Hw Rp Es Hr Hr' Ht' (st_part _ _ _ _ _ S)) as (c & Cl & Q); [|exists c; split; [exact Cl|exact Q]]. intros i Hi. rewrite Sa, Sb. unfold ssm_score. cbn [el_a el_b]. split; [ring|].
  assert (E1 : ssm_weight_treat n norm D s pi m = w1).
  { unfold ssm_weight_treat, w1. destruct norm; [|reflexivity]. f_equal; apply sumf_ext; intros j Hj; rewrite ?(ED j Hj); reflexivity. }
  assert (E0 : ssm_weight_control n norm D s pi m = w0).
  { unfold ssm_weight_control, w0, compl. destruct norm; [|reflexivity]. f_equal; apply sumf_ext; intros j Hj; rewrite ?(ED j Hj); reflexivity. }
  rewrite E1, E0, (ED i Hi). unfold v. ring.
Qed.
Lemma clustered_ssm_non_fit cv tts n dcols norm tr thr x zrow y d s strata w nj store ext smod w' : let C := clustered cv (ssm_non_ctx L mc n tts dcols norm tr thr x zrow y d s strata) in
  (0 < n)%nat -> cv <> [] -> dcols <> [] -> soundly_reached C w -> sound_learning L f g mc w -> classifier_ok L g ->
  fit C nj store ext smod w = (w', Ok tt) ->
  exists F sm, fit_done w w' F sm (length dcols) /\ forall r t fs col, nth_error sm r = Some fs -> nth_error dcols t = Some col -> exists pi m0 m g1 g0,
      nested_selection L f g (Own w n r t col) (tts r t) (x t) zrow y (d t) s fs pi m0 g1 g0 /\ clipped n tr thr m0 m /\
      (binary n (d t) -> off_bounds n m -> (forall i, (i < n)%nat -> pi i <> 0) ->
       let w1 := if norm then sumf n (d t) / sumf n (fun i => d t i * s i / (pi i * m i)) else 1 in
       let w0 := if norm then sumf n (compl (d t)) / sumf n (fun i => (1 - d t i) * s i / (pi i * (1 - m i))) else 1 in
       let v := fun i => g1 i + w1 * (d t i * s i * (y i - g1 i) / (m i * pi i)) - (g0 i + w0 * ((1 - d t i) * s i * (y i - g0 i) / ((1 - m i) * pi i))) in
       (norm = true -> sumf n (fun i => d t i * s i / (pi i * m i)) <> 0 /\ sumf n (fun i => (1 - d t i) * s i / (pi i * (1 - m i))) <> 0) ->
       exists c, clusters_of w cv r fs c /\ (moment n (Some c) (fun _ : nat => 1) <> 0 -> clustered_estimate_is F n t r c (fun _ : nat => 1) (v))).
Proof.
  intros C Hn Hcv Hd Hw HL Hc H. startc C H Hw HL. assert (Es : m_smpls (w_obj w) = Some sm) by apply Fd. intros r t fs col Hr Ht.
  destruct (K r t fs col Hr Ht) as (Hr' & Ht' & e & M & S & N). cbn [C clustered ssm_non_ctx c_nuis c_n] in N, S.
  edestruct (ssm_non L f g) as (pi & m0 & m & g1 & g0 & N1 & Tm & _ & _ & _ & _ & Sc); [exact S|exact Hc|exact N|].
  exists pi, m0, m, g1, g0. split; [exact N1|]. split; [exact Tm|]. intros B _ _ w1 w0 v _.
  cbn [setup_of su_n] in Sc. destruct Sc as (Sa & Sb). set (D := fun i => if Req_EM_T (d t i) 1 then 1 else 0) in *.
  assert (ED : forall i, (i < n)%nat -> D i = d t i) by (intros i Hi; unfold D; destruct (B i Hi) as [-> | ->]; destruct (Req_EM_T _ _); lra).
  destruct (cluster_estimate C cv w out F sm r t fs (fun _ : nat => 1) v eq_refl Hcv Hw Rp Es Hr Hr' Ht' (st_part _ _ _ _ _ S)) as (c & Cl & Q); [|exists c; split; [exact Cl|exact Q]]. intros i Hi. rewrite Sa, Sb. unfold ssm_score. cbn [el_a el_b]. split; [ring|].
  assert (E1 : ssm_weight_treat n norm D s pi m = w1).
  { unfold ssm_weight_treat, w1. destruct norm; [|reflexivity]. f_equal; apply sumf_ext; intros j Hj; rewrite ?(ED j Hj); reflexivity. }
  assert (E0 : ssm_weight_control n norm D s pi m = w0).
  { unfold ssm_weight_control, w0, compl. destruct norm; [|reflexivity]. f_equal; apply sumf_ext; intros j Hj; rewrite ?(ED j Hj); reflexivity. }
  rewrite E1, E0, (ED i Hi). unfold v. ring.
Qed.
End Fit.

(** The nuisance estimation of each model class. *)
From Verif Require Export L_Nuis L_Sum.
From Verif Require Import L_Debias.
From Coq Require Import Lia Lra.
Local Open Scope R_scope.
Local Open Scope res_scope.
Local Open Scope string_scope.

Lemma ok_inj {A} (a b : A) : Ok a = Ok b -> a = b. Proof. now injection 1. Qed.
Ltac inv1 H := match type of H with
  | bind ?m _ = Ok _ => let h := fresh "h" in let E := fresh "E" in destruct m as [h|] eqn:E; [cbn [bind] in H|discriminate H]
  | require ?b _ _ = Ok _ => let E := fresh "B" in destruct b eqn:E; [cbn [require] in H|discriminate H]
  | Ok _ = Ok _ => apply ok_inj in H
  end.

Section Models.
Context {E P : Type}.
Variable L : learner E row P.
Variables (f : E -> row -> R) (g : E -> row -> list R).
Variable su : setup E P.
Notation n := (su_n su).
Notation Nuisance := (nuisance L f g su).
Notation Crossfit := (cross_fitted L f g su).
Notation Fit := (fit_ok L g su).
Notation Group := (group_rows n).

Lemma out_reported e hs name h : dict_get name hs = Some h -> known su h -> reported su (mk_out e hs) name (hv h).
Proof. intros E1 K i Hi. unfold mk_out. cbn [no_preds]. rewrite E1. apply K, Hi. Qed.
Lemma out_scored e hs : scored (mk_out e hs) e.
Proof. split; reflexivity. Qed.
Lemma trim_trimmed tr thr h : known su h -> trimmed su tr thr (hv h) (hv (trim_hat tr thr h)).
Proof. intros K i Hi. apply (trim_hv su); assumption. Qed.
Lemma everyone_all name lrn y smpls : Fit name lrn y everyone smpls -> su_ext su name = None -> labels_ok L g su lrn y (fun _ => True) smpls.
Proof. intros H. exact H. Qed.
Lemma scored_is e hs a b : (forall i, (i < n)%nat -> el_a e i = a i /\ el_b e i = b i) -> score_is su (mk_out e hs) a b.
Proof. intros H i Hi. apply H, Hi. Qed.

(** ** First-stage slopes *)
Lemma nanmean_known v w : (forall i, (i < n)%nat -> v i = Some (w i)) -> nanmean n v = meanf n w.
Proof.
  intro H. unfold nanmean, meanf, sumf, Rmean. assert (Q : flat_map (fun i => match v i with Some a => [a] | None => [] end) (seq 0 n) = map w (seq 0 n)).
  { assert (G : forall l, (forall i, In i l -> (i < n)%nat) -> flat_map (fun i => match v i with Some a => [a] | None => [] end) l = map w l).
    { induction l as [|i l IH]; [reflexivity|]. intro Hl. cbn. rewrite H by (apply Hl; now left). cbn. f_equal. apply IH. intros j Hj. apply Hl. now right. }
    apply G. intros i Hi. apply in_seq in Hi. lia. }
  rewrite Q, map_length, seq_length. reflexivity.
Qed.
Lemma theta_iv_slope y d z l m r : known su l -> known su m -> known su r -> slope_of su y d z (hv l) (hv r) (hv m) (initial_theta_iv su y d z (h_preds l) (h_preds m) (h_preds r)).
Proof.
  intros Kl Km Kr Hne. unfold initial_theta_iv.
  rewrite (nanmean_known _ (fun i => (z i - hv m i) * (y i - hv l i))) by (intros i Hi; rewrite (Kl i Hi), (Km i Hi); reflexivity).
  rewrite (nanmean_known _ (fun i => - ((z i - hv m i) * (d i - hv r i)))) by (intros i Hi; rewrite (Kr i Hi), (Km i Hi); cbn; f_equal; ring).
  rewrite meanf_opp. unfold meanf. assert (Hn : INR n <> 0).
  { intro E0. apply Hne. assert (E1 : n = 0%nat) by (apply INR_eq; rewrite E0; reflexivity). rewrite E1. reflexivity. }
  field. split; assumption.
Qed.
Lemma theta_slope y d l m : known su l -> known su m -> slope_of su y d d (hv l) (hv m) (hv m) (initial_theta n y d (h_preds l) (h_preds m)).
Proof.
  intros Kl Km. pose proof (theta_iv_slope y d d l m m Kl Km Km) as H. assert (Q : initial_theta n y d (h_preds l) (h_preds m) = initial_theta_iv su y d d (h_preds l) (h_preds m) (h_preds m)) by reflexivity.
  rewrite Q. exact H.
Qed.

(** ** Partially linear regression *)
Lemma plr_partialling_out bt x y d smpls out : setting L f g su smpls -> Fit "ml_l" "ml_l" y everyone smpls -> Fit "ml_m" "ml_m" d everyone smpls ->
  plr_nuis L su false bt x y d smpls = Ok out ->
  exists l m, Nuisance "ml_l" "ml_l" x y whole_train smpls l /\ Nuisance "ml_m" "ml_m" x d whole_train smpls m /\ reported su out "ml_l" l /\ reported su out "ml_m" m /\
    score_is su out (fun i => - (d i - m i) ^ 2) (fun i => (d i - m i) * (y i - l i)).
Proof.
  intros S Fl Fm H. unfold plr_nuis in H. cbn [andb] in H. inv1 H. inv1 H. inv1 H. inv1 H. subst out.
  apply (nuis_all L f g) in E0 as (N1 & K1); [|assumption|exact Fl]. apply (nuis_all L f g) in E1 as (N2 & K2); [|assumption|exact Fm].
  exists (hv h), (hv h0). split; [exact N1|]. split; [exact N2|]. split; [apply out_reported; [reflexivity|exact K1]|]. split; [apply out_reported; [reflexivity|exact K2]|].
  apply scored_is. intros i _. cbn. split; ring.
Qed.
Lemma plr_iv_type bt x y d smpls out : setting L f g su smpls -> Fit "ml_l" "ml_l" y everyone smpls -> Fit "ml_m" "ml_m" d everyone smpls ->
  (forall v, Fit "ml_g" "ml_g" v everyone smpls) -> plr_nuis L su true bt x y d smpls = Ok out ->
  exists m gg, Nuisance "ml_m" "ml_m" x d whole_train smpls m /\ reported su out "ml_m" m /\ reported su out "ml_g" gg /\
    match su_ext su "ml_g" with
    | Some e => forall i, gg i = e i
    | None => exists l theta, Nuisance "ml_l" "ml_l" x y whole_train smpls l /\ reported su out "ml_l" l /\ slope_of su y d d l m m theta /\
        Crossfit "ml_g" "ml_g" x (fun i => y i - theta * d i) whole_train smpls gg
    end /\ score_is su out (fun i => - ((d i - m i) * d i)) (fun i => (d i - m i) * (y i - gg i)).
Proof.
  intros S Fl Fm Fg H. unfold plr_nuis in H. cbn [andb] in H. inv1 H. inv1 H. inv1 H. inv1 H. inv1 H. subst out.
  apply (nuis_all L f g) in E1 as (N2 & K2); [|assumption|exact Fm].
  apply (nuis_all L f g) in E2 as (N3 & K3); [|assumption|exact (Fg _)].
  exists (hv h0), (hv h1). split; [exact N2|]. split; [apply out_reported; [reflexivity|exact K2]|]. split; [apply out_reported; [reflexivity|exact K3]|]. split.
  - unfold nuisance in N3. destruct (su_ext su "ml_g") eqn:Ex; [exact N3|]. apply (nuis_all L f g) in E0 as (N1 & K1); [|assumption|exact Fl].
    exists (hv h), (initial_theta n y d (h_preds h) (h_preds h0)). split; [exact N1|]. split; [apply out_reported; [reflexivity|exact K1]|]. split; [apply theta_slope; assumption|exact N3].
  - apply scored_is. intros i _. cbn. split; ring.
Qed.

(** ** Interactive regression *)
Ltac nuis_g E0 Q := apply (nuis_sub L f g su) with (1 := is01_iff _ _) in E0; [|assumption|exact Q]; destruct E0 as (?N & ?K).

Lemma irm_spec atte norm bo tr thr w x y d smpls out : setting L f g su smpls -> Fit "ml_g0" "ml_g" y (fun j => d j = 0) smpls -> Fit "ml_g1" "ml_g" y (fun j => d j = 1) smpls ->
  Fit "ml_m" "ml_m" d everyone smpls -> irm_nuis L su atte norm bo tr thr w x y d smpls = Ok out ->
  exists g0 g1 m0 m, Nuisance "ml_g0" "ml_g" x y (Group (fun j => d j = 0)) smpls g0 /\ Nuisance "ml_g1" "ml_g" x y (Group (fun j => d j = 1)) smpls g1 /\
    Nuisance "ml_m" "ml_m" x d whole_train smpls m0 /\ trimmed su tr thr m0 m /\
    reported su out "ml_g0" g0 /\ reported su out "ml_g1" g1 /\ reported su out "ml_m" m /\ scored out (irm_score n atte norm w y d g0 g1 m).
Proof.
  intros S F0 F1 Fm H. unfold irm_nuis in H. inv1 H. inv1 H. inv1 H. inv1 H. inv1 H. subst out.
  assert (E0' : or_ext su "ml_g0" (let! h := fit_checked L su "ml_g0" "ml_g" x y (sub su (is01 d 0) smpls) smpls in Ok (mask (is01 d 0) h)) = Ok h).
  { unfold or_ext in *. destruct (su_ext su "ml_g0"); [exact E0|]. inv1 E0. inv1 E0. inv1 E0. subst h. reflexivity. }
  nuis_g E0' F0. nuis_g E1 F1. apply (nuis_all L f g) in E2 as (N2 & K2); [|assumption|exact Fm].
  exists (hv h), (hv h0), (hv h1), (hv (trim_hat tr thr h1)). split; [exact N|]. split; [exact N0|]. split; [exact N2|]. split; [apply trim_trimmed; exact K2|].
  split; [apply out_reported; [reflexivity|assumption]|]. split; [apply out_reported; [reflexivity|assumption]|]. split; [apply out_reported; [reflexivity|apply trim_known; assumption]|]. apply out_scored.
Qed.

Lemma apo_ext_hat name c (v : vec) k h : apo_ext su name c v k = Ok h -> exists h', or_ext su name k = Ok h' /\ hv h = hv h' /\ (known su h' -> known su h).
Proof.
  unfold apo_ext, or_ext. destruct (su_ext su name) as [e|]; intro H; [|exists h; auto]. injection H as <-. exists (ext_hat e). split; [reflexivity|]. split; [reflexivity|]. intros K i _. reflexivity.
Qed.
Lemma apo_spec norm bo tr thr w x y d lvl smpls out : setting L f g su smpls -> Fit "ml_g_d_lvl0" "ml_g" y (fun j => lvl j = 0) smpls -> Fit "ml_g_d_lvl1" "ml_g" y (fun j => lvl j = 1) smpls ->
  Fit "ml_m" "ml_m" lvl everyone smpls -> apo_nuis L su norm bo tr thr w x y d lvl smpls = Ok out ->
  exists g0 g1 m0 m, Nuisance "ml_g_d_lvl0" "ml_g" (fun i => d i :: x i) y (Group (fun j => lvl j = 0)) smpls g0 /\ Nuisance "ml_g_d_lvl1" "ml_g" x y (Group (fun j => lvl j = 1)) smpls g1 /\
    Nuisance "ml_m" "ml_m" x lvl whole_train smpls m0 /\ trimmed su tr thr m0 m /\
    reported su out "ml_g_d_lvl0" g0 /\ reported su out "ml_g_d_lvl1" g1 /\ reported su out "ml_m" m /\ scored out (apo_score n norm w y lvl g1 m).
Proof.
  intros S F0 F1 Fm H. unfold apo_nuis in H. inv1 H. inv1 H. inv1 H. inv1 H. inv1 H. inv1 H. subst out.
  apply apo_ext_hat in E0 as (h' & E0 & V0 & T0). apply apo_ext_hat in E1 as (h0' & E1 & V1 & T1). apply apo_ext_hat in E2 as (h1' & E2 & V2 & T2).
  nuis_g E0 F1. nuis_g E1 F0. apply (nuis_all L f g) in E2 as (N2 & K2); [|assumption|exact Fm]. rewrite <- V0 in N. rewrite <- V1 in N0. rewrite <- V2 in N2.
  exists (hv h0), (hv h), (hv h1), (hv (trim_hat tr thr h1)). split; [exact N0|]. split; [exact N|]. split; [exact N2|]. split; [apply trim_trimmed; auto|].
  split; [apply out_reported; [reflexivity|auto]|]. split; [apply out_reported; [reflexivity|auto]|]. split; [apply out_reported; [reflexivity|apply trim_known; auto]|]. apply out_scored.
Qed.

(** ** Interactive IV *)
Lemma iivm_r name (have : bool) x d z b dflt smpls h : setting L f g su smpls -> (have = true -> Fit name "ml_r" d (fun j => z j = b) smpls) ->
  (let given := match su_ext su name with Some _ => true | None => false end in
    let! h := if have then or_ext su name (fit_nuis L su name "ml_r" x d (sub su (is01 z b) smpls)) else Ok (const_hat dflt) in
    if given then Ok h else require (finite_on smpls h) ValueError (Ok (mask (is01 z b) h))) = Ok h ->
  taker_fn L f g su have name x d (fun j => z j = b) dflt smpls (hv h) /\ known su h.
Proof.
  intros S F H. cbn zeta in H. inv1 H. unfold taker_fn. destruct have.
  - unfold or_ext in E0. unfold nuisance. destruct (su_ext su name) as [e|] eqn:Ex.
    + inv1 H. inv1 E0. subst h h0. split; [reflexivity|]. intros i _. reflexivity.
    + inv1 H. inv1 H. subst h. rewrite mask_hv. apply (fit_sub L f g su _ _ _ _ _ (fun j => z j = b)) in E0; [|apply is01_iff|exact S|exact (F eq_refl Ex)]. destruct E0 as (A & B0 & _). split; [exact A|exact B0].
  - inv1 E0. subst h0. destruct (su_ext su name) as [e|]; [|inv1 H]; inv1 H; subst h; (split; [intros i _; reflexivity|intros i _; reflexivity]).
Qed.
Lemma iivm_g name bo x y z b smpls h : setting L f g su smpls -> Fit name "ml_g" y (fun j => z j = b) smpls ->
  (let! h := or_ext su name (let! h := fit_checked L su name "ml_g" x y (sub su (is01 z b) smpls) smpls in Ok (mask (is01 z b) h)) in
    require (negb (bo && binary_preds n h)) ValueError (Ok h)) = Ok h -> Nuisance name "ml_g" x y (Group (fun j => z j = b)) smpls (hv h) /\ known su h.
Proof. intros S F H. inv1 H. inv1 H. inv1 H. subst h0. nuis_g E0 F. split; assumption. Qed.
Lemma iivm_spec norm bo at_ nt tr thr x y z d smpls out : setting L f g su smpls -> Fit "ml_g0" "ml_g" y (fun j => z j = 0) smpls -> Fit "ml_g1" "ml_g" y (fun j => z j = 1) smpls ->
  Fit "ml_m" "ml_m" z everyone smpls -> (at_ = true -> Fit "ml_r0" "ml_r" d (fun j => z j = 0) smpls) -> (nt = true -> Fit "ml_r1" "ml_r" d (fun j => z j = 1) smpls) ->
  iivm_nuis L su norm bo at_ nt tr thr x y z d smpls = Ok out ->
  exists g0 g1 m0 m r0 r1, Nuisance "ml_g0" "ml_g" x y (Group (fun j => z j = 0)) smpls g0 /\ Nuisance "ml_g1" "ml_g" x y (Group (fun j => z j = 1)) smpls g1 /\
    Nuisance "ml_m" "ml_m" x z whole_train smpls m0 /\ trimmed su tr thr m0 m /\
    taker_fn L f g su at_ "ml_r0" x d (fun j => z j = 0) 0 smpls r0 /\ taker_fn L f g su nt "ml_r1" x d (fun j => z j = 1) 1 smpls r1 /\
    reported su out "ml_g0" g0 /\ reported su out "ml_g1" g1 /\ reported su out "ml_m" m /\ reported su out "ml_r0" r0 /\ reported su out "ml_r1" r1 /\
    scored out (iivm_score n norm y z d g0 g1 m r0 r1).
Proof.
  intros S F0 F1 Fm R0 R1 H. unfold iivm_nuis in H. inv1 H. inv1 H. inv1 H. inv1 H. inv1 H. inv1 H. subst out.
  apply iivm_g in E0 as (N0 & K0); [|assumption|exact F0]. apply iivm_g in E1 as (N1 & K1); [|assumption|exact F1]. apply (nuis_all L f g) in E2 as (N2 & K2); [|assumption|exact Fm].
  apply iivm_r in E3 as (N3 & K3); [|assumption|exact R0]. apply iivm_r in E4 as (N4 & K4); [|assumption|exact R1].
  exists (hv h), (hv h0), (hv h1), (hv (trim_hat tr thr h1)), (hv h2), (hv h3). split; [exact N0|]. split; [exact N1|]. split; [exact N2|]. split; [apply trim_trimmed; auto|]. split; [exact N3|]. split; [exact N4|].
  split; [apply out_reported; [reflexivity|auto]|]. split; [apply out_reported; [reflexivity|auto]|]. split; [apply out_reported; [reflexivity|apply trim_known; auto]|].
  split; [apply out_reported; [reflexivity|auto]|]. split; [apply out_reported; [reflexivity|auto]|]. apply out_scored.
Qed.

(** ** Difference in differences *)
Lemma share_spec smpls d : share_of smpls d (fun i => fold_share smpls d i 0).
Proof.
  intros i k h (T1 & T2 & T3). cbv beta. rewrite (fold_share_spec smpls d i 0 k h T1 T2); [reflexivity|]. intros j h' Hj Hne Hin. apply Hne, (T3 j h'); assumption.
Qed.
Lemma did_obs norm tr thr x y d smpls out : setting L f g su smpls -> Fit "ml_g0" "ml_g" y (fun j => d j = 0) smpls -> Fit "ml_g1" "ml_g" y (fun j => d j = 1) smpls ->
  Fit "ml_m" "ml_m" d everyone smpls -> did_nuis L su true norm tr thr x y d smpls = Ok out ->
  exists g0 g1 m0 m p, Nuisance "ml_g0" "ml_g" x y (Group (fun j => d j = 0)) smpls g0 /\ Nuisance "ml_g1" "ml_g" x y (Group (fun j => d j = 1)) smpls g1 /\
    Nuisance "ml_m" "ml_m" x d whole_train smpls m0 /\ trimmed su tr thr m0 m /\ share_of smpls d p /\
    reported su out "ml_g0" g0 /\ reported su out "ml_g1" g1 /\ reported su out "ml_m" m /\ scored out (did_score n true norm y d g0 g1 m p).
Proof.
  intros S F0 F1 Fm H. unfold did_nuis in H. inv1 H. inv1 H. inv1 H. inv1 H. inv1 E2. inv1 E2. inv1 E2. subst h1 out. nuis_g E0 F0. nuis_g E1 F1.
  assert (Nm : Nuisance "ml_m" "ml_m" x d whole_train smpls (hv h2) /\ known su h2).
  { unfold or_ext in E3. unfold nuisance. destruct (su_ext su "ml_m") eqn:Ex; [inv1 E3; subst h2; split; [reflexivity|intros i _; reflexivity]|]. apply (fit_all L f g) in E3; [tauto|assumption|exact (Fm Ex)]. }
  destruct Nm as (N2 & K2). exists (hv h), (hv h0), (hv h2), (hv (trim_hat tr thr h2)), (fun i => fold_share smpls d i 0).
  split; [exact N|]. split; [exact N0|]. split; [exact N2|]. split; [apply trim_trimmed; auto|]. split; [apply share_spec|].
  split; [apply out_reported; [reflexivity|auto]|]. split; [apply out_reported; [reflexivity|auto]|]. split; [apply out_reported; [reflexivity|apply trim_known; auto]|]. apply out_scored.
Qed.
Lemma did_exp norm tr thr x y d smpls out : setting L f g su smpls -> Fit "ml_g0" "ml_g" y (fun j => d j = 0) smpls -> Fit "ml_g1" "ml_g" y (fun j => d j = 1) smpls ->
  did_nuis L su false norm tr thr x y d smpls = Ok out ->
  exists g0 g1 p, Nuisance "ml_g0" "ml_g" x y (Group (fun j => d j = 0)) smpls g0 /\ Nuisance "ml_g1" "ml_g" x y (Group (fun j => d j = 1)) smpls g1 /\ share_of smpls d p /\
    reported su out "ml_g0" g0 /\ reported su out "ml_g1" g1 /\ forall m, scored out (did_score n false norm y d g0 g1 m p).
Proof.
  intros S F0 F1 H. unfold did_nuis in H. inv1 H. inv1 H. inv1 H. subst out. nuis_g E0 F0. nuis_g E1 F1.
  exists (hv h), (hv h0), (fun i => fold_share smpls d i 0). split; [exact N|]. split; [exact N0|]. split; [apply share_spec|].
  split; [apply out_reported; [reflexivity|auto]|]. split; [apply out_reported; [reflexivity|auto]|]. intro m. unfold scored, mk_out. cbn [no_a no_b]. unfold did_score, did_weights. destruct norm; split; reflexivity.
Qed.
Lemma cs_g name x y d t a b smpls h : setting L f g su smpls -> Fit name "ml_g" y (fun j => d j = a /\ t j = b) smpls ->
  or_ext su name (let! h := fit_nuis L su name "ml_g" x y (sub su (is01_2 d t a b) smpls) in Ok (mask (is01_2 d t a b) h)) = Ok h ->
  Nuisance name "ml_g" x y (Group (fun j => d j = a /\ t j = b)) smpls (hv h) /\ known su h.
Proof.
  intros S F H. unfold or_ext in H. unfold nuisance. destruct (su_ext su name) as [v|] eqn:Ex; [inv1 H; subst h; split; [reflexivity|apply known_ext]|]. inv1 H. inv1 H. subst h.
  apply (fit_sub L f g su _ _ _ _ _ (fun j => d j = a /\ t j = b)) in E0; [|apply is01_2_iff|exact S|exact (F Ex)]. rewrite mask_hv. destruct E0 as (A & B & _). split; [exact A|exact B].
Qed.
Ltac nuis_g2 E0 Q := apply cs_g in E0; [|assumption|exact Q]; destruct E0 as (?N & ?K).
Lemma cs_obs norm tr thr x y d t smpls out : setting L f g su smpls ->
  (forall a b name, In (name, a, b) [("ml_g_d0_t0", 0, 0); ("ml_g_d0_t1", 0, 1); ("ml_g_d1_t0", 1, 0); ("ml_g_d1_t1", 1, 1)] -> Fit name "ml_g" y (fun j => d j = a /\ t j = b) smpls) ->
  Fit "ml_m" "ml_m" d everyone smpls -> cs_nuis L su true norm tr thr x y d t smpls = Ok out ->
  exists g00 g01 g10 g11 m0 m p lam, (forall a b name v, In (name, a, b, v) [("ml_g_d0_t0", 0, 0, g00); ("ml_g_d0_t1", 0, 1, g01); ("ml_g_d1_t0", 1, 0, g10); ("ml_g_d1_t1", 1, 1, g11)] ->
      Nuisance name "ml_g" x y (Group (fun j => d j = a /\ t j = b)) smpls v /\ reported su out name v) /\
    Nuisance "ml_m" "ml_m" x d whole_train smpls m0 /\ trimmed su tr thr m0 m /\ reported su out "ml_m" m /\ share_of smpls d p /\ share_of smpls t lam /\
    scored out (cs_score n true norm y d t g00 g01 g10 g11 m p lam).
Proof.
  intros S F Fm H. unfold cs_nuis in H. inv1 H. inv1 H. inv1 H. inv1 H. inv1 H. inv1 H. inv1 E4. inv1 E4. subst h3 out.
  nuis_g2 E0 (F 0 0 "ml_g_d0_t0" (or_introl eq_refl)). nuis_g2 E1 (F 0 1 "ml_g_d0_t1" (or_intror (or_introl eq_refl))). nuis_g2 E2 (F 1 0 "ml_g_d1_t0" (or_intror (or_intror (or_introl eq_refl)))).
  nuis_g2 E3 (F 1 1 "ml_g_d1_t1" (or_intror (or_intror (or_intror (or_introl eq_refl))))). apply (nuis_all L f g) in E5 as (N4 & K4); [|assumption|exact Fm].
  exists (hv h), (hv h0), (hv h1), (hv h2), (hv h4), (hv (trim_hat tr thr h4)), (fun i => fold_share smpls d i 0), (fun i => fold_share smpls t i 0). split.
  { intros a b name v [Q|[Q|[Q|[Q|[]]]]]; injection Q as <- <- <- <-; (split; [assumption|apply out_reported; [reflexivity|assumption]]). }
  split; [exact N4|]. split; [apply trim_trimmed; auto|]. split; [apply out_reported; [reflexivity|apply trim_known; auto]|]. split; [apply share_spec|]. split; [apply share_spec|]. apply out_scored.
Qed.
Lemma cs_exp norm tr thr x y d t smpls out : setting L f g su smpls ->
  (forall a b name, In (name, a, b) [("ml_g_d0_t0", 0, 0); ("ml_g_d0_t1", 0, 1); ("ml_g_d1_t0", 1, 0); ("ml_g_d1_t1", 1, 1)] -> Fit name "ml_g" y (fun j => d j = a /\ t j = b) smpls) ->
  cs_nuis L su false norm tr thr x y d t smpls = Ok out ->
  exists g00 g01 g10 g11 p lam, (forall a b name v, In (name, a, b, v) [("ml_g_d0_t0", 0, 0, g00); ("ml_g_d0_t1", 0, 1, g01); ("ml_g_d1_t0", 1, 0, g10); ("ml_g_d1_t1", 1, 1, g11)] ->
      Nuisance name "ml_g" x y (Group (fun j => d j = a /\ t j = b)) smpls v /\ reported su out name v) /\
    share_of smpls d p /\ share_of smpls t lam /\ forall m, scored out (cs_score n false norm y d t g00 g01 g10 g11 m p lam).
Proof.
  intros S F H. unfold cs_nuis in H. inv1 H. inv1 H. inv1 H. inv1 H. inv1 H. subst out.
  nuis_g2 E0 (F 0 0 "ml_g_d0_t0" (or_introl eq_refl)). nuis_g2 E1 (F 0 1 "ml_g_d0_t1" (or_intror (or_introl eq_refl))). nuis_g2 E2 (F 1 0 "ml_g_d1_t0" (or_intror (or_intror (or_introl eq_refl)))).
  nuis_g2 E3 (F 1 1 "ml_g_d1_t1" (or_intror (or_intror (or_intror (or_introl eq_refl))))).
  exists (hv h), (hv h0), (hv h1), (hv h2), (fun i => fold_share smpls d i 0), (fun i => fold_share smpls t i 0). split.
  { intros a b name v [Q|[Q|[Q|[Q|[]]]]]; injection Q as <- <- <- <-; (split; [assumption|apply out_reported; [reflexivity|assumption]]). }
  split; [apply share_spec|]. split; [apply share_spec|]. intro m. unfold scored, mk_out. cbn [no_a no_b]. unfold cs_score. destruct norm; split; reflexivity.
Qed.

(** ** Partially linear IV *)
Lemma pliv_partialling_out x y d z smpls out : setting L f g su smpls -> Fit "ml_l" "ml_l" y everyone smpls -> Fit "ml_m" "ml_m" z everyone smpls -> Fit "ml_r" "ml_r" d everyone smpls ->
  pliv_x_nuis L su false x y d z smpls = Ok out ->
  exists l m r, Nuisance "ml_l" "ml_l" x y whole_train smpls l /\ Nuisance "ml_m" "ml_m" x z whole_train smpls m /\ Nuisance "ml_r" "ml_r" x d whole_train smpls r /\
    reported su out "ml_l" l /\ reported su out "ml_m" m /\ reported su out "ml_r" r /\
    score_is su out (fun i => - ((d i - r i) * (z i - m i))) (fun i => (z i - m i) * (y i - l i)).
Proof.
  intros S Fl Fm Fr H. unfold pliv_x_nuis in H. inv1 H. inv1 H. inv1 H. inv1 H. subst out.
  apply (nuis_all L f g) in E0 as (N1 & K1); [|assumption|exact Fl]. apply (nuis_all L f g) in E1 as (N2 & K2); [|assumption|exact Fm]. apply (nuis_all L f g) in E2 as (N3 & K3); [|assumption|exact Fr].
  exists (hv h), (hv h0), (hv h1). split; [exact N1|]. split; [exact N2|]. split; [exact N3|]. split; [apply out_reported; [reflexivity|auto]|]. split; [apply out_reported; [reflexivity|auto]|].
  split; [apply out_reported; [reflexivity|auto]|]. apply scored_is. intros i _. cbn. split; ring.
Qed.
Lemma pliv_iv_type x y d z smpls out : setting L f g su smpls -> Fit "ml_l" "ml_l" y everyone smpls -> Fit "ml_m" "ml_m" z everyone smpls -> Fit "ml_r" "ml_r" d everyone smpls ->
  (forall v, Fit "ml_g" "ml_g" v everyone smpls) -> pliv_x_nuis L su true x y d z smpls = Ok out ->
  exists l m r gg theta, Nuisance "ml_l" "ml_l" x y whole_train smpls l /\ Nuisance "ml_m" "ml_m" x z whole_train smpls m /\ Nuisance "ml_r" "ml_r" x d whole_train smpls r /\
    slope_of su y d z l r m theta /\ Nuisance "ml_g" "ml_g" x (fun i => y i - theta * d i) whole_train smpls gg /\
    reported su out "ml_l" l /\ reported su out "ml_m" m /\ reported su out "ml_r" r /\ reported su out "ml_g" gg /\
    score_is su out (fun i => - ((z i - m i) * d i)) (fun i => (z i - m i) * (y i - gg i)).
Proof.
  intros S Fl Fm Fr Fg H. unfold pliv_x_nuis in H. inv1 H. inv1 H. inv1 H. inv1 H. inv1 H. subst out.
  apply (nuis_all L f g) in E0 as (N1 & K1); [|assumption|exact Fl]. apply (nuis_all L f g) in E1 as (N2 & K2); [|assumption|exact Fm]. apply (nuis_all L f g) in E2 as (N3 & K3); [|assumption|exact Fr].
  apply (nuis_all L f g) in E3 as (N4 & K4); [|assumption|exact (Fg _)].
  exists (hv h), (hv h0), (hv h1), (hv h2), (initial_theta_iv su y d z (h_preds h) (h_preds h0) (h_preds h1)). split; [exact N1|]. split; [exact N2|]. split; [exact N3|]. split; [apply theta_iv_slope; auto|]. split; [exact N4|].
  split; [apply out_reported; [reflexivity|auto]|]. split; [apply out_reported; [reflexivity|auto]|]. split; [apply out_reported; [reflexivity|auto]|]. split; [apply out_reported; [reflexivity|auto]|]. apply scored_is. intros i _. cbn. split; ring.
Qed.
Lemma pliv_z x zrow y d smpls out : setting L f g su smpls -> labels_ok L g su "ml_r" d everyone smpls -> pliv_z_nuis L su x zrow y d smpls = Ok out ->
  exists r, Crossfit "ml_r" "ml_r" (fun i => x i ++ zrow i)%list d whole_train smpls r /\ reported su out "ml_r" r /\ score_is su out (fun i => - (r i * d i)) (fun i => r i * y i).
Proof.
  intros S Fr H. unfold pliv_z_nuis in H. inv1 H. inv1 H. subst out. apply checked_inv in E0. apply (fit_all L f g) in E0; [|assumption|exact Fr]. destruct E0 as (A & B & _).
  exists (hv h). split; [exact A|]. split; [apply out_reported; [reflexivity|exact B]|]. apply scored_is. intros i _. cbn. split; ring.
Qed.

(** ** Sample selection *)
Lemma ssm_mar norm tr thr x y d s smpls out : setting L f g su smpls -> labels_ok L g su "ml_pi" s everyone smpls -> labels_ok L g su "ml_m" d everyone smpls ->
  labels_ok L g su "ml_g" y (fun j => d j = 1 /\ s j = 1) smpls -> labels_ok L g su "ml_g" y (fun j => d j = 0 /\ s j = 1) smpls -> ssm_mar_nuis L su norm tr thr x y d s smpls = Ok out ->
  exists pi m0 m g1 g0, Crossfit "ml_pi" "ml_pi" (fun i => x i ++ [d i])%list s whole_train smpls pi /\ Crossfit "ml_m" "ml_m" x d whole_train smpls m0 /\ trimmed su tr thr m0 m /\
    Crossfit "ml_g_d1" "ml_g" x y (Group (fun j => d j = 1 /\ s j = 1)) smpls g1 /\ Crossfit "ml_g_d0" "ml_g" x y (Group (fun j => d j = 0 /\ s j = 1)) smpls g0 /\
    reported su out "ml_pi" pi /\ reported su out "ml_m" m /\ reported su out "ml_g_d1" g1 /\ reported su out "ml_g_d0" g0 /\
    scored out (ssm_score n norm y (fun i => if Req_EM_T (d i) 1 then 1 else 0) s g1 g0 pi m).
Proof.
  intros S Fp Fm F1 F0 H. unfold ssm_mar_nuis in H. inv1 H. inv1 H. inv1 H. inv1 H. inv1 H. subst out.
  apply checked_inv in E0, E1, E2, E3. apply (fit_all L f g) in E0; [|assumption|exact Fp]. apply (fit_all L f g) in E1; [|assumption|exact Fm].
  apply (fit_sub L f g su _ _ _ _ _ (fun j => d j = 1 /\ s j = 1)) in E2; [|apply is01_2_iff|exact S|exact F1]. apply (fit_sub L f g su _ _ _ _ _ (fun j => d j = 0 /\ s j = 1)) in E3; [|apply is01_2_iff|exact S|exact F0].
  destruct E0 as (A0 & B0 & _), E1 as (A1 & B1 & _), E2 as (A2 & B2 & _), E3 as (A3 & B3 & _).
  exists (hv h), (hv h0), (hv (trim_hat tr thr h0)), (hv h1), (hv h2). split; [exact A0|]. split; [exact A1|]. split; [apply trim_trimmed; exact B1|]. split; [exact A2|]. split; [exact A3|].
  split; [apply out_reported; [reflexivity|exact B0]|]. split; [apply out_reported; [reflexivity|apply trim_known; exact B1]|]. split; [apply out_reported; [reflexivity|exact B2]|]. split; [apply out_reported; [reflexivity|exact B3]|].
  assert (Q : dtreat d = fun i => if Req_EM_T (d i) 1 then 1 else 0). { apply FunctionalExtensionality.functional_extensionality. intro i. unfold dtreat, b2r, reqb. destruct (Req_EM_T (d i) 1); reflexivity. }
  rewrite <- Q. apply out_scored.
Qed.
End Models.

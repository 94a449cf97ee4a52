(** Losses reported by the remaining variants of the instrumental and the
    sample-selection models. *)
From Verif Require Import L_DataOps L_DataProps L_NuisNested L_Init.
From Verif Require Export L_LossEnd.
From Coq Require Import Lia Lra.
Local Open Scope R_scope.
Local Open Scope res_scope.
Local Open Scope string_scope.

Section Targets.
Context {E P : Type}.
Variable L : learner E row P.
Variables (f : E -> row -> R) (g : E -> row -> list R).
Variable su : setup E P.
Notation n := (su_n su).
Notation Fit := (fit_ok L g su).

Lemma pliv_iv_evaluated x y d z smpls out : setting L f g su smpls -> Fit "ml_l" "ml_l" y everyone smpls -> Fit "ml_m" "ml_m" z everyone smpls -> Fit "ml_r" "ml_r" d everyone smpls ->
  (forall v, Fit "ml_g" "ml_g" v everyone smpls) -> plain_labels su "ml_l" y -> plain_labels su "ml_m" z -> plain_labels su "ml_r" d -> su_proba su "ml_g" = false -> pliv_x_nuis L su true x y d z smpls = Ok out ->
  exists l m r gg theta, nuisance L f g su "ml_l" "ml_l" x y whole_train smpls l /\ nuisance L f g su "ml_m" "ml_m" x z whole_train smpls m /\ nuisance L f g su "ml_r" "ml_r" x d whole_train smpls r /\
    slope_of su y d z l r m theta /\ nuisance L f g su "ml_g" "ml_g" x (fun i => y i - theta * d i) whole_train smpls gg /\
    reported su out "ml_l" l /\ reported su out "ml_m" m /\ reported su out "ml_r" r /\ reported su out "ml_g" gg /\
    evaluated su out "ml_l" y all_of /\ evaluated su out "ml_m" z all_of /\ evaluated su out "ml_r" d all_of /\ evaluated su out "ml_g" (fun i => y i - theta * d i) all_of.
Proof.
  intros S Fl Fm Fr Fg Pl Pm Pr Pg H. unfold pliv_x_nuis in H. inv1 H. inv1 H. inv1 H. inv1 H. inv1 H. subst out.
  pose proof E0 as A0. pose proof E1 as A1. pose proof E2 as A2. pose proof E3 as A3.
  apply (nuis_all L f g) in E0 as (N1 & K1); [|assumption|exact Fl]. apply (nuis_all L f g) in E1 as (N2 & K2); [|assumption|exact Fm]. apply (nuis_all L f g) in E2 as (N3 & K3); [|assumption|exact Fr].
  apply (nuis_all L f g) in E3 as (N4 & K4); [|assumption|exact (Fg _)].
  exists (hv h), (hv h0), (hv h1), (hv h2), (initial_theta_iv su y d z (h_preds h) (h_preds h0) (h_preds h1)). split; [exact N1|]. split; [exact N2|]. split; [exact N3|]. split; [apply theta_iv_slope; auto|]. split; [exact N4|].
  split; [apply out_reported; [reflexivity|auto]|]. split; [apply out_reported; [reflexivity|auto]|]. split; [apply out_reported; [reflexivity|auto]|]. split; [apply out_reported; [reflexivity|auto]|].
  split; [|split; [|split]]; (eapply out_evaluated; [reflexivity|eapply hat_all; [exact S| | |eassumption]]); try assumption; try apply Fg. left. exact Pg.
Qed.

Lemma several_targets (x : nat -> row) smpls : setting L f g su smpls -> forall (zs : list (string * vec)) ms, NoDup (map fst zs) ->
  (forall name z, In (name, z) zs -> Fit ("ml_m_" ++ name)%string "ml_m" z everyone smpls) -> (forall name z, In (name, z) zs -> plain_labels su "ml_m" z) ->
  map_res (fun p : string * vec => let name := ("ml_m_" ++ fst p)%string in let! h := or_ext su name (fit_checked L su name "ml_m" x (snd p) smpls smpls) in Ok (name, h)) zs = Ok ms ->
  forall name z, In (name, z) zs -> exists h, dict_get ("ml_m_" ++ name)%string ms = Some h /\ hat_evaluated su ("ml_m_" ++ name)%string h z all_of.
Proof.
  intros S. induction zs as [|(nm, z) zs IH]; intros ms Nd F Pl H name z0 Hin; cbn [map_res] in H; [destruct Hin|].
  inv1 H. inv1 E0. inv1 E0. subst h. cbn [fst snd] in E1. inv1 H. inv1 H. subst ms. cbn in Nd. inversion Nd as [|? ? Hnot Nd']; subst. destruct Hin as [Q|Q].
  - injection Q as <- <-. exists h0. cbn [dict_get fst]. rewrite String.eqb_refl. split; [reflexivity|]. eapply hat_all; [exact S|apply (F nm z); now left|apply (Pl nm z); now left|exact E1].
  - destruct (IH h Nd') with (name := name) (z := z0) as (hh & B1 & B2); [intros ? ? Hi; apply F; now right|intros ? ? Hi; eapply Pl; right; exact Hi|reflexivity|exact Q|]. exists hh. split; [|exact B2].
    cbn [dict_get fst]. destruct (String.eqb_spec ("ml_m_" ++ name) ("ml_m_" ++ nm)) as [Eq|_]; [apply prefix_inj in Eq; subst nm; exfalso; apply Hnot; apply in_map_iff; exists (name, z0); auto|exact B1].
Qed.
Lemma several_keys (x : nat -> row) smpls (zs : list (string * vec)) : forall ms,
  map_res (fun p : string * vec => let name := ("ml_m_" ++ fst p)%string in let! h := or_ext su name (fit_checked L su name "ml_m" x (snd p) smpls smpls) in Ok (name, h)) zs = Ok ms ->
  forall k hh, dict_get k ms = Some hh -> exists s, k = ("ml_m_" ++ s)%string.
Proof.
  induction zs as [|(nm, z) zs IH]; intros h0 E1 k hh Hk; cbn [map_res] in E1; [inv1 E1; subst h0; discriminate|]. inv1 E1. inv1 E0. inv1 E0. subst h. inv1 E1. inv1 E1. subst h0. cbn [dict_get fst] in Hk.
  destruct (String.eqb_spec k ("ml_m_" ++ nm)) as [->|_]; [eauto|]. apply (IH h eq_refl k hh Hk).
Qed.
Lemma several_evaluated proj x y d zs smpls out : setting L f g su smpls -> NoDup (map fst zs) -> Fit "ml_l" "ml_l" y everyone smpls ->
  (forall name z, In (name, z) zs -> Fit ("ml_m_" ++ name)%string "ml_m" z everyone smpls) -> Fit "ml_r" "ml_r" d everyone smpls ->
  plain_labels su "ml_l" y -> (forall name z, In (name, z) zs -> plain_labels su "ml_m" z) -> plain_labels su "ml_r" d -> pliv_xs_nuis L su proj x y d zs smpls = Ok out ->
  evaluated su out "ml_l" y all_of /\ evaluated su out "ml_r" d all_of /\ forall name z, In (name, z) zs -> evaluated su out ("ml_m_" ++ name)%string z all_of.
Proof.
  intros S Nd Fl Fm Fr Pl Pm Pr H. unfold pliv_xs_nuis in H. inv1 H. inv1 H. inv1 H. inv1 H. subst out.
  pose proof (several_targets x smpls S zs h0 Nd Fm Pm E1) as T. pose proof (several_keys x smpls zs h0 E1) as Keys.
  split; [eapply out_evaluated; [reflexivity|eapply hat_all; eassumption]|]. split.
  - eapply out_evaluated; [|eapply hat_all; eassumption]. cbn [dict_get fst]. replace (String.eqb "ml_r" "ml_l") with false by reflexivity. rewrite dict_get_app. destruct (dict_get "ml_r" h0) eqn:Ek; [apply Keys in Ek as (s & Ek); discriminate|reflexivity].
  - intros name z Hin. destruct (T name z Hin) as (hh & B1 & B2). eapply out_evaluated; [|exact B2]. cbn [dict_get fst]. replace (String.eqb ("ml_m_" ++ name) "ml_l") with false by reflexivity. rewrite dict_get_app, B1. reflexivity.
Qed.

Definition whole_targets (out : nuis_out) (name : string) (v : vec) : Prop := exists t, no_targets out name = Some t /\ forall i, (i < n)%nat -> t i = if all_of i then Some (v i) else None.
Lemma z_evaluated x zrow y d smpls out : setting L f g su smpls -> labels_ok L g su "ml_r" d everyone smpls -> plain_labels su "ml_r" d -> pliv_z_nuis L su x zrow y d smpls = Ok out -> whole_targets out "ml_r" d.
Proof.
  intros S Fr Pr H. unfold pliv_z_nuis in H. inv1 H. inv1 H. subst out. apply checked_inv in E0. apply (fit_all L f g) in E0 as (_ & _ & t & c & T1 & T2 & T3); [|assumption|exact Fr].
  exists t. split; [exact T1|]. intros i Hi. cbn. rewrite (T3 i Hi). f_equal. apply (faithful_codes su "ml_r" d c); assumption.
Qed.
Lemma xz_evaluated x zrow y d smpls out : setting L f g su smpls -> labels_ok L g su "ml_l" y everyone smpls -> plain_labels su "ml_l" y -> pliv_xz_nuis L su x zrow y d smpls = Ok out ->
  whole_targets out "ml_l" y /\ whole_targets out "ml_m" d /\ no_targets out "ml_r" = None.
Proof.
  intros S Fl Pl H. unfold pliv_xz_nuis in H. inv1 H. inv1 H. inv1 H. inv1 H. inv1 H. inv1 H. subst out. rename h0 into rm, h1 into rr.
  apply checked_inv in E0. apply (fit_all L f g) in E0 as (_ & _ & t & c & T1 & T2 & T3); [|assumption|exact Fl]. destruct S as [S1 S2 S3 S4 S5]. split; [|split].
  - exists t. split; [exact T1|]. intros i Hi. cbn. rewrite (T3 i Hi). f_equal. apply (faithful_codes su "ml_l" y c); assumption.
  - pose proof E1 as H. rewrite (cv_cases L _ _ _ _ _ _ _ _ _ _ S3 (cv_nonempty _ _ _ _ _ _ _ _ _ _ _ _ E1)) in H. match type of H with context [is_fast ?p ?y ?a ?b] => replace (is_fast p y a b) with false in H by (unfold is_fast; cbn; destruct (is_list_params p); reflexivity) end.
    apply (manual_inv L f g S1) in H; [|assumption|apply S5]. destruct H as (_ & _ & _ & u & U1 & U2). exists u. split; [exact U1|]. intros i Hi. exact (U2 i Hi).
  - pose proof E2 as H. rewrite (cv_cases L _ _ _ _ _ _ _ _ _ _ S3 (cv_nonempty _ _ _ _ _ _ _ _ _ _ _ _ E2)) in H.
    apply (manual_inv L f g S1) in H; [|assumption|apply S5]. destruct H as (_ & _ & _ & U). exact U.
Qed.
Lemma non_evaluated tts norm tr thr x zrow y d s smpls out : setting L f g su smpls -> ssm_non_nuis L su tts (length smpls) norm tr thr x zrow y d s smpls = Ok out ->
  whole_targets out "ml_pi" s /\ whole_targets out "ml_m" d /\ whole_targets out "ml_g_d1" y /\ whole_targets out "ml_g_d0" y.
Proof.
  intros [S1 S2 S3 S4 S5] H. unfold ssm_non_nuis in H. inv1 H. inv1 H. subst out. rewrite firstn_all.
  assert (T : forall v : vec, forall i, (i < n)%nat -> (if existsb (Nat.eqb i) (flat_map snd smpls) then Some (v i) else None) = if all_of i then Some (v i) else None).
  { intros v i Hi. replace (existsb _ _) with true; [reflexivity|]. symmetry. apply existsb_exists. exists i. split; [|apply Nat.eqb_refl]. apply (Permutation_in i (Permutation_sym S3)). apply in_seq. lia. }
  split; [|split; [|split]]; (eexists; split; [reflexivity|]; intros i Hi; cbn; apply T; exact Hi).
Qed.
End Targets.

Section Made.
Context {E P : Type}.
Variable L : learner E row P.
Variable rd : randomness.
Variable fr : M_Data.frame.
Variable s : M_Data.ddata.
Hypothesis Re : S_Data.reachable fr s.
Ltac kinds := unfold c_classifier, with_clusters; match goal with |- context [option_map ?f ?o] => destruct (option_map f o) end; cbn; repeat split; reflexivity.
Lemma pliv_iv_kinds proj zc ml_l ml_m ml_r ml_g nf nr draw C w0 : M_Data.r_z (M_Data.dd_roles s) = Some [zc] -> pliv_init L rd fr s proj ml_l ml_m ml_r ml_g nf nr (PStr "IV-type") draw = Ok (C, w0) ->
  forall l, ml_g = Some l -> c_classifier C "ml_g" = ly_classifier l.
Proof.
  intros Ez H. unfold pliv_init in H. bi H w B. destruct (arrays_r fr s Re) as (_ & Az & _). rewrite Az, Ez in H.
  bi H sc' Sc. apply score_iff in Sc as (Q & _). injection Q as <-. bi H cla Ll. bi H clb Lm. bi H clc Lr. cbv zeta in H. bi H gq G. apply ok_inj in H. injection H as <- <-.
  intros l ->. change (String.eqb "IV-type" "IV-type") with true in G. cbv iota in G. bi G lx Lx. apply ok_inj in G. subst gq. kinds.
Qed.
Lemma keys_m name : Nat.eqb (length (keys_in ["ml_l"; "ml_m"; "ml_r"] ("ml_m_" ++ name)%string)) 1 = true -> keys_in ["ml_l"; "ml_m"; "ml_r"] ("ml_m_" ++ name)%string = ["ml_m"].
Proof.
  unfold keys_in. cbn [filter]. change (contains "ml_m" ("ml_m_" ++ name)%string) with true. cbv iota. destruct (contains "ml_l" _), (contains "ml_r" _); cbn; intro H; try discriminate H. reflexivity.
Qed.
Lemma pliv_several_kinds proj zcs ml_l ml_m ml_r ml_g nf nr sc draw C w0 : M_Data.r_z (M_Data.dd_roles s) = Some zcs -> (2 <= length zcs)%nat -> pliv_init L rd fr s proj ml_l ml_m ml_r ml_g nf nr (PStr sc) draw = Ok (C, w0) ->
  c_classifier C "ml_l" = ly_classifier ml_l /\ c_classifier C "ml_r" = ly_classifier ml_r /\
  (one_key ["ml_l"; "ml_m"; "ml_r"] (map (fun c => "ml_m_" ++ c)%string zcs) = true -> forall z, In z zcs -> c_classifier C ("ml_m_" ++ z)%string = ly_classifier ml_m).
Proof.
  intros Ez Hz H. unfold pliv_init in H. bi H w B. destruct (arrays_r fr s Re) as (_ & Az & _). rewrite Az, Ez in H. destruct zcs as [|z0 [|z1 more]]; try (cbn in Hz; lia).
  bi H sc' Sc. apply score_iff in Sc as (Q & Qs). injection Q as <-. destruct Qs as [<-|[]]. bi H cla Ll. bi H clb Lm. bi H clc Lr. cbv zeta in H. bi H gq G. apply ok_inj in H. injection H as <- <-.
  assert (gq = []) as -> by (destruct ml_g; apply ok_inj in G; now subst gq).
  split; [kinds|]. split; [kinds|]. intros O z Hz'. unfold one_key in O. rewrite forallb_forall in O. specialize (O ("ml_m_" ++ z)%string). rewrite in_map_iff in O. specialize (O (ex_intro _ z (conj eq_refl Hz'))). apply keys_m in O.
  match goal with |- c_classifier (with_clusters _ _ ?D) _ = _ => destruct (clusters_same fr s D) as (_ & _ & _ & A4 & _) end.
  rewrite A4. cbn [asserting pliv_several_ctx c_classifier machine mc_classifier map fst app]. rewrite O. reflexivity.
Qed.
Lemma pliv_z_kinds proj dummy ml_r nf nr score draw C w0 : pliv_partial_z L rd fr s proj dummy ml_r nf nr score draw = Ok (C, w0) -> c_classifier C "ml_r" = ly_classifier ml_r.
Proof. intro H. unfold pliv_partial_z in H. bi H p Pi. bi H sc' Sc. bi H lr Lr. cbv zeta in H. apply ok_inj in H. injection H as <- <-. kinds. Qed.
Lemma pliv_xz_kinds proj ml_l ml_m ml_r nf nr score draw C w0 : pliv_partial_xz L rd fr s proj ml_l ml_m ml_r nf nr score draw = Ok (C, w0) -> c_classifier C "ml_l" = ly_classifier ml_l /\ c_classifier C "ml_m" = ly_classifier ml_m.
Proof. intro H. unfold pliv_partial_xz in H. bi H p Pi. bi H sc' Sc. cbv zeta in H. apply ok_inj in H. injection H as <- <-. kinds. Qed.
End Made.

Ltac ctx_more Ec fr s :=
  match type of Ec with ?C = with_clusters _ _ ?D =>
    destruct (clusters_same fr s D) as (A1 & A2 & A3 & A4 & A5); rewrite <- Ec in A1, A2, A3, A4, A5; cbn [c_n c_dcols c_learners c_nuis pliv_several_ctx pliv_z_ctx pliv_xz_ctx ssm_non_ctx] in A1, A2, A3, A5 end.

Lemma pliv_iv_loss : forall (E P : Type) (L : learner E row P) f g rd fr s proj zc ml_l ml_m ml_r ml_g nf nr draw C w0 w nj store ext smod w',
  S_Data.reachable fr s -> proper_clusters s -> sound_randomness rd -> M_Data.r_z (M_Data.dd_roles s) = Some [zc] ->
  pliv_init L rd fr s proj ml_l ml_m ml_r ml_g nf nr (PStr "IV-type") draw = Ok (C, w0) -> later C w0 w ->
  exists lg mc, ml_g = Some lg /\ mc_order mc = rd_order rd /\ runs_on mc "ml_l" ml_l false /\ runs_on mc "ml_m" ml_m false /\ runs_on mc "ml_r" ml_r false /\ runs_on mc "ml_g" lg false /\
  let n := M_Data.frows fr in let dcols := M_Data.r_d (M_Data.dd_roles s) in let y := outcome fr s in let z := col fr zc in
  (sound_learning L f g mc w -> fit C nj store ext smod w = (w', Ok tt) ->
  forall sm r t fs c, m_smpls (w_obj w) = Some sm -> nth_error sm r = Some fs -> nth_error dcols t = Some c -> let x := covariates fr s c in let d := col fr c in exists l m q gg th,
    used_prediction L f g mc w n ext r t c "ml_l" "ml_l" x y whole_train fs l /\ loss_reported w' r t ext c "ml_l" (ly_classifier ml_l) n l y everyone /\
    used_prediction L f g mc w n ext r t c "ml_m" "ml_m" x z whole_train fs m /\ loss_reported w' r t ext c "ml_m" (ly_classifier ml_m) n m z everyone /\
    used_prediction L f g mc w n ext r t c "ml_r" "ml_r" x d whole_train fs q /\ loss_reported w' r t ext c "ml_r" (ly_classifier ml_r) n q d everyone /\
    (sumf n (fun i => (z i - m i) * (d i - q i)) <> 0 -> th = sumf n (fun i => (z i - m i) * (y i - l i)) / sumf n (fun i => (z i - m i) * (d i - q i))) /\
    used_prediction L f g mc w n ext r t c "ml_g" "ml_g" x (fun i => y i - th * d i) whole_train fs gg /\ loss_reported w' r t ext c "ml_g" (ly_classifier lg) n gg (fun i => y i - th * d i) everyone).
Proof.
  intros until w'. intros Re Pc Rd Ez H La. destruct (pliv_made L rd fr s Re Rd _ _ _ _ _ _ _ _ _ _ _ H) as (z0 & more & mc & Ez' & _ & Ec & Sr & O & R1 & R2 & R3 & R4). rewrite Ez in Ez'. injection Ez' as <- <-. destruct (R4 eq_refl) as (lg & Eg & Rg). destruct (pliv_kinds L rd fr s Re _ zc _ _ _ _ _ _ _ _ _ _ Ez H) as (Kl & Km & Kr). pose proof (pliv_iv_kinds L rd fr s Re _ zc _ _ _ _ _ _ _ _ _ Ez H lg Eg) as Kg.
  pose proof (reached_later _ _ _ Sr La) as Sw. exists lg, mc. split; [exact Eg|]. split; [exact O|]. split; [exact R1|]. split; [exact R2|]. split; [exact R3|]. split; [exact Rg|]. intros n dcols y z Sl Hf. change (String.eqb "IV-type" "IV-type") with true in Ec. ctx_facts Ec fr s.
  fit_facts L f g mc C Hf Sw Sl Re Pc Ec A2. intros sm r t fs c Es Hr Ht. cbv zeta. destruct (x_of_at fr s Re t c Ht) as (<- & <-).
  destruct (Q sm r t fs c Es Hr) as (e & M & S & N & Lr & Lo & Le); [rewrite A2; exact Ht|]. rewrite A5 in N. rewrite A1 in *. cbv beta in N.
  assert (Fx : forall k l v, runs_on mc k l false -> fit_ok L g (setup_of mc (M_Data.frows fr) r t (fun l => nth r (m_params (w_obj w) l c) None) e) k k v everyone fs) by (intros k l v (_ & Rk) _ Hp; cbn [setup_of su_proba] in Hp; congruence).
  edestruct (pliv_iv_evaluated L f g) as (l & m & q & gg & th & N1 & N2 & N3 & Sl2 & N4 & P1 & P2 & P3 & P4 & V1 & V2 & V3 & V4); [exact S|eapply Fx; exact R1|eapply Fx; exact R2|eapply Fx; exact R3|intro v; eapply Fx; exact Rg|left; apply R1|left; apply R2|left; apply R3|apply Rg|exact N|].
  exists l, m, q, gg, th. split; [eapply rep_used; [apply M; inl A3|exact N1]|]. split; [rewrite <- Kl; eapply Lr; [inl A3|exact all_everyone|exact P1|exact V1]|].
  split; [eapply rep_used; [apply M; inl A3|exact N2]|]. split; [rewrite <- Km; eapply Lr; [inl A3|exact all_everyone|exact P2|exact V2]|].
  split; [eapply rep_used; [apply M; inl A3|exact N3]|]. split; [rewrite <- Kr; eapply Lr; [inl A3|exact all_everyone|exact P3|exact V3]|].
  split. { intro Hs. unfold slope_of in Sl2. cbn [setup_of su_n] in Sl2. assert (Q2 : sumf (M_Data.frows fr) (fun i => (d_of fr s t i - q i) * (z i - m i)) = sumf n (fun i => (z i - m i) * (d_of fr s t i - q i))) by (apply sumf_ext; intros; ring).
    rewrite ?Q2 in Sl2. specialize (Sl2 Hs). apply (Rmult_eq_reg_r (sumf n (fun i => (z i - m i) * (d_of fr s t i - q i)))); [|exact Hs]. etransitivity; [exact Sl2|]. unfold Rdiv. rewrite Rmult_assoc, Rinv_l, Rmult_1_r by exact Hs. reflexivity. }
  split; [eapply rep_used; [apply M; inl A3|exact N4]|]. rewrite <- Kg. eapply Lr; [inl A3|exact all_everyone|exact P4|exact V4].
Qed.

Lemma failing_fit {P} (C : ctx P) w nj store ext sm w' : c_dcols C <> [] -> soundly_reached C w -> (forall r t fs prm e o, c_nuis C r t fs prm e <> Ok o) -> fit C nj store ext sm w <> (w', Ok tt).
Proof.
  intros Hd Sr No H. destruct (fit_reports C w nj store ext sm w' Hd (reached_reachable _ w Sr) H) as (out & F & (spl & _ & _ & Nr) & _).
  destruct (c_dcols C) as [|c dc] eqn:Ed; [contradiction|]. destruct (Nr 0%nat 0%nat c) as (e & _ & N); [apply (wf_rep _ _ (reachable_wf _ _ (reached_reachable _ w Sr)))|rewrite ?Ed; reflexivity|]. exact (No _ _ _ _ _ _ N).
Qed.

Lemma pliv_several_loss : forall (E P : Type) (L : learner E row P) f g rd fr s zcs proj ml_l ml_m ml_r ml_g nf nr draw C w0 w nj store ext smod w',
  S_Data.reachable fr s -> proper_clusters s -> sound_randomness rd -> M_Data.r_z (M_Data.dd_roles s) = Some zcs -> (2 <= length zcs)%nat ->
  pliv_init L rd fr s proj ml_l ml_m ml_r ml_g nf nr (PStr "partialling out") draw = Ok (C, w0) -> later C w0 w ->
  exists mc, mc_order mc = rd_order rd /\ runs_on mc "ml_l" ml_l false /\ runs_on mc "ml_m" ml_m false /\ runs_on mc "ml_r" ml_r false /\
  let n := M_Data.frows fr in let dcols := M_Data.r_d (M_Data.dd_roles s) in let y := outcome fr s in
  (sound_learning L f g mc w -> fit C nj store ext smod w = (w', Ok tt) ->
  forall sm r t fs c, m_smpls (w_obj w) = Some sm -> nth_error sm r = Some fs -> nth_error dcols t = Some c -> let x := covariates fr s c in let d := col fr c in exists l q (m : string -> vec),
    used_prediction L f g mc w n ext r t c "ml_l" "ml_l" x y whole_train fs l /\ loss_reported w' r t ext c "ml_l" (ly_classifier ml_l) n l y everyone /\
    used_prediction L f g mc w n ext r t c "ml_r" "ml_r" x d whole_train fs q /\ loss_reported w' r t ext c "ml_r" (ly_classifier ml_r) n q d everyone /\
    forall z, In z zcs -> used_prediction L f g mc w n ext r t c ("ml_m_" ++ z)%string "ml_m" x (col fr z) whole_train fs (m z) /\ loss_reported w' r t ext c ("ml_m_" ++ z)%string (ly_classifier ml_m) n (m z) (col fr z) everyone).
Proof.
  intros until w'. intros Re Pc Rd Ez Hz H La. destruct (pliv_made L rd fr s Re Rd _ _ _ _ _ _ _ _ _ _ _ H) as (z0 & more & mc & Ez' & _ & Ec & Sr & O & R1 & R2 & R3 & _). destruct (pliv_several_kinds L rd fr s Re _ zcs _ _ _ _ _ _ _ _ _ _ Ez Hz H) as (Kl & Kr & Km). rewrite Ez in Ez'. injection Ez' as ->. destruct more as [|z1 more]; [cbn in Hz; lia|].
  pose proof (reached_later _ _ _ Sr La) as Sw. exists mc. split; [exact O|]. split; [exact R1|]. split; [exact R2|]. split; [exact R3|]. intros n dcols y Sl Hf.
  destruct (one_key _ _); [rewrite asserting_true in *|exfalso; match type of Ec with C = with_clusters _ _ ?D => destruct (clusters_same fr s D) as (_ & B2 & _ & _ & B5) end; rewrite <- Ec in B2, B5; eapply failing_fit; [rewrite B2; exact (some_treatment fr s Re)|exact Sw| |exact Hf]; intros; rewrite B5; cbn [asserting c_nuis]; destruct (c_nuis (pliv_several_ctx _ _ _ _ _ _ _ _ _) _ _ _ _ _); discriminate]. specialize (Km eq_refl). ctx_more Ec fr s.
  fit_facts L f g mc C Hf Sw Sl Re Pc Ec A2. intros sm r t fs c Es Hr Ht. cbv zeta. destruct (x_of_at fr s Re t c Ht) as (<- & <-).
  destruct (Q sm r t fs c Es Hr) as (e & M & S & N & Lr & Lo & Le); [rewrite A2; exact Ht|]. rewrite A5 in N. rewrite A1 in *. cbv beta in N. set (zs := map (fun c => (c, col fr c)) (z0 :: z1 :: more)) in *.
  assert (Fx : forall k name l v, runs_on mc k l false -> fit_ok L g (setup_of mc (M_Data.frows fr) r t (fun l => nth r (m_params (w_obj w) l c) None) e) name k v everyone fs) by (intros k name l v (_ & Rk) _ Hp; cbn [setup_of su_proba] in Hp; congruence).
  assert (Nd : NoDup (map fst zs)). { unfold zs. rewrite map_map, map_id. exact (instruments_distinct fr s Re _ Ez). }
  edestruct (pliv_several L f g) as (l & q & m & N1 & N2 & P1 & P2 & N3 & _); [exact S|exact Nd|eapply Fx; exact R1|intros; eapply Fx; exact R2|eapply Fx; exact R3|exact N|].
  edestruct (several_evaluated L f g) as (V1 & V2 & V3); [exact S|exact Nd|eapply Fx; exact R1|intros; eapply Fx; exact R2|eapply Fx; exact R3|left; apply R1|intros; left; apply R2|left; apply R3|exact N|].
  exists l, q, m. split; [eapply rep_used; [apply M; inl A3|exact N1]|]. split; [rewrite <- Kl; eapply Lr; [inl A3|exact all_everyone|exact P1|exact V1]|].
  split; [eapply rep_used; [apply M; inl A3|exact N2]|]. split; [rewrite <- Kr; eapply Lr; [inl A3|exact all_everyone|exact P2|exact V2]|].
  intros z Iz. assert (Hin : In (z, col fr z) zs) by (unfold zs; apply in_map_iff; exists z; auto). destruct (N3 z _ Hin) as (N4 & P4). assert (Ic : In ("ml_m_" ++ z)%string (c_learners C)). { rewrite A3. right. right. unfold zs. rewrite map_map. apply in_map_iff. exists z. auto. }
  split; [eapply rep_used; [apply M; exact Ic|exact N4]|]. rewrite <- (Km z Iz). eapply Lr; [exact Ic|exact all_everyone|exact P4|exact (V3 z _ Hin)].
Qed.

Lemma pliv_z_loss : forall (E P : Type) (L : learner E row P) f g rd fr s proj dummy ml_r nf nr score draw C w0 w nj store ext smod w',
  S_Data.reachable fr s -> proper_clusters s -> sound_randomness rd ->
  pliv_partial_z L rd fr s proj dummy ml_r nf nr score draw = Ok (C, w0) -> later C w0 w ->
  exists mc, mc_order mc = rd_order rd /\ runs_on mc "ml_r" ml_r false /\
  let n := M_Data.frows fr in let dcols := M_Data.r_d (M_Data.dd_roles s) in let zrow := feats fr (M_Data.optl (M_Data.r_z (M_Data.dd_roles s))) in
  (sound_learning L f g mc w -> fit C nj store ext smod w = (w', Ok tt) ->
  forall sm r t fs c, m_smpls (w_obj w) = Some sm -> nth_error sm r = Some fs -> nth_error dcols t = Some c -> let x := covariates fr s c in let d := col fr c in exists q,
    cross_fitted L f g (setup_of mc n r t (fun l => nth r (m_params (w_obj w) l c) None) (fun _ => None)) "ml_r" "ml_r" (fun i => x i ++ zrow i)%list d whole_train fs q /\
    loss_over w' r t "ml_r" (ly_classifier ml_r) n q d everyone).
Proof.
  intros until w'. intros Re Pc Rd H La. destruct (pliv_z_made L rd fr s Re Rd _ _ _ _ _ _ _ _ _ H) as (mc & Ec & Sr & O & R1). pose proof (pliv_z_kinds L rd fr s _ _ _ _ _ _ _ _ _ H) as Kr.
  pose proof (reached_later _ _ _ Sr La) as Sw. exists mc. split; [exact O|]. split; [exact R1|]. intros n dcols zrow Sl Hf. ctx_more Ec fr s.
  fit_facts L f g mc C Hf Sw Sl Re Pc Ec A2. intros sm r t fs c Es Hr Ht. cbv zeta. destruct (x_of_at fr s Re t c Ht) as (<- & <-).
  destruct (Q sm r t fs c Es Hr) as (e & M & S & N & Lr & Lo & Le); [rewrite A2; exact Ht|]. rewrite A5 in N. rewrite A1 in *. cbv beta in N. set (su := setup_of mc (M_Data.frows fr) r t (fun l => nth r (m_params (w_obj w) l c) None) e) in *.
  assert (Fr : labels_ok L g su "ml_r" (d_of fr s t) everyone fs) by (intro Hp; destruct R1 as (_ & R1); cbn [su setup_of su_proba] in Hp; congruence).
  edestruct (pliv_z L f g) as (q & N1 & P1 & _); [exact S|exact Fr|exact N|]. epose proof (z_evaluated L f g su _ _ _ _ _ _ S Fr (or_introl (proj2 R1)) N) as V.
  exists q. split; [exact N1|]. rewrite <- Kr. eapply Lo; [inl A3|exact all_everyone|exact P1|exact V].
Qed.

Lemma pliv_xz_loss : forall (E P : Type) (L : learner E row P) f g rd fr s proj ml_l ml_m ml_r nf nr score draw C w0 w nj store ext smod w',
  S_Data.reachable fr s -> proper_clusters s -> sound_randomness rd ->
  pliv_partial_xz L rd fr s proj ml_l ml_m ml_r nf nr score draw = Ok (C, w0) -> later C w0 w ->
  exists mc, mc_order mc = rd_order rd /\ runs_on mc "ml_l" ml_l false /\ runs_on mc "ml_m" ml_m false /\ runs_on mc "ml_r" ml_r false /\
  let n := M_Data.frows fr in let dcols := M_Data.r_d (M_Data.dd_roles s) in let y := outcome fr s in let zrow := feats fr (M_Data.optl (M_Data.r_z (M_Data.dd_roles s))) in
  (sound_learning L f g mc w -> fit C nj store ext smod w = (w', Ok tt) ->
  forall sm r t fs c, m_smpls (w_obj w) = Some sm -> nth_error sm r = Some fs -> nth_error dcols t = Some c -> let x := covariates fr s c in let d := col fr c in
    let su := setup_of mc n r t (fun l => nth r (m_params (w_obj w) l c) None) (fun _ => None) in exists l m mt,
    cross_fitted L f g su "ml_l" "ml_l" x y whole_train fs l /\ loss_over w' r t "ml_l" (ly_classifier ml_l) n l y everyone /\
    projected L f su x (fun i => x i ++ zrow i)%list d fs m mt /\ loss_over w' r t "ml_m" (ly_classifier ml_m) n m d everyone /\ loss_entry w' r t "ml_r" None).
Proof.
  intros until w'. intros Re Pc Rd H La. destruct (pliv_xz_made L rd fr s Re Rd _ _ _ _ _ _ _ _ _ _ H) as (mc & Ec & Sr & O & R1 & R2 & R3). destruct (pliv_xz_kinds L rd fr s _ _ _ _ _ _ _ _ _ _ H) as (Kl & Km).
  pose proof (reached_later _ _ _ Sr La) as Sw. exists mc. split; [exact O|]. split; [exact R1|]. split; [exact R2|]. split; [exact R3|]. intros n dcols y zrow Sl Hf. ctx_more Ec fr s.
  fit_facts L f g mc C Hf Sw Sl Re Pc Ec A2. intros sm r t fs c Es Hr Ht. cbv zeta. destruct (x_of_at fr s Re t c Ht) as (<- & <-).
  destruct (Q sm r t fs c Es Hr) as (e & M & S & N & Lr & Lo & Le); [rewrite A2; exact Ht|]. rewrite A5 in N. rewrite A1 in *. cbv beta in N. set (su := setup_of mc (M_Data.frows fr) r t (fun l => nth r (m_params (w_obj w) l c) None) e) in *.
  assert (Fl : labels_ok L g su "ml_l" y everyone fs) by (intro Hp; destruct R1 as (_ & R1); cbn [su setup_of su_proba] in Hp; congruence).
  edestruct (pliv_xz L f g) as (l & m & mt & N1 & N2 & P1 & P2 & P3 & _); [exact S|exact Fl|exact N|]. destruct (xz_evaluated L f g su _ _ _ _ _ _ S Fl (or_introl (proj2 R1)) N) as (V1 & V2 & V3).
  exists l, m, mt. split; [exact N1|]. split; [rewrite <- Kl; eapply Lo; [inl A3|exact all_everyone|exact P1|exact V1]|]. split; [exact N2|]. split; [rewrite <- Km; eapply Lo; [inl A3|exact all_everyone|exact P2|exact V2]|].
  apply Le; [inl A3|exact V3].
Qed.

Lemma ssm_non_loss : forall (E P : Type) (L : learner E row P) f g rd fr s tts ml_g ml_pi ml_m nf nr norm rule thr draw C w0 w nj store ext smod w',
  S_Data.reachable fr s -> proper_clusters s -> sound_randomness rd ->
  ssm_init L rd fr s tts ml_g ml_pi ml_m nf nr (PStr "nonignorable") norm rule thr draw = Ok (C, w0) -> later C w0 w ->
  exists sel th mc, M_Data.r_s (M_Data.dd_roles s) = Some sel /\ thr = PFloat th /\ mc_order mc = rd_order rd /\ clone_of L mc "ml_g" ml_g (ly_classifier ml_g) /\ clone_of L mc "ml_pi" ml_pi true /\ clone_of L mc "ml_m" ml_m true /\
  let n := M_Data.frows fr in let dcols := M_Data.r_d (M_Data.dd_roles s) in let y := outcome fr s in let a := col fr sel in let zrow := feats fr (M_Data.optl (M_Data.r_z (M_Data.dd_roles s))) in
  (sound_learning L f g mc w -> classifier_ok L g -> fit C nj store ext smod w = (w', Ok tt) ->
  forall sm r t fs c, m_smpls (w_obj w) = Some sm -> nth_error sm r = Some fs -> nth_error dcols t = Some c -> let x := covariates fr s c in let d := col fr c in exists pi m0 m g1 g0,
    nested_selection L f g (setup_of mc n r t (fun l => nth r (m_params (w_obj w) l c) None) (fun _ => None)) (tts r t) x zrow y d a fs pi m0 g1 g0 /\
    loss_over w' r t "ml_pi" (ly_classifier ml_pi) n pi a everyone /\ (forall i, (i < n)%nat -> m i = Rmin (Rmax (m0 i) th) (1 - th)) /\ loss_over w' r t "ml_m" (ly_classifier ml_m) n m d everyone /\
    loss_over w' r t "ml_g_d1" (ly_classifier ml_g) n g1 y everyone /\ loss_over w' r t "ml_g_d0" (ly_classifier ml_g) n g0 y everyone).
Proof.
  intros until w'. intros Re Pc Rd H La. destruct (ssm_made L rd fr s Re Rd _ _ _ _ _ _ _ _ _ _ _ _ _ H) as (sel & mc & nm & th & st & Es0 & Ec & Sr & O & R1 & R2 & R3 & _ & Et & _). destruct (ssm_kinds L rd fr s _ _ _ _ _ _ _ _ _ _ _ _ _ H) as (K0 & K1 & Kp & Km).
  pose proof (reached_later _ _ _ Sr La) as Sw. exists sel, th, mc. split; [exact Es0|]. split; [exact Et|]. split; [exact O|]. split; [exact R1|]. split; [exact R2|]. split; [exact R3|]. intros n dcols y a zrow Sl Hc Hf. change (String.eqb "nonignorable" "nonignorable") with true in Ec. cbv iota in Ec. ctx_more Ec fr s.
  fit_facts L f g mc C Hf Sw Sl Re Pc Ec A2. intros sm r t fs c Es Hr Ht. cbv zeta. destruct (x_of_at fr s Re t c Ht) as (<- & <-).
  destruct (Q sm r t fs c Es Hr) as (e & M & S & N & Lr & Lo & Le); [rewrite A2; exact Ht|]. rewrite A5 in N. rewrite A1 in *. cbv beta in N. set (su := setup_of mc (M_Data.frows fr) r t (fun l => nth r (m_params (w_obj w) l c) None) e) in *.
  edestruct (ssm_non L f g) as (pi & m0 & m & g1 & g0 & N1 & Tm & P1 & P2 & P3 & P4 & _); [exact S|exact Hc|exact N|]. destruct (non_evaluated L f g su _ _ _ _ _ _ _ _ _ _ _ S N) as (V1 & V2 & V3 & V4).
  exists pi, m0, m, g1, g0. split; [exact N1|]. split; [rewrite <- Kp; eapply Lo; [inl A3|exact all_everyone|exact P1|exact V1]|]. split; [exact Tm|]. split; [rewrite <- Km; eapply Lo; [inl A3|exact all_everyone|exact P2|exact V2]|].
  split; [rewrite <- K1; eapply Lo; [inl A3|exact all_everyone|exact P3|exact V3]|]. rewrite <- K0. eapply Lo; [inl A3|exact all_everyone|exact P4|exact V4].
Qed.

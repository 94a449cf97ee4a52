(** The classes read the data object as their constructors describe it. *)
From Verif Require Export L_Shared.
From Verif Require Import L_DataOps L_DataProps L_Data L_InitMade L_InitAccept.
From Coq Require Import Lia Lra.
Local Open Scope R_scope.
Local Open Scope string_scope.

Lemma ok_same {A} (x y : A) : Ok x = Ok y -> x = y.
Proof. congruence. Qed.
(** Fields of a class with or without clusters. *)
Lemma cl_alike {P} f s c l (C C' : ctx P) : alike C C' -> alike (with_clusters f s C) (with_clusters f (M_Data.with_xd s c l) C').
Proof. intros [A B D E F G H I]. unfold with_clusters. cbn [M_Data.with_xd M_Data.c_cl]. destruct (M_Data.c_cl s) as [cl|]; cbn; constructor; assumption || reflexivity. Qed.
Lemma cl_alike_at {P} f s c l t (C C' : ctx P) : alike_at t C C' -> alike_at t (with_clusters f s C) (with_clusters f (M_Data.with_xd s c l) C').
Proof. intros (A & N & Q). split; [apply cl_alike, A|]. unfold with_clusters. cbn [M_Data.with_xd M_Data.c_cl]. destruct (M_Data.c_cl s) as [cl|]; cbn; split; assumption. Qed.
Lemma cl_dcols {P} f s (C : ctx P) : c_dcols (with_clusters f s C) = c_dcols C.
Proof. unfold with_clusters. destruct (option_map _ _); reflexivity. Qed.
Lemma pure_arrays f s t c : S_Data.reachable f s -> nth_error (M_Data.r_d (M_Data.dd_roles s)) t = Some c -> x_of f s t = feats f (M_Data.xd_list s c) /\ d_of f s t = col f c.
Proof.
  intros Re Hc. destruct (x_of_at f s Re t c Hc) as (A & B). split; [|exact B]. rewrite A. unfold covariates. f_equal. symmetry. apply (xd_list_features f); [apply (roles_reachable _ _ Re)|exact (nth_error_In _ _ Hc)].
Qed.
Lemma single_arrays f s : S_Data.reachable f s -> feats f (M_Data.c_x s) = feats f (M_Data.xd_list s (M_Data.c_d s)).
Proof. intro Re. apply reachable_inv in Re. destruct Re as [_ _ _ IX _ _ _ _]. now rewrite IX at 1. Qed.
Ltac alike0 := constructor; cbn; try reflexivity; split; (discriminate || (intro; reflexivity) || auto).
(** Several treatments. *)
Ltac several Re := split; [rewrite cl_dcols; reflexivity|]; let c := fresh in intros ? (c & ? & ->); split; [apply cl_alike; alike0|];
  let t := fresh "t" in let c' := fresh "c" in let Hc := fresh "Hc" in let X := fresh "X" in let D := fresh "D" in
  intros t c' Hc <-; apply cl_alike_at; cbn [M_Data.with_xd M_Data.c_d] in Hc; destruct (pure_arrays _ _ _ _ Re Hc) as (X & D);
  split; [alike0|]; split; [intro; cbn; rewrite X, D; reflexivity|];
  let Hg := fresh in let Hg' := fresh in intros ? ? Hg Hg'; cbn in Hg, Hg'; (discriminate || (injection Hg as <-; injection Hg' as <-; intro; rewrite D; reflexivity)).
(** One treatment. *)
Ltac single Re One := split; [rewrite cl_dcols; cbn; rewrite One; reflexivity|]; let Ic := fresh in let X := fresh in intros ? (? & Ic & ->); rewrite One in Ic; destruct Ic as [<-|[]];
  pose proof (single_arrays _ _ Re) as X; (split; [apply cl_alike; alike0|]);
  intros ? ? ? <-; apply cl_alike_at; split; [alike0|]; split; [intro; cbn; rewrite X; reflexivity|];
  let Hg := fresh in let Hg' := fresh in intros ? ? Hg Hg'; cbn in Hg, Hg'; (discriminate || (injection Hg as <-; injection Hg' as <-; intro; reflexivity)).

Section Made.
Context {E P : Type}.
Variables (L : learner E row P) (rd : randomness) (f : M_Data.frame) (s : M_Data.ddata).
Hypothesis Re : S_Data.reachable f s.
Ltac bi H x X := apply bind_ok in H as (x & X & H).
Ltac ri H X := apply require_ok in H as (X & H).
Lemma one_of b : one_treat s && b = true -> M_Data.r_d (M_Data.dd_roles s) = [M_Data.c_d s].
Proof. intro H. apply andb_true_iff in H as (H & _). exact (one_treat_r f s Re H). Qed.
Lemma plr_follows ml_l ml_m ml_g nf nr score draw C w0 : plr_init L rd f s ml_l ml_m ml_g nf nr score draw = Ok (C, w0) -> exists mc iv, follows s C (live_plr L mc f iv).
Proof.
  intro H. unfold plr_init in H. bi H w B. ri H Zn. bi H sc Sc. bi H cla Ll. bi H mc Lm. cbv zeta in H. bi H g G. bi H u Bn. apply ok_same in H. injection H as <- _.
  match goal with |- context [plr_ctx _ ?m _ _ ?i _ _ _ _] => exists m, i end. unfold live_plr. several Re.
Qed.
Lemma irm_follows ml_g ml_m nf nr score wa norm rule thr draw C w0 : irm_init L rd f s ml_g ml_m nf nr score wa norm rule thr draw = Ok (C, w0) -> exists mc atte nm th st, follows s C (live_irm L mc f atte nm th (weights_of wa) st).
Proof.
  intro H. unfold irm_init in H. bi H w B. ri H Zn. ri H D. bi H sc' Sc. bi H w' Rw. bi H gc G. bi H mm M. bi H u Og. bi H nm Nm. bi H th T. cbv zeta in H. bi H u' W. apply ok_same in H. injection H as <- _.
  pose proof (one_of _ D) as One. match goal with |- context [irm_ctx _ ?m _ _ ?a ?b _ _ ?c _ _ _ _ ?d] => exists m, a, b, c, d end. unfold live_irm. single Re One.
Qed.
Lemma apo_follows ml_g ml_m level nf nr score wa norm rule thr draw C w0 : apo_init L rd f s ml_g ml_m level nf nr score wa norm rule thr draw = Ok (C, w0) -> exists mc nm th st, follows s C (live_apo L mc f nm th (weights_of wa) (treated_at f s level) st).
Proof.
  intro H. unfold apo_init in H. bi H w B. cbv zeta in H. ri H D. ri H Zn. ri H Tr. bi H sc' Sc. bi H w' Rw. bi H gc G. bi H mm M. bi H u Og. bi H nm1 Nm. bi H th1 T. bi H u' W. apply ok_same in H. injection H as <- _.
  assert (One : M_Data.r_d (M_Data.dd_roles s) = [M_Data.c_d s]). { apply (one_of true). rewrite andb_true_r. unfold one_treat. pose proof (some_treatment f s Re) as N. destruct (M_Data.r_d (M_Data.dd_roles s)) as [|a [|b l]]; [contradiction|reflexivity|discriminate D]. }
  match goal with |- context [apo_ctx _ ?m _ _ ?b _ _ ?c _ _ _ _ _ ?d] => exists m, b, c, d end. unfold live_apo. single Re One.
Qed.
Lemma iivm_follows ml_g ml_m ml_r nf nr score sg norm rule thr draw C w0 : iivm_init L rd f s ml_g ml_m ml_r nf nr score sg norm rule thr draw = Ok (C, w0) -> exists mc nm a b th zc st, M_Data.r_z (M_Data.dd_roles s) = Some [zc] /\ follows s C (live_iivm L mc f nm a b th zc st).
Proof.
  intro H. unfold iivm_init in H. bi H w B. ri H D. destruct (arrays_r f s Re) as (_ & Az & _). destruct (M_Data.c_z s) as [[|z [|z' l]]|]; try discriminate. ri H Zn. bi H sc' Sc. cbv zeta in H. bi H w' Rw. bi H gc G. bi H mm M. bi H rr Mr. bi H u Og. bi H nm Nm. bi H th T. bi H p W. apply ok_same in H. injection H as <- _.
  pose proof (one_of _ D) as One. match goal with |- context [iivm_ctx _ ?m _ _ ?b _ ?x ?y _ ?c _ _ _ _ ?d] => exists m, b, x, y, c, z, d end. split; [symmetry; exact Az|]. unfold live_iivm. single Re One.
Qed.
Lemma did_follows ml_g ml_m nf nr score norm rule thr draw C w0 : did_init L rd f s ml_g ml_m nf nr score norm rule thr draw = Ok (C, w0) -> exists mc obs nm th st, follows s C (live_did L mc f obs nm th st).
Proof.
  intro H. unfold did_init in H. bi H w B. ri H Zn. ri H D. bi H sc' Sc. bi H nm Nm. bi H w' Rw. cbv zeta in H. bi H ls G. bi H th T. apply ok_same in H. injection H as <- _.
  pose proof (one_of _ D) as One. match goal with |- context [did_ctx _ ?m _ _ ?a ?b _ ?c _ _ _ ?d] => exists m, a, b, c, d end. unfold live_did. single Re One.
Qed.
Lemma cs_follows ml_g ml_m nf nr score norm rule thr draw C w0 : cs_init L rd f s ml_g ml_m nf nr score norm rule thr draw = Ok (C, w0) -> exists mc obs nm th tc st, M_Data.r_t (M_Data.dd_roles s) = Some tc /\ follows s C (live_cs L mc f obs nm th tc st).
Proof.
  intro H. unfold cs_init in H. bi H w B. ri H Zn. ri H D. destruct (arrays_r f s Re) as (_ & _ & At & _). destruct (M_Data.c_t s) as [tc|]; [|discriminate]. ri H Z1. bi H sc' Sc. bi H nm Nm. cbv zeta in H. bi H w' Rw. bi H ls G. bi H th T. apply ok_same in H. injection H as <- _.
  pose proof (one_of _ D) as One. match goal with |- context [cs_ctx _ ?m _ _ ?a ?b _ ?c _ _ _ _ ?d] => exists m, a, b, c, tc, d end. split; [symmetry; exact At|]. unfold live_cs. single Re One.
Qed.
Lemma ssm_follows tts ml_g ml_pi ml_m nf nr score norm rule thr draw C w0 : ssm_init L rd f s tts ml_g ml_pi ml_m nf nr score norm rule thr draw = Ok (C, w0) ->
  exists mc nm th selc st, M_Data.r_s (M_Data.dd_roles s) = Some selc /\ (follows s C (live_ssm L mc f nm th selc st) \/ follows s C (live_ssm_non L mc f tts nm th selc st)).
Proof.
  intro H. unfold ssm_init in H. bi H w B. bi H th T. ri H Zq. bi H sc Sc. destruct (arrays_r f s Re) as (_ & _ & _ & As & _). destruct (M_Data.c_s s) as [selc|]; [|discriminate]. cbv zeta in H. bi H w' Rw. bi H gc G. bi H p1 Mp. bi H mm M. bi H u Og. bi H nm Nm. apply ok_same in H. injection H as <- _.
  match goal with |- context [ssm_ctx _ ?m _ _ ?b _ ?c _ _ _ _ ?d] => exists m, b, c, selc, d end. split; [symmetry; exact As|]. destruct (String.eqb sc "nonignorable"); [right; unfold live_ssm_non|left; unfold live_ssm]; several Re.
Qed.
Lemma pliv_follows proj ml_l ml_m ml_r ml_g nf nr score draw C w0 : pliv_init L rd f s proj ml_l ml_m ml_r ml_g nf nr score draw = Ok (C, w0) ->
  exists mc, (exists iv zc, M_Data.r_z (M_Data.dd_roles s) = Some [zc] /\ follows s C (live_pliv L mc f iv zc)) \/
    exists zs, M_Data.r_z (M_Data.dd_roles s) = Some zs /\ (1 < length zs)%nat /\ follows s C (live_pliv_several L mc f proj zs).
Proof.
  intro H. unfold pliv_init in H. bi H w B. destruct (arrays_r f s Re) as (_ & Az & _). destruct (M_Data.c_z s) as [[|zc more]|]; try discriminate. bi H sc Sc. bi H a1 L1. bi H a2 L2. bi H a3 L3. cbv zeta in H. bi H g G. apply ok_same in H. injection H as <- _.
  match goal with |- context [pliv_ctx _ ?m _ _ ?i] => exists m; pose (iv := i); set (mc0 := m) end. destruct more as [|z2 more].
  - left. exists iv, zc. split; [symmetry; exact Az|]. unfold live_pliv. several Re.
  - right. exists (zc :: z2 :: more). split; [symmetry; exact Az|]. split; [cbn; lia|]. assert (Q : forall b, follows s (with_clusters f s (asserting b (pliv_several_ctx L mc0 (M_Data.frows f) proj (M_Data.r_d (M_Data.dd_roles s)) (x_of f s) (col f (M_Data.c_y s)) (d_of f s) (map (fun c => (c, col f c)) (zc :: z2 :: more)))))
      (fun s => with_clusters f s (asserting b (pliv_several_ctx L mc0 (M_Data.frows f) proj (M_Data.r_d (M_Data.dd_roles s)) (fun _ => feats f (M_Data.c_x s)) (col f (M_Data.c_y s)) (fun _ => col f (M_Data.c_d s)) (map (fun c => (c, col f c)) (zc :: z2 :: more)))))) by (intros []; several Re).
    exact (Q _).
Qed.
End Made.

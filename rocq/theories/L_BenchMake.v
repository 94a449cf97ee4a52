(** Constructor calls on a data object with other covariates. *)
From Verif Require Import M_Data.
From Verif Require Export S_Bench L_InitMade.
From Coq Require Import Lia Lra.
Local Open Scope R_scope.
Local Open Scope res_scope.
Local Open Scope string_scope.

Definition but_x (s : M_Data.ddata) (x xs : list string) (fo : M_Data.force) : M_Data.ddata :=
  M_Data.mk_dd (M_Data.set_rx (M_Data.dd_roles s) x) (M_Data.dd_other s) fo (M_Data.dd_bt s) (M_Data.dd_by s)
    (M_Data.c_y s) (M_Data.c_z s) (M_Data.c_t s) (M_Data.c_s s) (M_Data.c_d s) xs (M_Data.c_cl s).

Section Make.
Context {E P : Type}.
Variable L : learner E row P.
Variable rd : randomness.
Variable f : M_Data.frame.
Lemma bind_ok2 {A B C} (r : result A) (k : A -> result B) (k' : A -> result C) (Q : B -> C -> Prop) b :
  bind r k = Ok b -> (forall a, r = Ok a -> k a = Ok b -> exists c, k' a = Ok c /\ Q b c) -> exists c, bind r k' = Ok c /\ Q b c.
Proof. destruct r as [a|e]; cbn; intros H K; [apply (K a); auto|discriminate]. Qed.
Lemma require_ok2 {B C} (q : bool) e (k : result B) (k' : result C) (Q : B -> C -> Prop) b :
  require q e k = Ok b -> (q = true -> k = Ok b -> exists c, k' = Ok c /\ Q b c) -> exists c, require q e k' = Ok c /\ Q b c.
Proof. destruct q; cbn; intros H K; [apply K; auto|discriminate]. Qed.
Definition alike (a b : ctx P * world P) : Prop := snd b = snd a /\ same_shape (fst a) (fst b) /\ (exists e, c_sens (fst a) = Some e) /\ exists e, c_sens (fst b) = Some e.
Lemma alike_ok s x xs fo (C C' : ctx P) w : c_n C = c_n C' -> c_dcols C = c_dcols C' -> (exists e, c_sens C = Some e) -> (exists e, c_sens C' = Some e) -> c_cluster C = c_cluster C' ->
  alike (with_clusters f s C, w) (with_clusters f (but_x s x xs fo) C', w).
Proof.
  intros A B D F G. split; [reflexivity|]. unfold with_clusters, same_shape. cbn [fst M_Data.c_cl but_x]. destruct (M_Data.c_cl s) as [cl|]; cbn; auto.
Qed.
Ltac step H := first
  [ refine (bind_ok2 _ _ _ alike _ H _); let a := fresh "a" in let A := fresh "A" in intros a A; clear A; clear H; intro H; cbv zeta in H |- *
  | refine (require_ok2 _ _ _ _ alike _ H _); let A := fresh "A" in intro A; clear A; clear H; intro H ].
Ltac fin H := apply ok_inj in H; subst; eexists; split; [reflexivity|]; apply alike_ok; try reflexivity; eexists; reflexivity.
Lemma make_without c s x xs fo o : make L rd f c s = Ok o -> exists o', make L rd f c (but_x s x xs fo) = Ok o' /\ alike o o'.
Proof.
  intro H. destruct c; cbn [make] in H |- *.
  - unfold plr_init in H |- *. repeat step H. fin H.
  - unfold irm_init in H |- *. repeat step H. fin H.
  - unfold apo_init in H |- *. repeat step H. fin H.
  - unfold did_init in H |- *. repeat step H. fin H.
  - unfold cs_init in H |- *. cbn [M_Data.c_t but_x] in *. step H. step H. step H. destruct (M_Data.c_t s) as [tc|]; [|discriminate]. repeat step H. fin H.
Qed.
(** The flag of the finiteness check is not read. *)
Lemma make_force c s x xs fo fo' : make L rd f c (but_x s x xs fo) = make L rd f c (but_x s x xs fo').
Proof. destruct c; reflexivity. Qed.
Lemma make_reached c s C w0 : S_Data.reachable f s -> sound_randomness rd -> make L rd f c s = Ok (C, w0) -> soundly_reached C w0 /\ c_dcols C = M_Data.r_d (M_Data.dd_roles s) /\ c_dcols C <> [] /\ exists e, c_sens C = Some e.
Proof.
  intros Re Rd H. assert (N : M_Data.r_d (M_Data.dd_roles s) <> []) by exact (some_treatment f s Re).
  assert (D : forall C1 : ctx P, c_dcols (with_clusters f s C1) = c_dcols C1) by (intro; unfold with_clusters; destruct (option_map _ _); reflexivity).
  assert (S1 : forall C1 : ctx P, c_sens (with_clusters f s C1) = c_sens C1) by (intro; unfold with_clusters; destruct (option_map _ _); reflexivity).
  assert (Sc : forall v valid sc, check_score v valid = Ok sc -> v = PStr sc) by (intros v valid sc Q; apply score_iff in Q as (Q & _); exact Q).
  destruct c; cbn [make] in H.
  - assert (Z : exists sc, score = PStr sc). { unfold plr_init in H. bi H w B. ri H Zn. bi H sc' Q. eauto. } destruct Z as (sc & ->).
    destruct (plr_made L rd f s Re Rd _ _ _ _ _ _ _ _ _ H) as (mc & bin & EC & R & _). split; [exact R|]. rewrite EC, D, S1. split; [reflexivity|]. split; [exact N|]. eexists; reflexivity.
  - assert (Z : exists sc, score = PStr sc). { unfold irm_init in H. bi H w B. ri H Zn. ri H Dd. bi H sc' Q. eauto. } destruct Z as (sc & ->).
    destruct (irm_made L rd f s Re Rd _ _ _ _ _ _ _ _ _ _ _ _ H) as (c & mc & nm & th & bo & st & (Bt & _) & EC & R & _). split; [exact R|]. rewrite EC, D, S1, Bt. split; [reflexivity|]. split; [discriminate|]. eexists; reflexivity.
  - destruct (apo_made L rd f s Re Rd _ _ _ _ _ _ _ _ _ _ _ _ _ H) as (c & mc & nm & th & bo & st & Bt & EC & R & _). split; [exact R|]. rewrite EC, D, S1, Bt. split; [reflexivity|]. split; [discriminate|]. eexists; reflexivity.
  - assert (Z : exists sc, score = PStr sc). { unfold did_init in H. bi H w B. ri H Zn. ri H Dd. bi H sc' Q. eauto. } destruct Z as (sc & ->).
    destruct (did_made L rd f s Re Rd _ _ _ _ _ _ _ _ _ _ _ H) as (c & mc & nm & th & st & (Bt & _) & EC & R & _). split; [exact R|]. rewrite EC, D, S1, Bt. split; [reflexivity|]. split; [discriminate|]. eexists; reflexivity.
  - assert (Z : exists sc, score = PStr sc). { unfold cs_init in H. bi H w B. ri H Zn. ri H Dd. destruct (M_Data.c_t s); [|discriminate]. ri H Zt. bi H sc' Q. eauto. } destruct Z as (sc & ->).
    destruct (cs_made L rd f s Re Rd _ _ _ _ _ _ _ _ _ _ _ H) as (c & tc & mc & nm & th & st & (Bt & _) & _ & _ & EC & R & _). split; [exact R|]. rewrite EC, D, S1, Bt. split; [reflexivity|]. split; [discriminate|]. eexists; reflexivity.
Qed.
End Make.

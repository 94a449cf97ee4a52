(** Constructor calls: the object they return is a reachable state of the life
    cycle of its class. *)
From Verif Require Import S_Data L_Data L_DataOps.
From Verif Require Export S_Init L_ClassFits L_ClassDid L_Weights L_Scores L_Resampling.
From Coq Require Import Lia Lra.
Local Open Scope R_scope.
Local Open Scope res_scope.
Local Open Scope string_scope.

Section Draw.
Context {P : Type}.
Definition same_shape (C C' : ctx P) : Prop := c_n C = c_n C' /\ c_dcols C = c_dcols C' /\ c_cluster C = c_cluster C'.

Lemma new_same (C C' : ctx P) nf nr dr g perm : same_shape C C' -> c_strata C = c_strata C' -> new_object C nf nr dr g perm = new_object C' nf nr dr g perm.
Proof.
  intros (A & B & D) S. unfold new_object, construct, draw_sample_splitting, initialize_arrays. rewrite A, B, D, S. reflexivity.
Qed.
Lemma new_quiet (C C' : ctx P) nf nr g perm g' perm' : same_shape C C' -> new_object C nf nr (PBool false) g perm = new_object C' nf nr (PBool false) g' perm'.
Proof.
  intros (A & B & D). unfold new_object, construct, initialize_arrays. rewrite A, B, D. reflexivity.
Qed.
(** The first draw leaves no trace once the split is drawn again. *)
Definition with_smpls (a : option (list (list fold))) (b : option (list (list cfold))) (w : world P) : world P :=
  {| w_heap := w_heap w; w_fws := w_fws w; w_obj := with_split (m_n_rep (w_obj w)) (m_n_folds (w_obj w)) a b (w_obj w) |}.
Lemma new_drawn (C : ctx P) nf nr g perm w : new_object C nf nr (PBool true) g perm = Ok w ->
  exists w2, new_object C nf nr (PBool false) g perm = Ok w2 /\ w = with_smpls (m_smpls (w_obj w)) (m_smpls_cluster (w_obj w)) w2 /\
    m_smpls_cluster (w_obj w2) = None /\ (c_cluster C = None -> m_smpls_cluster (w_obj w) = None).
Proof.
  unfold new_object. match goal with |- context [construct _ _ _ _ _ _ ?x] => set (w0 := x) end.
  destruct (construct C nf nr (PBool true) g perm w0) as [w1 [u|e]] eqn:E; [|discriminate]. intro H. injection H as <-.
  unfold construct in E |- *. apply andthen_ok in E. destruct E as (a1 & b1 & E1 & E). unfold andthen at 1. rewrite E1. unfold lift in E1. apply pair_equal_spec in E1 as [<- _].
  apply andthen_ok in E. destruct E as (a2 & b2 & E1 & E). unfold andthen at 1. rewrite E1. unfold lift in E1. apply pair_equal_spec in E1 as [<- _].
  apply andthen_ok in E. destruct E as (a3 & b3 & E1 & E). unfold andthen at 1. rewrite E1. unfold lift in E1. apply pair_equal_spec in E1 as [<- _].
  apply andthen_ok in E. destruct E as (a4 & b4 & E1 & E). unfold andthen at 1. unfold lift at 1. cbn [is_bool require]. unfold lift in E1. apply pair_equal_spec in E1 as [<- _].
  cbv zeta in E |- *. apply andthen_ok in E. destruct E as (w2 & b5 & E1 & E). unfold andthen at 1. rewrite E1. unfold assign in E1. apply pair_equal_spec in E1 as [Ew _].
  apply andthen_ok in E. destruct E as (w3 & b6 & E1 & E). unfold andthen at 1. unfold ret at 1.
  destruct (draw_inv C g perm w2) as [(sm & sc & D & _ & Hc)|(e & D)]; rewrite D in E1; [|discriminate E1]. apply pair_equal_spec in E1 as [<- _].
  apply pair_equal_spec in E as [<- _].
  eexists. split; [reflexivity|]. rewrite <- Ew in *. cbn in Hc |- *. split; [reflexivity|]. split; [reflexivity|]. intro Cn. rewrite Cn in Hc. exact Hc.
Qed.
End Draw.



Section Reach.
Context {P : Type}.
Variable rd : randomness.
Variable f : M_Data.frame.
Variable s : M_Data.ddata.
Hypothesis Rd : sound_randomness rd.
Notation base_ctx := (@base_ctx P f s).
Notation strata_ctx := (@strata_ctx P f s).

Lemma draw_forget (C : ctx P) g perm a b w w' u : (c_cluster C = None -> b = m_smpls_cluster (w_obj w)) ->
  draw_sample_splitting C g perm (with_smpls a b w) = (w', Ok u) -> draw_sample_splitting C g perm w = (w', Ok u).
Proof.
  intro B. unfold draw_sample_splitting, with_smpls, andthen, lift, assign. cbn. destruct (c_cluster C) as [cv|].
  - destruct (cluster_resampling _ _ _ _ _) as [[u' v]|e]; cbn; [intro H; exact H|discriminate].
  - rewrite B by reflexivity. destruct (resampling _ _ _ _ _) as [sm|e]; cbn; [intro H; exact H|discriminate].
Qed.
Lemma draw_same (C C' : ctx P) g perm w : same_shape C C' -> c_strata C = c_strata C' -> draw_sample_splitting C g perm w = draw_sample_splitting C' g perm w.
Proof. intros (A & B & D) S. unfold draw_sample_splitting. rewrite A, D, S. reflexivity. Qed.
Lemma strata_shape v : same_shape base_ctx (strata_ctx v) /\ (M_Data.c_cl s = None -> c_strata (strata_ctx v) = Some (value_codes v)).
Proof. unfold same_shape, base_ctx, strata_ctx, with_clusters. destruct (M_Data.c_cl s); cbn; auto. Qed.

Lemma base_reached nf nr dr w (C : ctx P) : base_new rd f s nf nr dr = Ok w -> same_shape base_ctx C -> c_strata C = None -> soundly_reached C w.
Proof.
  intros H S N. destruct Rd as (A & B & _). exists nf, nr, dr, (rd_g0 rd), (rd_perm0 rd), w, []. split; [exact A|]. split; [exact B|]. split; [|split; [intros o []|reflexivity]].
  rewrite <- H. symmetry. apply new_same; [exact S|]. rewrite N. unfold base_ctx, with_clusters. destruct (M_Data.c_cl s); reflexivity.
Qed.
Lemma base_draw_bool nf nr dr (w : world P) : base_new rd f s nf nr dr = Ok w -> exists b, dr = PBool b.
Proof.
  unfold base_new, new_object, construct. intro H. destruct dr; try (cbn in H; unfold andthen, lift in H; cbn in H; repeat match type of H with context [match ?x with Ok _ => _ | Err _ => _ end] => destruct x; cbn in H; try discriminate end; fail). eauto.
Qed.
Lemma redraw_reached nf nr dr w0 v w1 (C : ctx P) : base_new rd f s nf nr dr = Ok w0 -> redraw rd f s v dr w0 = Ok w1 ->
  same_shape base_ctx C -> (M_Data.c_cl s = None -> c_strata C = Some (value_codes v)) -> c_strata C = c_strata (strata_ctx v) -> soundly_reached C w1.
Proof.
  intros H R S St St'. destruct (base_draw_bool _ _ _ _ H) as (b & ->). destruct Rd as (A & B & A' & B').
  destruct b; cbn [redraw] in R.
  - destruct (new_drawn _ _ _ _ _ _ H) as (w2 & E2 & Ew & N2 & Nw).
    unfold redraw in R. destruct (match option_map _ _ with Some _ => true | None => all_whole _ _ end); cbn [require] in R; [|discriminate].
    destruct (draw_sample_splitting (strata_ctx v) (rd_g rd) (rd_perm rd) w0) as [w' [u|e]] eqn:D; [|discriminate]. apply ok_inj in R. subst w'.
    exists nf, nr, (PBool false), (rd_g0 rd), (rd_perm0 rd), w2, [ODraw (rd_g rd) (rd_perm rd)]. split; [exact A|]. split; [exact B|]. split.
    { rewrite <- E2. symmetry. apply new_quiet, S. }
    split; [intros o [<-|[]]; split; assumption|]. cbn [run run_op].
    rewrite <- (draw_same (strata_ctx v) C (rd_g rd) (rd_perm rd) w2). 2: { destruct (strata_shape v) as ((a1 & a2 & a3) & _), S as (b1 & b2 & b3). repeat split; congruence. } 2: congruence.
    assert (Sc : c_cluster (strata_ctx v) = c_cluster base_ctx) by (destruct (strata_shape v) as ((a1 & a2 & a3) & _); congruence).
    rewrite Ew in D. apply draw_forget in D; [rewrite D; reflexivity|]. intro N. rewrite N2. apply Nw. congruence.
  - cbn in R. apply ok_inj in R. subst w1. exists nf, nr, (PBool false), (rd_g0 rd), (rd_perm0 rd), w0, []. split; [exact A|]. split; [exact B|]. split; [|split; [intros o []|reflexivity]].
    rewrite <- H. symmetry. apply new_quiet, S.
Qed.
End Reach.

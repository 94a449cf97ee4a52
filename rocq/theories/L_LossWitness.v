(** Losses of a concrete interactive model. *)
From Verif Require Export L_LossEnd L_InitWitness.
From Coq Require Import Lia Lra.
Local Open Scope R_scope.
Local Open Scope string_scope.

Lemma w_d_01 : labels_01 8 (col i_frame "d").
Proof. split; [intros i Hi; exact (w_d01 i Hi)|]. exists 0%nat. split; [lia|reflexivity]. Qed.
Lemma over_some (w : world unit) name k n p y (G : nat -> Prop) i : loss_over w 0 0 name k n p y G -> (i < n)%nat -> G i -> exists v, loss_entry w 0 0 name (Some v).
Proof.
  intros (rows & (_ & Q) & E) Hi Gi. destruct rows as [|j rows]; [exfalso; apply (proj2 (Q i)); auto|]. eexists. exact E.
Qed.
Definition irm_loss_case : Prop := exists s C w0 w w' g0 g1 m, i_data rd1 s /\ proper_clusters s /\
  irm_init q_learner i_rd i_frame s reg cls (PInt 2) (PInt 1) (PStr "ATE") WNone (PBool false) (PStr "truncate") (PFloat (1 / 100)) (PBool true) = Ok (C, w0) /\ later C w0 w /\
  fit C PNone (PBool true) ExtNone (PBool false) w = (w', Ok tt) /\
  loss_over w' 0 0 "ml_g0" false 8 g0 (outcome i_frame s) (fun i => w_d i = 0) /\ loss_over w' 0 0 "ml_g1" false 8 g1 (outcome i_frame s) (fun i => w_d i = 1) /\ loss_over w' 0 0 "ml_m" true 8 m w_d everyone /\
  (forall name, In name ["ml_g0"; "ml_g1"; "ml_m"] -> exists v, loss_entry w' 0 0 name (Some v)).
Lemma irm_loss_ex : irm_loss_case.
Proof.
  destruct (irm_cases "ATE" (or_introl eq_refl)) as (s & K & C & w0 & w & w' & H & La & Sk & Sl & Hf). pose proof (i_reach _ _ K) as Re.
  assert (Rl : M_Data.dd_roles s = rd1) by (destruct K as (_ & Rl & _); exact Rl). assert (Pc : proper_clusters s) by (unfold proper_clusters; rewrite Rl; discriminate).
  destruct (irm_loss _ _ q_learner q_predict q_proba i_rd i_frame s _ _ _ _ _ _ _ _ _ _ _ _ w PNone (PBool true) ExtNone (PBool false) w' Re Pc i_sound H La) as (c & th & mc & Bt & _ & O & R1 & R2 & Q).
  apply (is_d s c) in Bt; [subst c|rewrite Rl; reflexivity]. cbv zeta in Q. destruct R1 as (_ & R1).
  assert (N0 : forall G, labels_everywhere q_learner q_proba mc w (M_Data.frows i_frame) "ml_g" (outcome i_frame s) G) by (intros G B; rewrite R1 in B; discriminate).
  destruct (Q (Sl mc O) (N0 _) (N0 _) (i_labels mc w "ml_m" w_d Sk w_d_both) ltac:(discriminate) w_d_01 Hf [w_smpls] 0%nat w_smpls (proj1 Sk) eq_refl) as (g0 & g1 & m0 & m & _ & (_ & L0) & _ & (_ & L1) & _ & _ & (_ & Lm)).
  assert (Ns : forall name v, ~ supplied ExtNone "d" name 0 v) by (intros name v (? & ? & ? & X & _); discriminate X).
  specialize (L0 (Ns _)). specialize (L1 (Ns _)). specialize (Lm (Ns _)).
  exists s, C, w0, w, w', g0, g1, m. repeat (split; [assumption|]). intros name [<-|[<-|[<-|[]]]].
  - apply (over_some w' _ _ _ _ _ _ 0%nat L0); [cbn; lia|reflexivity].
  - apply (over_some w' _ _ _ _ _ _ 1%nat L1); [cbn; lia|cbn; lra].
  - apply (over_some w' _ _ _ _ _ _ 0%nat Lm); [cbn; lia|exact Logic.I].
Qed.

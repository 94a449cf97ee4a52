(** Columns without a role: the classes built from several estimators. *)
From Verif Require Import L_Unused.
From Verif Require Export M_WrapObject S_Unused.
From Coq Require Import Lia Lra FunctionalExtensionality.
Local Open Scope R_scope.
Local Open Scope string_scope.

Section UnusedWrap.
Context {E P : Type}.
Variables (L : learner E row P) (rd : randomness) (f f' : M_Data.frame) (s : M_Data.ddata).
Hypothesis Re : S_Data.reachable f s.
Hypothesis Ag : agree_on_roles (M_Data.dd_roles s) f f'.

Lemma make_quantile_unused score k o ml_g ml_m q norm rule thr nf nr i treated : make_quantile L rd f' s score k o ml_g ml_m q norm rule thr nf nr i treated = make_quantile L rd f s score k o ml_g ml_m q norm rule thr nf nr i treated.
Proof.
  unfold make_quantile. cbv zeta. destruct (String.eqb score "PQ"); [rewrite (pq_unused L rd f f' s Re Ag); exact eq_refl|]. destruct (String.eqb score "LPQ"); [rewrite (lpq_unused L rd f f' s Re Ag)|rewrite (cvar_unused L rd f f' s Re Ag)]; exact eq_refl.
Qed.
Lemma qte_class_unused sv score k o ml_g ml_m qs norm rule thr : qte_class L rd f' s sv score k o ml_g ml_m qs norm rule thr = qte_class L rd f s sv score k o ml_g ml_m qs norm rule thr.
Proof.
  unfold qte_class. cbv zeta. rewrite (ag_rows _ _ _ Ag), (u_d f f' s Re Ag). f_equal.
  extensionality nf. extensionality nr. extensionality i. rewrite !make_quantile_unused. reflexivity.
Qed.
Lemma qte_unused sv dflt o ml_g ml_m qs nf nr score norm kde rule thr draw : qte_init L rd f' s sv dflt o ml_g ml_m qs nf nr score norm kde rule thr draw = qte_init L rd f s sv dflt o ml_g ml_m qs nf nr score norm kde rule thr draw.
Proof.
  unfold qte_init. rewrite (u_zeroone f f' s Ag _ (in_d f s Re)).
  destruct (negb (existsb _ _)); cbn [require]; [|reflexivity]. destruct (check_kde dflt kde); cbn [bind]; [|reflexivity]. destruct (check_score score _); cbn [bind]; [|reflexivity].
  destruct (one_treat s && _)%bool; cbn [require]; [|reflexivity]. destruct (trimming_arg rule thr); cbn [bind]; [|reflexivity]. destruct (check_bool norm); cbn [bind]; [|reflexivity]. destruct (cloneable ml_g); cbn [require]; [|reflexivity].
  destruct ml_m as [m|]; [|reflexivity]. destruct (cloneable m); cbn [require]; [|reflexivity]. cbv zeta. rewrite qte_class_unused. exact eq_refl.
Qed.
Lemma apos_class_unused ml_g ml_m levels score w norm rule thr : apos_class L rd f' s ml_g ml_m levels score w norm rule thr = apos_class L rd f s ml_g ml_m levels score w norm rule thr.
Proof.
  unfold apos_class. cbv zeta. rewrite (ag_rows _ _ _ Ag), (u_d f f' s Re Ag). f_equal.
  extensionality nf. extensionality nr. extensionality i. apply (apo_unused L rd f f' s Re Ag).
Qed.
Lemma apos_unused ml_g ml_m levels nf nr score w norm rule thr draw : apos_init L rd f' s ml_g ml_m levels nf nr score w norm rule thr draw = apos_init L rd f s ml_g ml_m levels nf nr score w norm rule thr draw.
Proof.
  unfold apos_init, stored_weights, ones, level_occurs. cbv zeta. rewrite (ag_rows _ _ _ Ag), (u_d f f' s Re Ag), apos_class_unused. exact eq_refl.
Qed.
End UnusedWrap.

(** Columns without a role have no influence. *)
From Verif Require Export S_Unused.
From Verif Require Import L_DataOps L_DataProps L_Data L_InitMade L_Init.
From Coq Require Import Lia Lra FunctionalExtensionality.
Local Open Scope R_scope.
Local Open Scope string_scope.

Lemma first_same u v (H : forall i j, u i = u j <-> v i = v j) i : forall k j, first_row u (u i) k j = first_row v (v i) k j.
Proof.
  induction k as [|k IH]; intro j; cbn; [reflexivity|]. destruct (Req_EM_T (u j) (u i)) as [e|e], (Req_EM_T (v j) (v i)) as [e'|e']; [reflexivity| | |apply IH]; exfalso; [apply e', H, e|apply e, H, e'].
Qed.
Lemma codes_same u v : (forall i j, u i = u j <-> v i = v j) -> value_codes u = value_codes v.
Proof. intro H. extensionality i. unfold value_codes. now rewrite (first_same u v H). Qed.
Lemma order_eq (u v : vec) : (forall i j, u i < u j <-> v i < v j) -> forall i j, u i = u j <-> v i = v j.
Proof. intros H i j. pose proof (H i j). pose proof (H j i). split; intro; destruct (Rtotal_order (u i) (u j)) as [q|[q|q]]; destruct (Rtotal_order (v i) (v j)) as [q'|[q'|q']]; auto; exfalso; try tauto; (apply H0 in q' || apply H1 in q' || apply H0 in q || apply H1 in q); lra. Qed.
Section Unused.
Context {E P : Type}.
Variables (L : learner E row P) (rd : randomness) (f f' : M_Data.frame) (s : M_Data.ddata).
Hypothesis Re : S_Data.reachable f s.
Hypothesis Ag : agree_on_roles (M_Data.dd_roles s) f f'.
Let n' : M_Data.frows f' = M_Data.frows f := ag_rows _ _ _ Ag.
Lemma u_col c : In c (used_columns (M_Data.dd_roles s)) -> col f' c = col f c.
Proof. intro H. extensionality i. unfold col. now rewrite (ag_cells _ _ _ Ag c i H). Qed.
Lemma u_all p c : In c (used_columns (M_Data.dd_roles s)) -> M_Data.col_all f' p c = M_Data.col_all f p c.
Proof. intro H. unfold M_Data.col_all. rewrite n'. induction (seq 0 (M_Data.frows f)) as [|i l IH]; cbn; [reflexivity|]. now rewrite (ag_cells _ _ _ Ag c i H), IH. Qed.
Lemma u_feats l : (forall c, In c l -> In c (used_columns (M_Data.dd_roles s))) -> feats f' l = feats f l.
Proof. intro H. extensionality i. unfold feats. induction l as [|c l IH]; [reflexivity|]. cbn. rewrite (ag_cells _ _ _ Ag c i (H c (or_introl eq_refl))), IH; [reflexivity|]. intros k Hk. apply H. now right. Qed.
Lemma in_y : In (M_Data.c_y s) (used_columns (M_Data.dd_roles s)).
Proof. destruct (arrays_r f s Re) as (-> & _). now left. Qed.
Lemma in_any_d c : In c (M_Data.r_d (M_Data.dd_roles s)) -> In c (used_columns (M_Data.dd_roles s)).
Proof. intro H. right. apply in_app_iff. auto. Qed.
Lemma in_d : In (M_Data.c_d s) (used_columns (M_Data.dd_roles s)).
Proof. destruct (arrays_r f s Re) as (_ & _ & _ & _ & _ & D). apply in_any_d, D. Qed.
Lemma in_z c : In c (M_Data.optl (M_Data.c_z s)) -> In c (used_columns (M_Data.dd_roles s)).
Proof. destruct (arrays_r f s Re) as (_ & Z & _). rewrite Z. intro H. right. rewrite !in_app_iff. auto. Qed.
Lemma in_t c : M_Data.c_t s = Some c -> In c (used_columns (M_Data.dd_roles s)).
Proof. destruct (arrays_r f s Re) as (_ & _ & T & _). intro H. rewrite T in H. right. rewrite !in_app_iff. rewrite H. cbn. tauto. Qed.
Lemma in_s c : M_Data.c_s s = Some c -> In c (used_columns (M_Data.dd_roles s)).
Proof. destruct (arrays_r f s Re) as (_ & _ & _ & S1 & _). intro H. rewrite S1 in H. right. rewrite !in_app_iff. rewrite H. cbn. tauto. Qed.
Lemma in_xd c d : In c (M_Data.xd_list s d) -> In d (M_Data.r_d (M_Data.dd_roles s)) -> In c (used_columns (M_Data.dd_roles s)).
Proof.
  intros H Hd. rewrite (xd_list_features f s d) in H; [|apply (roles_reachable _ _ Re)|exact Hd]. unfold S_Data.features in H. right. rewrite !in_app_iff. apply in_app_iff in H as [H|H]; [auto|].
  destruct (M_Data.dd_other s); [|destruct H]. apply filter_In in H as (H & _). auto.
Qed.
Lemma u_y : col f' (M_Data.c_y s) = col f (M_Data.c_y s). Proof. apply u_col, in_y. Qed.
Lemma u_d : col f' (M_Data.c_d s) = col f (M_Data.c_d s). Proof. apply u_col, in_d. Qed.
Lemma u_x : feats f' (M_Data.c_x s) = feats f (M_Data.c_x s).
Proof. apply u_feats. intros c H. apply (in_xd c (M_Data.c_d s)); [|apply (arrays_r f s Re)]. pose proof (reachable_inv _ _ Re) as [_ _ _ X _ _ _ _]. now rewrite <- X. Qed.
Lemma u_clusters : option_map (map (fun c => value_codes (col f' c))) (M_Data.c_cl s) = option_map (map (fun c => value_codes (col f c))) (M_Data.c_cl s).
Proof.
  destruct (arrays_r f s Re) as (_ & _ & _ & _ & Cl & _). rewrite Cl. pose proof (ag_labels _ _ _ Ag) as H. destruct (M_Data.r_cl (M_Data.dd_roles s)) as [l|]; [|reflexivity]. cbn in *. f_equal. apply map_ext_in. intros c Hc. apply codes_same, order_eq. intros i j. apply H, Hc.
Qed.
Lemma u_with (C : ctx P) : with_clusters f' s C = with_clusters f s C.
Proof. unfold with_clusters. now rewrite u_clusters. Qed.
Lemma u_base nf nr dr : @base_new P rd f' s nf nr dr = base_new rd f s nf nr dr.
Proof. unfold base_new, base_ctx. rewrite n', u_with. reflexivity. Qed.
Lemma u_redraw v dr (w : world P) : redraw rd f' s v dr w = redraw rd f s v dr w.
Proof. unfold redraw, strata_ctx. rewrite n', u_with, u_clusters. reflexivity. Qed.
Lemma u_nth t : In (nth t (M_Data.r_d (M_Data.dd_roles s)) (M_Data.c_d s)) (M_Data.r_d (M_Data.dd_roles s)).
Proof. destruct (nth_in_or_default t (M_Data.r_d (M_Data.dd_roles s)) (M_Data.c_d s)) as [H| ->]; [exact H|apply (arrays_r f s Re)]. Qed.
Lemma u_dof : d_of f' s = d_of f s.
Proof. extensionality t. unfold d_of. rewrite u_d, (u_col _ (in_any_d _ (u_nth t))). reflexivity. Qed.
Lemma u_xof : x_of f' s = x_of f s.
Proof. extensionality t. unfold x_of. rewrite u_x. rewrite (u_feats (M_Data.xd_list s (nth t _ _))); [reflexivity|]. intros c H. exact (in_xd c _ H (u_nth t)). Qed.
Lemma u_zeroone c : In c (used_columns (M_Data.dd_roles s)) -> zero_one_col f' c = zero_one_col f c.
Proof. apply u_all. Qed.

Ltac eq0 := rewrite ?u_base, ?u_with, ?u_y, ?u_d, ?u_x, ?u_dof, ?u_xof, ?n', ?(u_zeroone _ in_d).
Ltac binds := repeat match goal with
  | |- ?a = ?a => reflexivity
  | |- bind ?a _ = bind ?a _ => destruct a; [cbn [bind]|exact eq_refl]
  | |- require ?b _ _ = require ?b _ _ => destruct b; [cbn [require]|exact eq_refl]
  | |- bind (redraw rd f' s _ _ _) _ = _ => rewrite u_redraw
  end.
Lemma plr_unused ml_l ml_m ml_g nf nr score draw : plr_init L rd f' s ml_l ml_m ml_g nf nr score draw = plr_init L rd f s ml_l ml_m ml_g nf nr score draw.
Proof. unfold plr_init. cbv zeta. eq0. binds; rewrite u_with; eq0; reflexivity. Qed.
Lemma pliv_unused proj ml_l ml_m ml_r ml_g nf nr score draw : pliv_init L rd f' s proj ml_l ml_m ml_r ml_g nf nr score draw = pliv_init L rd f s proj ml_l ml_m ml_r ml_g nf nr score draw.
Proof.
  unfold pliv_init. cbv zeta. eq0. pose proof in_z as Iz. destruct (M_Data.c_z s) as [[|zc more]|]; binds. cbn [M_Data.optl] in Iz. rewrite u_with, (u_col zc (Iz zc (or_introl eq_refl))).
  assert (Q : map (fun c => (c, col f' c)) (zc :: more) = map (fun c => (c, col f c)) (zc :: more)) by (apply map_ext_in; intros c Hc; now rewrite (u_col c (Iz c Hc))). rewrite Q. reflexivity.
Qed.
Lemma irm_unused ml_g ml_m nf nr score wa norm rule thr draw : irm_init L rd f' s ml_g ml_m nf nr score wa norm rule thr draw = irm_init L rd f s ml_g ml_m nf nr score wa norm rule thr draw.
Proof. unfold irm_init. cbv zeta. eq0. binds; rewrite u_with; reflexivity. Qed.
Lemma apo_unused ml_g ml_m level nf nr score wa norm rule thr draw : apo_init L rd f' s ml_g ml_m level nf nr score wa norm rule thr draw = apo_init L rd f s ml_g ml_m level nf nr score wa norm rule thr draw.
Proof. unfold apo_init, treated_at. cbv zeta. eq0. binds; rewrite u_with; reflexivity. Qed.
Lemma iivm_unused ml_g ml_m ml_r nf nr score sg norm rule thr draw : iivm_init L rd f' s ml_g ml_m ml_r nf nr score sg norm rule thr draw = iivm_init L rd f s ml_g ml_m ml_r nf nr score sg norm rule thr draw.
Proof. unfold iivm_init. cbv zeta. eq0. pose proof in_z as Iz. destruct (M_Data.c_z s) as [[|zc [|]]|]; [reflexivity| |reflexivity|reflexivity]. cbn [M_Data.optl] in Iz. pose proof (Iz zc (or_introl eq_refl)) as I. rewrite (u_zeroone zc I), (u_col zc I). binds; rewrite u_with; reflexivity. Qed.
Lemma did_unused ml_g ml_m nf nr score norm rule thr draw : did_init L rd f' s ml_g ml_m nf nr score norm rule thr draw = did_init L rd f s ml_g ml_m nf nr score norm rule thr draw.
Proof. unfold did_init. cbv zeta. eq0. binds; rewrite u_with; reflexivity. Qed.
Lemma cs_unused ml_g ml_m nf nr score norm rule thr draw : cs_init L rd f' s ml_g ml_m nf nr score norm rule thr draw = cs_init L rd f s ml_g ml_m nf nr score norm rule thr draw.
Proof. unfold cs_init. cbv zeta. eq0. pose proof in_t as It. destruct (M_Data.c_t s) as [tc|]; [|reflexivity]. pose proof (It tc eq_refl) as I. rewrite (u_zeroone tc I), (u_col tc I). binds; rewrite u_with; reflexivity. Qed.
Lemma ssm_unused tts ml_g ml_pi ml_m nf nr score norm rule thr draw : ssm_init L rd f' s tts ml_g ml_pi ml_m nf nr score norm rule thr draw = ssm_init L rd f s tts ml_g ml_pi ml_m nf nr score norm rule thr draw.
Proof.
  unfold ssm_init, M_Data.binary_col. cbv zeta. eq0. rewrite (u_all M_Data.zero_one (M_Data.r_y (M_Data.dd_roles s)) (or_introl eq_refl)). rewrite (u_feats (M_Data.optl (M_Data.c_z s)) in_z). pose proof in_s as Is. destruct (M_Data.c_s s) as [sc|]; [|reflexivity]. rewrite (u_col sc (Is sc eq_refl)). binds; rewrite u_with; reflexivity.
Qed.
Lemma cvar_unused o ml_g ml_m treatment quantile nf nr score norm rule thr draw : cvar_init L rd f' s o ml_g ml_m treatment quantile nf nr score norm rule thr draw = cvar_init L rd f s o ml_g ml_m treatment quantile nf nr score norm rule thr draw.
Proof. unfold cvar_init. cbv zeta. eq0. binds; rewrite u_with; reflexivity. Qed.
Lemma pq_unused dflt o ml_g ml_m treatment quantile nf nr score norm kde rule thr draw : pq_init L rd f' s dflt o ml_g ml_m treatment quantile nf nr score norm kde rule thr draw = pq_init L rd f s dflt o ml_g ml_m treatment quantile nf nr score norm kde rule thr draw.
Proof. unfold pq_init. cbv zeta. eq0. binds. Qed.
Lemma lpq_unused dflt o ml_g ml_m treatment quantile nf nr score norm kde rule thr draw : lpq_init L rd f' s dflt o ml_g ml_m treatment quantile nf nr score norm kde rule thr draw = lpq_init L rd f s dflt o ml_g ml_m treatment quantile nf nr score norm kde rule thr draw.
Proof. unfold lpq_init. cbv zeta. eq0. pose proof in_z as Iz. destruct (M_Data.c_z s) as [[|zc [|]]|]; [reflexivity| |reflexivity|reflexivity]. cbn [M_Data.optl] in Iz. pose proof (Iz zc (or_introl eq_refl)) as I. rewrite (u_zeroone zc I), (u_col zc I). binds. Qed.
End Unused.
(** ** The data object *)
Lemma constructed_first f s : S_Data.constructed f s -> M_Data.c_d s = hd EmptyString (M_Data.r_d (M_Data.dd_roles s)).
Proof.
  intros [cl [y [d [x [z [t [v [other [fo H]]]]]]]]]. unfold M_Data.construct in H.
  apply require_inv in H as [HC H]. apply bind_inv in H as [cl' [Hcl H]]. apply bind_inv in H as [y' [Hy H]]. apply bind_inv in H as [d' [Hd H]]. apply bind_inv in H as [z' [Hz H]]. apply bind_inv in H as [t' [Ht H]]. apply bind_inv in H as [v' [Hv H]]. cbv zeta in H.
  apply bind_inv in H as [x' [Hx H]]. apply require_inv in H as [HB H]. apply bind_inv in H as [other' [_ H]]. apply bind_inv in H as [fo' [_ H]]. apply bind_inv in H as [bt [Hbt H]]. apply bind_inv in H as [by_ [_ H]]. apply bind_inv in H as [s1 [Hs H]]. apply require_inv in H as [HD H]. injection H as <-.
  destruct (M_Data.next _ _) as [s2 [e|]] eqn:E; cbn in Hs; [discriminate|]. injection Hs as <-. apply next_none in E as [s3 [E1 E2]]. apply set_xd0_none in E2 as (d0 & l & Hr & _ & ->). cbn. rewrite Hr. reflexivity.
Qed.
Lemma bt_same (l l' : list (string * bool)) : map fst l = map fst l' -> (forall c b b', In (c, b) l -> In (c, b') l' -> b = b') -> l = l'.
Proof.
  revert l'. induction l as [|(c, b) l IH]; intros [|(c', b') l'] E H; try discriminate; [reflexivity|]. cbn in E. injection E as -> E. rewrite (H c' b b' (or_introl eq_refl) (or_introl eq_refl)). f_equal. apply IH; [exact E|]. intros k u u' Hu Hu'. apply (H k); right; assumption.
Qed.
Lemma same_object f f' s s' : S_Data.constructed f s -> S_Data.constructed f' s' -> M_Data.dd_roles s' = M_Data.dd_roles s -> M_Data.dd_other s' = M_Data.dd_other s -> M_Data.dd_force s' = M_Data.dd_force s ->
  agree_on_roles (M_Data.dd_roles s) f f' -> s' = s.
Proof.
  intros C C' R O F Ag. pose proof (constructed_first _ _ C) as D. pose proof (constructed_first _ _ C') as D'. rewrite R in D'. rewrite <- D in D'.
  pose proof (reachable_inv _ _ (S_Data.R_new _ _ C)) as [_ _ (Y & Z & Tc & Sc & Cl & Id) X _ _ _ _]. pose proof (reachable_inv _ _ (S_Data.R_new _ _ C')) as [_ _ (Y' & Z' & Tc' & Sc' & Cl' & _) X' _ _ _ _].
  destruct (binary_constructed _ _ C) as (By & Bm & Bt). destruct (binary_constructed _ _ C') as (By' & Bm' & Bt').
  assert (Zo : forall c, In c (used_columns (M_Data.dd_roles s)) -> (S_Data.zero_one_column f' c <-> S_Data.zero_one_column f c)).
  { intros c Hc. unfold S_Data.zero_one_column. rewrite (ag_rows _ _ _ Ag). split; intros H i Hi; specialize (H i Hi); rewrite (ag_cells _ _ _ Ag c i Hc) in *; exact H. }
  rewrite R in *. assert (Eby : M_Data.dd_by s' = M_Data.dd_by s). { specialize (Zo (M_Data.r_y (M_Data.dd_roles s)) (or_introl eq_refl)). rewrite Zo, <- By in By'. destruct (M_Data.dd_by s), (M_Data.dd_by s'); try reflexivity; exfalso; [apply diff_false_true|apply diff_false_true, eq_sym]; tauto || (symmetry; tauto) || tauto. }
  assert (Ebt : M_Data.dd_bt s' = M_Data.dd_bt s).
  { apply bt_same; [congruence|]. intros c b b' H H'. assert (Hc : In c (used_columns (M_Data.dd_roles s))). { right. apply in_app_iff. left. rewrite <- Bm. exact (in_map fst _ _ H'). }
    pose proof (Bt' c b H) as Q. pose proof (Bt c b' H') as Q'. rewrite (Zo c Hc), <- Q' in Q. destruct b, b'; try reflexivity; exfalso; destruct Q as (Q1 & Q2); [specialize (Q1 eq_refl); discriminate|specialize (Q2 eq_refl); discriminate]. }
  destruct s as [r ot fo bt by_ cy cz ct cs cd cx ccl], s' as [r' ot' fo' bt' by' cy' cz' ct' cs' cd' cx' ccl']. unfold M_Data.xd_list in X, X'. cbn in *. subst. reflexivity.
Qed.

(** Proofs of the properties of data objects. *)
From Verif Require Import Base M_Data S_Data L_Data L_DataOps.
Open Scope string_scope.
Open Scope list_scope.

(** ** Roles *)
Lemma roles_reachable f s : reachable f s -> well_formed f (dd_roles s).
Proof. intros H. exact (i_wf _ _ (reachable_inv _ _ H)). Qed.

Lemma constructed_inv f s : constructed f s -> inv f s.
Proof. intros H. apply reachable_inv. now apply R_new. Qed.

Lemma assigns_each f l : forall s s' es, distinct (fcols f) = true -> each_role f (dd_roles s) ->
  assigns f s l = (s', es) -> each_role f (dd_roles s').
Proof.
  induction l as [|o l IH]; cbn; intros s s' es C E H.
  - injection H as <- <-. exact E.
  - destruct (assign f s o) as [s1 e] eqn:A. destruct (assigns f s1 l) as [s2 es2] eqn:B.
    injection H as <- <-. apply (IH s1 s2 es2 C); [|exact B].
    exact (assign_each _ _ _ _ _ C E A).
Qed.
Lemma roles_any_history f s0 l s es : constructed f s0 -> assigns f s0 l = (s, es) -> each_role f (dd_roles s).
Proof.
  intros K H. apply constructed_inv in K.
  exact (assigns_each _ _ _ _ _ (i_cols _ _ K) (each_of _ _ K) H).
Qed.
Lemma roles_after_success f s0 l s es o s' : constructed f s0 -> assigns f s0 l = (s, es) ->
  sets_role o = true -> (r_cl (dd_roles s) <> None \/ forall v, o <> SetCluster v) ->
  assign f s o = (s', None) -> well_formed f (dd_roles s').
Proof.
  intros K H R C A.
  assert (E := roles_any_history _ _ _ _ _ K H).
  apply constructed_inv in K.
  apply well_formed_iff. split; [exact (assign_each _ _ _ _ _ (i_cols _ _ K) E A)|].
  apply (assign_disjoint f s o s' R); [|exact A].
  intros v ->. destruct C as [C|C]; [exact C|exfalso; exact (C v eq_refl)].
Qed.

(** ** The constructor accepts what is usable *)
Lemma col_all_iff f p c : col_all f p c = true <-> forall i, (i < frows f)%nat -> p (fcell f c i) = true.
Proof.
  unfold col_all. rewrite forallb_forall. split; intros H i Hi; apply H; [apply in_seq; lia|apply in_seq in Hi; lia].
Qed.
Lemma finite_iff c : finite c = true <-> number c.
Proof. unfold number. destruct c; cbn; split; try discriminate; eauto; intros [r H]; discriminate. Qed.
Lemma number_col_iff f c : col_all f finite c = true <-> number_column f c.
Proof. rewrite col_all_iff. unfold number_column. split; intros H i Hi; apply finite_iff, H, Hi. Qed.
Lemma x_finite_iff f fo l : x_finite f fo l = true <-> (forall c, In c l -> allowed_column fo f c).
Proof.
  unfold x_finite, allowed_column, allowed. destruct fo.
  - rewrite forallb_forall. split; intros H c Hc; [apply (proj1 (number_col_iff f c)), H, Hc|apply (proj2 (number_col_iff f c)); exact (H c Hc)].
  - split; auto.
  - rewrite forallb_forall. split; intros H c Hc.
    + specialize (H c Hc). rewrite col_all_iff in H. intros i Hi E. specialize (H i Hi). rewrite E in H. discriminate.
    + apply col_all_iff. intros i Hi. specialize (H c Hc i Hi). destruct (fcell f c i); cbn; congruence.
Qed.
Lemma number_allowed fo f c : number_column f c -> allowed_column fo f c.
Proof.
  intros H i Hi. destruct (H i Hi) as [r E]. rewrite E. destruct fo; cbn; [eexists; reflexivity|exact Logic.I|discriminate].
Qed.
Lemma force_arg_of fo : force_arg (farg_of fo) = Ok fo.
Proof. destruct fo; reflexivity. Qed.
Lemma forallb_in {A} (p : A -> bool) l : (forall a, In a l -> p a = true) -> forallb p l = true.
Proof. intros H. now apply forallb_forall. Qed.

Lemma construct_ok f r other fo : usable f r fo ->
  exists s, construct f (option_map CList (r_cl r)) (CStr (r_y r)) (CList (r_d r)) (CList (r_x r))
      (olist (r_z r)) (ostr (r_t r)) (ostr (r_s r)) (FBool other) (farg_of fo) = Ok s /\
    dd_roles s = r /\ dd_other s = other /\ dd_force s = fo /\ c_d s = hd EmptyString (r_d r).
Proof.
  intros [D [W [N [F X]]]].
  assert (W' := W). apply well_formed_iff in W' as [E W'].
  apply each_role_parts in E. unfold disjoint_roles in W'. apply andb_true_iff in W' as [WB WC].
  assert (FF : forall c, In c ([r_y r] ++ r_d r ++ optl (r_z r) ++ opt1 (r_t r) ++ opt1 (r_s r) ++ optl (r_cl r)) ->
     col_all f finite c = true) by (intros c Hc; apply number_col_iff, F, Hc).
  unfold construct.
  rewrite (proj2 (distinct_iff _) D). cbn [require].
  assert (CL : match option_map CList (r_cl r) with
        | None => Ok None
        | Some c => bind (list_arg f c) (fun l =>
            require (forallb (col_all f finite) l) ValueError (Ok (Some l)))
        end = Ok (r_cl r)).
  { destruct (r_cl r) as [cl|] eqn:CL; cbn [option_map]; [|reflexivity].
    cbn [optl] in E. rewrite list_arg_list by tauto. cbn [bind].
    rewrite forallb_in; [reflexivity|]. intros c Hc. apply FF. rewrite !in_app_iff. cbn. tauto. }
  rewrite CL. cbn [bind]. rewrite one_arg_str by tauto. cbn [bind].
  rewrite list_arg_list by tauto. cbn [bind].
  assert (Z : opt_list_arg f (olist (r_z r)) = Ok (r_z r)).
  { destruct (r_z r) as [z|] eqn:Z; cbn [olist opt_list_arg]; [|reflexivity].
    cbn [optl] in E. rewrite list_arg_list by tauto. reflexivity. }
  rewrite Z. cbn [bind].
  assert (O : forall o, incl (opt1 o) (fcols f) -> opt_one_arg f (ostr o) = Ok o).
  { intros [o|] H; cbn [ostr opt_one_arg]; [|reflexivity].
    rewrite one_arg_str; [reflexivity|]. apply H. now left. }
  rewrite !O by tauto. cbn [bind]. cbv zeta. cbn [x_arg].
  rewrite list_arg_list by tauto. cbn [bind].
  change (set_rx (mk_roles (r_y r) (r_d r) [] (r_z r) (r_t r) (r_s r) (r_cl r)) (r_x r))
    with (mk_roles (r_y r) (r_d r) (r_x r) (r_z r) (r_t r) (r_s r) (r_cl r)).
  assert (R : mk_roles (r_y r) (r_d r) (r_x r) (r_z r) (r_t r) (r_s r) (r_cl r) = r) by (destruct r; reflexivity).
  rewrite R, WB, WC. cbn [require bool_arg bind]. rewrite force_arg_of. cbn [bind].
  unfold check_binary at 1. rewrite forallb_in by (intros c Hc; apply FF; rewrite !in_app_iff; tauto).
  cbn [require bind]. unfold check_binary. rewrite forallb_in by (intros c Hc; apply FF; rewrite !in_app_iff; tauto).
  cbn [require bind].
  set (s0 := mk_dd _ _ _ _ _ _ _ _ _ _ _ _).
  assert (Y : yzts_ok f (dd_roles s0) = true).
  { unfold yzts_ok, s0; cbn [dd_roles]. rewrite !andb_true_iff. repeat split.
    - apply FF. now left.
    - apply forallb_in. intros c Hc. apply FF. rewrite !in_app_iff. tauto.
    - apply forallb_in. intros c Hc. apply FF. rewrite !in_app_iff. tauto.
    - apply forallb_in. intros c Hc. apply FF. rewrite !in_app_iff. tauto. }
  rewrite (set_yzts_ok _ _ Y). cbn [next].
  unfold set_xd0, refresh_yzts, s0. cbn [dd_roles dd_other dd_force dd_bt dd_by c_d c_x c_cl].
  destruct (r_d r) as [|d0 l] eqn:DD; [tauto|].
  set (s1 := mk_dd _ _ _ _ _ _ _ _ _ _ _ _).
  rewrite set_xd_eq.
  assert (XD : xd_ok f s1 d0 = true).
  { unfold xd_ok. rewrite !andb_true_iff. repeat split.
    - apply mem_iff. unfold s1; cbn [dd_roles]. rewrite DD. now left.
    - apply FF. rewrite in_app_iff. right. now left.
    - apply x_finite_iff. rewrite (xd_list_features f); unfold s1; cbn [dd_roles dd_other dd_force]; [|exact W|rewrite DD; now left].
      intros c Hc. apply features_in in Hc as [Hc|[_ [Hc _]]]; [now apply X|].
      apply number_allowed, F. rewrite DD in Hc. rewrite !in_app_iff. tauto. }
  rewrite XD. cbn [lift bind require]. eexists. split; [reflexivity|].
  unfold s1; cbn. auto.
Qed.

(* the converse: what the constructor accepts is well formed and numeric *)
Lemma construct_usable f cl y d x z t v other fo s :
  construct f cl y d x z t v other fo = Ok s ->
  NoDup (fcols f) /\ well_formed f (dd_roles s) /\ r_d (dd_roles s) <> [].
Proof.
  intros H. apply construct_inv in H. destruct H as [C W U _ _ _ _ _].
  split; [now apply distinct_iff|]. split; [exact W|].
  destruct U as [_ [_ [_ [_ [_ U]]]]]. intros E. rewrite E in U. exact U.
Qed.

(** ** Rejected assignments *)
Lemma set_xd_atomic f s v s' e : assign f s (SetXD v) = (s', Some e) -> s' = s.
Proof.
  cbn [assign]. destruct v; try (intros [= <- _]; reflexivity).
  rewrite set_xd_eq. destruct (xd_ok f s s0); intros H; [discriminate|now injection H].
Qed.

Lemma list_arg_ok_iff f v : is_ok (list_arg f v) = true <-> (is_str v \/ exists l, v = CList l) /\ good_names f v.
Proof.
  destruct (list_arg f v) as [l|] eqn:A; cbn; split; try discriminate.
  - intros _. apply list_arg_inv in A as [[->|[c [-> ->]]] [B C]].
    + split; [right; eauto|split; assumption].
    + split; [left; now exists c|split; assumption].
  - reflexivity.
  - intros [[[c ->]|[l ->]] [B C]]; cbn in B, C; exfalso.
    + rewrite list_arg_str in A; [discriminate|]. apply C. now left.
    + rewrite list_arg_list in A by assumption. discriminate.
Qed.
Lemma one_arg_ok_iff f v : is_ok (one_arg f v) = true <-> is_str v /\ good_names f v.
Proof.
  destruct (one_arg f v) as [l|] eqn:A; cbn; split; try discriminate.
  - intros _. apply one_arg_inv in A as [-> A].
    split; [now exists l|split; [apply nodup_one|intros c [<-|[]]; exact A]].
  - reflexivity.
  - intros [[c ->] [B C]]. rewrite one_arg_str in A; [discriminate|]. apply C. now left.
Qed.
Lemma good_none f : good_names f CNone.
Proof. split; [constructor|intros c []]. Qed.

Lemma arg_bad {A} s (r : result A) k : is_ok r <> true -> exists e, arg s r k = (s, Some e).
Proof. destruct r; cbn; [congruence|eauto]. Qed.
Lemma is_ok_bind {A B} (r : result A) (g : A -> B) : is_ok (bind r (fun a => Ok (g a))) = is_ok r.
Proof. destruct r; reflexivity. Qed.

Lemma bad_argument f s o : (r_cl (dd_roles s) <> None \/ forall v, o <> SetCluster v) ->
  ~ acceptable f o -> exists e, assign f s o = (s, Some e).
Proof.
  intros C H. destruct o as [v|v|v|v|v|v|v|v|v|v]; cbn [assign acceptable] in *.
  - apply arg_bad. rewrite one_arg_ok_iff. exact H.
  - apply arg_bad. rewrite list_arg_ok_iff. exact H.
  - apply arg_bad. unfold x_arg. destruct v; [exfalso; apply H; split; [tauto|apply good_none]|..];
      rewrite list_arg_ok_iff; intros G; apply H; destruct G as [G1 G2]; split; tauto.
  - apply arg_bad. unfold opt_list_arg. destruct v; [exfalso; apply H; split; [tauto|apply good_none]|..];
      rewrite is_ok_bind, list_arg_ok_iff; intros G; apply H; destruct G as [G1 G2]; split; tauto.
  - apply arg_bad. unfold opt_one_arg. destruct v; [exfalso; apply H; split; [tauto|apply good_none]|..];
      rewrite is_ok_bind, one_arg_ok_iff; intros G; apply H; destruct G as [G1 G2]; split; tauto.
  - apply arg_bad. unfold opt_one_arg. destruct v; [exfalso; apply H; split; [tauto|apply good_none]|..];
      rewrite is_ok_bind, one_arg_ok_iff; intros G; apply H; destruct G as [G1 G2]; split; tauto.
  - destruct (r_cl (dd_roles s)); [|exfalso; destruct C as [C|C]; [congruence|exact (C v eq_refl)]].
    apply arg_bad. rewrite list_arg_ok_iff. exact H.
  - destruct v; cbn; eauto. exfalso; apply H; eauto.
  - destruct v as [b|c|]; cbn; eauto; [exfalso; apply H; eauto|].
    destruct (String.eqb_spec c "allow-nan"); cbn; eauto. subst. exfalso; apply H; eauto.
  - destruct v; eauto. exfalso. apply H. eexists; reflexivity.
Qed.

Lemma overlap_outcome f s c : reachable f s -> In c (r_x (dd_roles s)) ->
  exists s', assign f s (SetY (CStr c)) = (s', Some ValueError) /\ r_y (dd_roles s') = c /\
    s' <> s /\ ~ well_formed f (dd_roles s').
Proof.
  intros H Hc. apply reachable_inv in H. assert (E := each_of _ _ H).
  apply each_role_parts in E.
  cbn [assign]. rewrite one_arg_str by (apply (proj1 (proj2 (proj2 (proj2 E)))); exact Hc). cbn [arg].
  assert (N : disjoint_roles (set_ry (dd_roles s) c) = false).
  { destruct (disjoint_roles _) eqn:D; [|reflexivity]. unfold disjoint_roles in D.
    apply andb_true_iff in D as [D _]. apply disjoint_base_iff in D as [D _]. cbn in D. tauto. }
  unfold check_disjoint, assert_. cbn [dd_roles with_roles]. rewrite N. cbn [next].
  assert (W : ~ well_formed f (set_ry (dd_roles s) c)).
  { intros W. apply well_formed_iff in W as [_ W]. congruence. }
  eexists. split; [reflexivity|]. split; [reflexivity|]. split; [|exact W].
  intros G. apply (f_equal dd_roles) in G. cbn in G. apply W. rewrite G. exact (i_wf _ _ H).
Qed.

(* assigning the old value again *)
Lemma xd0_run f s : xd0_ok f s -> exists s', set_xd0 f s = (s', None).
Proof.
  intros [d [l [A B]]]. unfold set_xd0. rewrite A, set_xd_eq, B. eauto.
Qed.
Lemma with_roles_twice s r1 r2 : with_roles (with_roles s r1) r2 = with_roles s r2.
Proof. reflexivity. Qed.
Lemma with_roles_id s : with_roles s (dd_roles s) = s.
Proof. destruct s; reflexivity. Qed.

(* yzts-type assignment: the attributes that a failure may have overwritten are
   all written again by the next success *)
Definition same_xd (s s1 : ddata) : Prop :=
  dd_other s1 = dd_other s /\ dd_force s1 = dd_force s /\
  dd_bt s1 = dd_bt s /\ dd_by s1 = dd_by s /\ c_d s1 = c_d s /\ c_x s1 = c_x s /\ c_cl s1 = c_cl s.
Lemma yzts_again f s s1 : inv f s -> same_xd s s1 ->
  next (check_disjoint (with_roles s1 (dd_roles s))) (set_yzts f) = (s, None).
Proof.
  intros I S. destruct I as [IC IW IU IX IY I0 I1 IL].
  apply well_formed_iff in IW as [_ IW].
  unfold check_disjoint, assert_. cbn [dd_roles with_roles]. rewrite IW. cbn [next].
  rewrite set_yzts_ok by exact IY. f_equal.
  destruct S as [S1 [S2 [S3 [S4 [S5 [S6 S7]]]]]]. destruct IU as [U1 [U2 [U3 [U4 [U5 U6]]]]].
  unfold refresh_yzts, with_roles; cbn. rewrite S1, S2, S3, S4, S5, S6, S7, <- U1, <- U2, <- U3, <- U4.
  destruct s; reflexivity.
Qed.
Lemma yzts_failed f s r' s1 e : next (check_disjoint (with_roles s r')) (set_yzts f) = (s1, Some e) ->
  dd_roles s1 = r' /\ same_xd s s1.
Proof.
  unfold check_disjoint, assert_. cbn [dd_roles with_roles].
  destruct (disjoint_roles r'); cbn [next]; intros H.
  - apply set_yzts_keeps in H. unfold same_xd. cbn in H. tauto.
  - injection H as <- _. unfold same_xd. cbn. tauto.
Qed.
Lemma xd_failed f s r' s1 e : next (check_disjoint (with_roles s r')) (set_xd0 f) = (s1, Some e) ->
  s1 = with_roles s r'.
Proof.
  unfold check_disjoint, assert_. cbn [dd_roles with_roles].
  destruct (disjoint_roles r'); cbn [next]; intros H.
  - apply set_xd0_keeps in H as H'. destruct H' as [_ [_ [_ [_ [_ [_ [_ [_ [_ [_ H']]]]]]]]]].
    apply H'. discriminate.
  - now injection H.
Qed.
Lemma cl_failed f s r' s1 e : next (check_disjoint (with_roles s r')) (set_cl f) = (s1, Some e) ->
  s1 = with_roles s r'.
Proof.
  unfold check_disjoint, assert_. cbn [dd_roles with_roles].
  destruct (disjoint_roles r'); cbn [next]; intros H; [|now injection H].
  rewrite set_cl_eq in H. destruct (forallb _ _); [discriminate|now injection H].
Qed.
Lemma xd_again f s : inv f s ->
  exists s2, next (check_disjoint s) (set_xd0 f) = (s2, None).
Proof.
  intros I. destruct I as [IC IW IU IX IY I0 I1 IL].
  apply well_formed_iff in IW as [_ IW].
  unfold check_disjoint, assert_. rewrite IW. cbn [next]. now apply xd0_run.
Qed.
Lemma cl_again f s cl : inv f s -> r_cl (dd_roles s) = Some cl ->
  exists s2, next (check_disjoint s) (set_cl f) = (s2, None).
Proof.
  intros I. destruct I as [IC IW IU IX IY I0 I1 IL].
  apply well_formed_iff in IW as [_ IW].
  unfold check_disjoint, assert_. rewrite IW. cbn [next]. rewrite set_cl_eq, IL. eauto.
Qed.
Lemma same_xd_refl s : same_xd s s.
Proof. unfold same_xd. tauto. Qed.

Lemma opt_list_arg_back f o : NoDup (optl o) -> incl (optl o) (fcols f) -> opt_list_arg f (olist o) = Ok o.
Proof. destruct o; cbn [optl olist opt_list_arg]; [intros A B; now rewrite list_arg_list|reflexivity]. Qed.
Lemma opt_one_arg_back f o : incl (opt1 o) (fcols f) -> opt_one_arg f (ostr o) = Ok o.
Proof. destruct o; cbn [opt1 ostr opt_one_arg]; [intros A; rewrite one_arg_str; [reflexivity|apply A; now left]|reflexivity]. Qed.
Lemma set_back_y r y : set_ry (set_ry r y) (r_y r) = r. Proof. destruct r; reflexivity. Qed.

Lemma roles_back r :
  set_ry r (r_y r) = r /\ set_rd r (r_d r) = r /\ set_rx r (r_x r) = r /\ set_rz r (r_z r) = r /\
  set_rt r (r_t r) = r /\ set_rs r (r_s r) = r /\ set_rcl r (r_cl r) = r.
Proof. destruct r; cbn. tauto. Qed.

Lemma recovery f s o s1 e : inv f s -> sets_role o = true -> assign f s o = (s1, Some e) ->
  exists s2, assign f s1 (undo s o) = (s2, None) /\ assign f s (undo s o) = (s2, None) /\
    dd_roles s2 = dd_roles s.
Proof.
  intros I R H. assert (E := each_of _ _ I). apply each_role_parts in E.
  destruct (roles_back (dd_roles s)) as [B1 [B2 [B3 [B4 [B5 [B6 B7]]]]]].
  assert (Y0 := yzts_again f s s I (same_xd_refl s)). rewrite with_roles_id in Y0.
  destruct (xd_again f s I) as [sx X0].
  assert (X1 : dd_roles sx = dd_roles s).
  { apply next_none in X0 as [a [A B]]. apply check_disjoint_none in A as [_ ->].
    apply set_xd0_keeps in B. tauto. }
  destruct o as [v|v|v|v|v|v|v|v|v|v]; try discriminate; cbn [undo assign] in *.
  - exists s. rewrite one_arg_str by tauto. cbn [arg]. rewrite B1, with_roles_id, Y0.
    split; [|auto].
    destruct (one_arg f v) as [y|]; cbn [arg] in H; [|injection H as <- _; now rewrite B1, with_roles_id].
    apply yzts_failed in H as [H1 H2]. rewrite H1.
    replace (set_ry (set_ry (dd_roles s) y) (r_y (dd_roles s))) with (dd_roles s) by (destruct (dd_roles s); reflexivity).
    now apply yzts_again.
  - exists sx. rewrite list_arg_list by tauto. cbn [arg]. rewrite B2, with_roles_id, X0.
    split; [|auto].
    destruct (list_arg f v) as [y|]; cbn [arg] in H; [|injection H as <- _; now rewrite B2, with_roles_id].
    apply xd_failed in H as ->. cbn [dd_roles with_roles].
    replace (set_rd (set_rd (dd_roles s) y) (r_d (dd_roles s))) with (dd_roles s) by (destruct (dd_roles s); reflexivity).
    now rewrite with_roles_twice, with_roles_id.
  - exists sx. cbn [x_arg]. rewrite list_arg_list by tauto. cbn [arg]. rewrite B3, with_roles_id, X0.
    split; [|auto].
    destruct (x_arg f (dd_roles s) v) as [y|]; cbn [arg] in H; [|injection H as <- _; now rewrite B3, with_roles_id].
    apply xd_failed in H as ->. cbn [dd_roles with_roles].
    replace (set_rx (set_rx (dd_roles s) y) (r_x (dd_roles s))) with (dd_roles s) by (destruct (dd_roles s); reflexivity).
    now rewrite with_roles_twice, with_roles_id.
  - exists s. rewrite opt_list_arg_back by tauto. cbn [arg]. rewrite B4, with_roles_id, Y0.
    split; [|auto].
    destruct (opt_list_arg f v) as [y|]; cbn [arg] in H; [|injection H as <- _; now rewrite B4, with_roles_id].
    apply yzts_failed in H as [H1 H2]. rewrite H1.
    replace (set_rz (set_rz (dd_roles s) y) (r_z (dd_roles s))) with (dd_roles s) by (destruct (dd_roles s); reflexivity).
    now apply yzts_again.
  - exists s. rewrite opt_one_arg_back by tauto. cbn [arg]. rewrite B5, with_roles_id, Y0.
    split; [|auto].
    destruct (opt_one_arg f v) as [y|]; cbn [arg] in H; [|injection H as <- _; now rewrite B5, with_roles_id].
    apply yzts_failed in H as [H1 H2]. rewrite H1.
    replace (set_rt (set_rt (dd_roles s) y) (r_t (dd_roles s))) with (dd_roles s) by (destruct (dd_roles s); reflexivity).
    now apply yzts_again.
  - exists s. rewrite opt_one_arg_back by tauto. cbn [arg]. rewrite B6, with_roles_id, Y0.
    split; [|auto].
    destruct (opt_one_arg f v) as [y|]; cbn [arg] in H; [|injection H as <- _; now rewrite B6, with_roles_id].
    apply yzts_failed in H as [H1 H2]. rewrite H1.
    replace (set_rs (set_rs (dd_roles s) y) (r_s (dd_roles s))) with (dd_roles s) by (destruct (dd_roles s); reflexivity).
    now apply yzts_again.
  - destruct (r_cl (dd_roles s)) as [cl|] eqn:CL; [|discriminate].
    destruct (cl_again f s cl I CL) as [sc C0].
    assert (C1 : dd_roles sc = dd_roles s).
    { apply next_none in C0 as [a [A B]]. apply check_disjoint_none in A as [_ ->].
      rewrite set_cl_eq in B. destruct (forallb _ _); [|discriminate]. now injection B as <-. }
    exists sc. cbn [olist optl] in *. rewrite list_arg_list by tauto. cbn [arg].
    rewrite B7, with_roles_id, C0. split; [|auto].
    destruct (list_arg f v) as [y|]; cbn [arg] in H; [|injection H as <- _; now rewrite CL, B7, with_roles_id].
    apply cl_failed in H as ->. cbn [dd_roles with_roles].
    change (r_cl (set_rcl (dd_roles s) (Some y))) with (Some y). cbv iota.
    replace (set_rcl (set_rcl (dd_roles s) (Some y)) (Some cl)) with (dd_roles s) by (rewrite <- CL; destruct (dd_roles s); reflexivity).
    now rewrite with_roles_twice, with_roles_id.
Qed.

(** ** Default covariates *)
Lemma default_constructor f cl y d z t v other fo s :
  construct f cl y d CNone z t v other fo = Ok s ->
  r_x (dd_roles s) = default_x f (dd_roles s).
Proof.
  unfold construct. intros H.
  apply require_inv in H as [HC H].
  apply bind_inv in H as [cl' [Hcl H]].
  apply bind_inv in H as [y' [Hy H]].
  apply bind_inv in H as [d' [Hd H]].
  apply bind_inv in H as [z' [Hz H]].
  apply bind_inv in H as [t' [Ht H]].
  apply bind_inv in H as [v' [Hv H]]. cbv zeta in H.
  apply bind_inv in H as [x' [Hx H]].
  apply require_inv in H as [HB H].
  apply bind_inv in H as [other' [_ H]].
  apply bind_inv in H as [fo' [_ H]].
  apply bind_inv in H as [bt [_ H]].
  apply bind_inv in H as [by_ [_ H]].
  apply bind_inv in H as [s1 [Hs H]].
  apply require_inv in H as [HD H]. injection H as <-.
  cbn [x_arg] in Hx. injection Hx as <-.
  destruct (next _ _) as [s2 [e|]] eqn:E; cbn in Hs; [discriminate|].
  injection Hs as <-. apply next_none in E as [s3 [E1 E2]].
  apply set_yzts_keeps in E1. apply set_xd0_keeps in E2.
  destruct E1 as [E1 _]. destruct E2 as [E2 _]. rewrite E2, E1. reflexivity.
Qed.
Lemma default_assigned f s s' : assign f s (SetX CNone) = (s', None) ->
  r_x (dd_roles s') = default_x f (dd_roles s').
Proof.
  cbn [assign x_arg arg]. intros H. apply next_none in H as [s1 [A B]]. apply check_disjoint_none in A as [_ ->].
  apply set_xd0_keeps in B as [B _]. rewrite B. reflexivity.
Qed.
Lemma default_spec f r : exists keep,
  default_x f r = filter keep (fcols f) /\
  forall c, keep c = true <-> (c <> r_y r /\ ~ In c (r_d r) /\ ~ In c (optl (r_z r)) /\ r_t r <> Some c /\ r_s r <> Some c
     /\ ~ In c (optl (r_cl r))).
Proof.
  eexists. split; [reflexivity|]. intros c. cbn beta.
  rewrite negb_true_iff, mem_false, !in_app_iff, !in_opt1. cbn [In]. intuition congruence.
Qed.

(** ** Binary indicators *)
Lemma zero_one_iff f c : binary_col f c = true <-> zero_one_column f c.
Proof.
  unfold binary_col, zero_one_column. rewrite col_all_iff.
  assert (Z : forall u, zero_one u = true <-> u = Num 0 \/ u = Num 1).
  { intros [r| |]; cbn; try (split; [discriminate|intros [?|?]; discriminate]).
    destruct (Req_EM_T (r * r - r) 0) as [E|E]; split; try discriminate; try reflexivity.
    - intros _. assert (P : (r * (r - 1))%R = 0%R) by (rewrite <- E; ring).
      apply Rmult_integral in P as [P|P]; [left|right]; f_equal; [exact P|].
      apply (Rplus_eq_reg_r (-1)). rewrite Rplus_opp_r. exact P.
    - intros [G|G]; injection G as ->; exfalso; apply E; ring. }
  split; intros H i Hi; apply Z, H, Hi.
Qed.
Lemma binary_constructed f s : constructed f s -> binary_current f s.
Proof.
  intros [cl [y [d [x [z [t [v [other [fo H]]]]]]]]]. unfold construct in H.
  apply require_inv in H as [HC H].
  apply bind_inv in H as [cl' [Hcl H]].
  apply bind_inv in H as [y' [Hy H]].
  apply bind_inv in H as [d' [Hd H]].
  apply bind_inv in H as [z' [Hz H]].
  apply bind_inv in H as [t' [Ht H]].
  apply bind_inv in H as [v' [Hv H]]. cbv zeta in H.
  apply bind_inv in H as [x' [Hx H]].
  apply require_inv in H as [HB H].
  apply bind_inv in H as [other' [_ H]].
  apply bind_inv in H as [fo' [_ H]].
  apply bind_inv in H as [bt [Hbt H]].
  apply bind_inv in H as [by_ [_ H]].
  apply bind_inv in H as [s1 [Hs H]].
  apply require_inv in H as [HD H]. injection H as <-.
  destruct (next _ _) as [s2 [e|]] eqn:E; cbn in Hs; [discriminate|].
  injection Hs as <-. apply next_none in E as [s3 [E1 E2]].
  apply set_yzts_keeps in E1. apply set_xd0_keeps in E2.
  destruct E1 as [R1 [_ [_ [T1 [Y1 _]]]]]. destruct E2 as [R2 [T2 [Y2 _]]].
  unfold binary_current. rewrite R2, R1, T2, T1, Y2, Y1. cbn.
  split; [apply zero_one_iff|].
  apply require_inv in Hbt as [_ Hbt]. injection Hbt as <-.
  split; [rewrite map_map; apply map_id|].
  intros c b Hcb. apply in_map_iff in Hcb as [c' [[= -> <-] _]]. apply zero_one_iff.
Qed.
Lemma assign_binary f s o s' e : assign f s o = (s', e) -> sets_y_or_d o = false ->
  r_y (dd_roles s') = r_y (dd_roles s) /\ r_d (dd_roles s') = r_d (dd_roles s) /\
  dd_bt s' = dd_bt s /\ dd_by s' = dd_by s.
Proof.
  assert (K : forall r' k s1 e1, (forall a b c, k a = (b, c) -> dd_roles b = dd_roles a /\ dd_bt b = dd_bt a /\ dd_by b = dd_by a) ->
      next (check_disjoint (with_roles s r')) k = (s1, e1) ->
      dd_roles s1 = r' /\ dd_bt s1 = dd_bt s /\ dd_by s1 = dd_by s).
  { intros r' k s1 e1 Hk. unfold check_disjoint, assert_.
    destruct (disjoint_roles _); cbn [next]; intros G; [exact (Hk _ _ _ G)|].
    injection G as <- <-. cbn. tauto. }
  assert (K1 : forall a b c, set_yzts f a = (b, c) -> dd_roles b = dd_roles a /\ dd_bt b = dd_bt a /\ dd_by b = dd_by a).
  { intros a b c G. apply set_yzts_keeps in G. tauto. }
  assert (K2 : forall a b c, set_xd0 f a = (b, c) -> dd_roles b = dd_roles a /\ dd_bt b = dd_bt a /\ dd_by b = dd_by a).
  { intros a b c G. apply set_xd0_keeps in G. tauto. }
  assert (K3 : forall a b c, set_cl f a = (b, c) -> dd_roles b = dd_roles a /\ dd_bt b = dd_bt a /\ dd_by b = dd_by a).
  { intros a b c. rewrite set_cl_eq. destruct (forallb _ _); intros [= <- <-]; cbn; tauto. }
  destruct o as [v|v|v|v|v|v|v|v|v|v]; intros H N; try discriminate; cbn [assign] in H.
  - destruct (x_arg f (dd_roles s) v); cbn [arg] in H; [|injection H as <- <-; tauto].
    apply (K _ _ _ _ K2) in H as [-> H]. cbn. tauto.
  - destruct (opt_list_arg f v); cbn [arg] in H; [|injection H as <- <-; tauto].
    apply (K _ _ _ _ K1) in H as [-> H]. cbn. tauto.
  - destruct (opt_one_arg f v); cbn [arg] in H; [|injection H as <- <-; tauto].
    apply (K _ _ _ _ K1) in H as [-> H]. cbn. tauto.
  - destruct (opt_one_arg f v); cbn [arg] in H; [|injection H as <- <-; tauto].
    apply (K _ _ _ _ K1) in H as [-> H]. cbn. tauto.
  - destruct (r_cl (dd_roles s)); [|injection H as <- <-; tauto].
    destruct (list_arg f v); cbn [arg] in H; [|injection H as <- <-; tauto].
    apply (K _ _ _ _ K3) in H as [-> H]. cbn. tauto.
  - destruct (bool_arg v); cbn [arg] in H; [|injection H as <- <-; tauto].
    apply K2 in H as [-> H]. cbn in *. tauto.
  - destruct (force_arg v); cbn [arg] in H; [|injection H as <- <-; tauto].
    apply K2 in H as [-> H]. cbn in *. tauto.
  - destruct v; try (injection H as <- <-; tauto).
    rewrite set_xd_eq in H. destruct (xd_ok f s s0); injection H as <- <-; cbn; tauto.
Qed.
Lemma binary_kept f l : forall s s' es, binary_current f s -> forallb (fun o => negb (sets_y_or_d o)) l = true ->
  assigns f s l = (s', es) -> binary_current f s'.
Proof.
  induction l as [|o l IH]; cbn; intros s s' es B N H.
  - injection H as <- _. exact B.
  - apply andb_true_iff in N as [N1 N2]. apply negb_true_iff in N1.
    destruct (assign f s o) as [s1 e] eqn:A. destruct (assigns f s1 l) as [s2 es2] eqn:C.
    injection H as <- _. apply (IH s1 s2 es2); auto.
    apply assign_binary in A as [A1 [A2 [A3 A4]]]; [|exact N1].
    unfold binary_current. rewrite A1, A2, A3, A4. exact B.
Qed.

(** ** Exposed arrays *)
Lemma arrays_reachable f s : reachable f s -> arrays_current s.
Proof. intros H. exact (i_cur _ _ (reachable_inv _ _ H)). Qed.
Lemma features_reachable f s : reachable f s ->
  c_x s = features (dd_roles s) (dd_other s) (c_d s) /\ In (c_d s) (r_d (dd_roles s)).
Proof.
  intros H. apply reachable_inv in H. destruct H as [IC IW IU IX IY I0 I1 IL].
  assert (D : In (c_d s) (r_d (dd_roles s))) by apply IU.
  split; [|exact D]. rewrite IX. now apply (xd_list_features f).
Qed.
Lemma features_no_role f s c : reachable f s -> In c (c_x s) ->
  c <> c_d s /\ c <> c_y s /\ ~ In c (optl (c_z s)) /\ c_t s <> Some c /\ c_s s <> Some c /\ ~ In c (optl (c_cl s)).
Proof.
  intros H Hc. destruct (features_reachable _ _ H) as [E D].
  destruct (arrays_reachable _ _ H) as [U1 [U2 [U3 [U4 [U5 _]]]]].
  rewrite U1, U2, U3, U4, U5. rewrite E in Hc.
  exact (features_clean f _ _ _ _ (roles_reachable _ _ H) D Hc).
Qed.
Lemma activate f s d s' : assign f s (SetXD (CStr d)) = (s', None) -> c_d s' = d.
Proof. cbn [assign]. rewrite set_xd_eq. destruct (xd_ok f s d); [intros [= <-]; reflexivity|discriminate]. Qed.
Lemma activate_ok f s d : reachable f s -> In d (r_d (dd_roles s)) -> number_column f d ->
  (forall c, In c (features (dd_roles s) (dd_other s) d) -> allowed_column (dd_force s) f c) ->
  exists s', assign f s (SetXD (CStr d)) = (s', None) /\ c_d s' = d /\
    c_x s' = features (dd_roles s) (dd_other s) d.
Proof.
  intros H D N X. cbn [assign]. rewrite set_xd_eq.
  assert (O : xd_ok f s d = true).
  { unfold xd_ok. rewrite !andb_true_iff. repeat split; [now apply mem_iff|now apply number_col_iff|].
    apply x_finite_iff. rewrite (xd_list_features f); [exact X|exact (roles_reachable _ _ H)|exact D]. }
  rewrite O. eexists. split; [reflexivity|]. split; [reflexivity|].
  cbn. apply (xd_list_features f); [exact (roles_reachable _ _ H)|exact D].
Qed.
Lemma numbers f s : reachable f s ->
  (forall c, In c ([c_y s; c_d s] ++ optl (c_z s) ++ opt1 (c_t s) ++ opt1 (c_s s) ++ optl (c_cl s)) -> number_column f c) /\
  (forall c, In c (c_x s) -> allowed_column (dd_force s) f c).
Proof.
  intros H. apply reachable_inv in H. destruct H as [IC IW IU IX IY I0 I1 IL].
  destruct IU as [U1 [U2 [U3 [U4 [U5 U6]]]]]. rewrite U1, U2, U3, U4, U5.
  unfold yzts_ok in IY. rewrite !andb_true_iff, !forallb_forall in IY. destruct IY as [[[Y1 Y2] Y3] Y4].
  unfold xd_ok in I1. rewrite !andb_true_iff in I1. destruct I1 as [[_ D] X].
  rewrite forallb_forall in IL.
  split.
  - intros c Hc. apply number_col_iff. rewrite !in_app_iff in Hc. cbn [In] in Hc.
    destruct Hc as [[<-|[<-|[]]]|[Hc|[Hc|[Hc|Hc]]]]; auto.
  - rewrite IX. now apply x_finite_iff.
Qed.

Lemma default_covariates f cl y d z t v other fo s :
  construct f cl y d CNone z t v other fo = Ok s ->
  let r := dd_roles s in
  exists keep, r_x r = filter keep (fcols f) /\
    forall c, keep c = true <->
      (c <> r_y r /\ ~ In c (r_d r) /\ ~ In c (optl (r_z r)) /\ r_t r <> Some c /\ r_s r <> Some c /\
       ~ In c (optl (r_cl r))).
Proof. intros H. apply default_constructor in H. cbv zeta. rewrite H. apply default_spec. Qed.
Lemma default_covariates_assigned f s s' : assign f s (SetX CNone) = (s', None) ->
  let r := dd_roles s' in
  exists keep, r_x r = filter keep (fcols f) /\
    forall c, keep c = true <->
      (c <> r_y r /\ ~ In c (r_d r) /\ ~ In c (optl (r_z r)) /\ r_t r <> Some c /\ r_s r <> Some c /\
       ~ In c (optl (r_cl r))).
Proof. intros H. apply default_assigned in H. cbv zeta. rewrite H. apply default_spec. Qed.
Lemma features_distinct f s : reachable f s -> NoDup (c_x s).
Proof.
  intros H. rewrite (proj1 (features_reachable _ _ H)).
  apply (features_nodup f). exact (roles_reachable _ _ H).
Qed.
Lemma binary_other f l s0 s es : constructed f s0 ->
  forallb (fun o => negb (sets_y_or_d o)) l = true ->
  assigns f s0 l = (s, es) -> binary_current f s.
Proof. intros C. apply binary_kept. now apply binary_constructed. Qed.

Lemma recovery_reachable f s o s1 e : reachable f s -> sets_role o = true -> assign f s o = (s1, Some e) ->
  exists s2, assign f s1 (undo s o) = (s2, None) /\ assign f s (undo s o) = (s2, None) /\
    dd_roles s2 = dd_roles s.
Proof. intros H. apply recovery. now apply reachable_inv. Qed.

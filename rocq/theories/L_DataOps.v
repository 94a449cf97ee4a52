(** Assignments to data objects: invariants. *)
From Verif Require Import Base M_Data S_Data L_Data.
Open Scope string_scope.
Open Scope list_scope.

(** ** Checks on arguments *)
Lemma require_inv {A} b e (k : result A) a : require b e k = Ok a -> b = true /\ k = Ok a.
Proof. destruct b; cbn; [auto|discriminate]. Qed.
Lemma bind_inv {A B} (r : result A) (k : A -> result B) b :
  bind r k = Ok b -> exists a, r = Ok a /\ k a = Ok b.
Proof. destruct r; cbn; [eauto|discriminate]. Qed.

Lemma list_arg_inv f v l : list_arg f v = Ok l ->
  (v = CList l \/ (exists c, v = CStr c /\ l = [c])) /\ NoDup l /\ incl l (fcols f).
Proof.
  unfold list_arg. destruct v as [|c|l'|]; try discriminate; intros H;
    apply require_inv in H as [A H]; apply require_inv in H as [B H]; injection H as <-;
    apply distinct_iff in A; apply subset_iff in B; split; eauto.
Qed.
Lemma list_arg_list f l : NoDup l -> incl l (fcols f) -> list_arg f (CList l) = Ok l.
Proof.
  intros A B. unfold list_arg. apply distinct_iff in A. apply subset_iff in B.
  rewrite A. cbn [require]. rewrite B. reflexivity.
Qed.
Lemma list_arg_str f c : In c (fcols f) -> list_arg f (CStr c) = Ok [c].
Proof.
  intros A. assert (B : incl [c] (fcols f)) by (intros x [<-|[]]; exact A).
  apply subset_iff in B. unfold list_arg. rewrite B. reflexivity.
Qed.
Lemma one_arg_inv f v c : one_arg f v = Ok c -> v = CStr c /\ In c (fcols f).
Proof.
  unfold one_arg. destruct v; try discriminate. intros H.
  apply require_inv in H as [A H]. injection H as <-. split; [reflexivity|now apply mem_iff].
Qed.
Lemma one_arg_str f c : In c (fcols f) -> one_arg f (CStr c) = Ok c.
Proof. intros A. unfold one_arg. apply mem_iff in A. now rewrite A. Qed.
Lemma opt_list_arg_inv f v o : opt_list_arg f v = Ok o -> NoDup (optl o) /\ incl (optl o) (fcols f).
Proof.
  unfold opt_list_arg. intros H.
  assert (G : o = None \/ exists l, list_arg f v = Ok l /\ o = Some l).
  { destruct v; try (left; congruence); right; apply bind_inv in H as [a [A B]]; exists a; split; congruence. }
  destruct G as [->|[l [A ->]]]; cbn; [split; [constructor|intros c []]|apply (list_arg_inv _ _ _ A)].
Qed.
Lemma opt_one_arg_inv f v o : opt_one_arg f v = Ok o -> incl (opt1 o) (fcols f).
Proof.
  unfold opt_one_arg. intros H.
  assert (G : o = None \/ exists l, one_arg f v = Ok l /\ o = Some l).
  { destruct v; try (left; congruence); right; apply bind_inv in H as [a [A B]]; exists a; split; congruence. }
  destruct G as [->|[l [A ->]]]; cbn; [intros c []|].
  intros c [<-|[]]. apply (one_arg_inv _ _ _ A).
Qed.
Lemma filter_nodup (p : string -> bool) l : NoDup l -> NoDup (filter p l).
Proof.
  induction l as [|x r IH]; cbn; [auto|]. intros H. inversion H; subst.
  destruct (p x); [constructor; [rewrite filter_In; tauto|]|]; auto.
Qed.
Lemma default_x_in f r c :
  In c (default_x f r) <->
  In c (fcols f) /\ c <> r_y r /\ ~ In c (r_d r) /\ ~ In c (optl (r_z r)) /\ r_t r <> Some c /\ r_s r <> Some c
  /\ ~ In c (optl (r_cl r)).
Proof.
  unfold default_x. rewrite filter_In, negb_true_iff, mem_false, !in_app_iff, !in_opt1. cbn [In].
  intuition congruence.
Qed.
Lemma x_arg_inv f r v l : distinct (fcols f) = true -> x_arg f r v = Ok l -> NoDup l /\ incl l (fcols f).
Proof.
  intros D. unfold x_arg. destruct v.
  1:{ intros [= <-]. split; [apply filter_nodup, distinct_iff, D|].
      intros c Hc. now apply default_x_in in Hc. }
  all: intros H; apply list_arg_inv in H; tauto.
Qed.

(** ** Elementary state changes *)
Lemma next_none o k s : next o k = (s, None) -> exists s1, o = (s1, None) /\ k s1 = (s, None).
Proof. destruct o as [s1 [e|]]; cbn; [discriminate|eauto]. Qed.
Lemma assert_none b e s s' : assert_ b e s = (s', None) -> b = true /\ s' = s.
Proof. unfold assert_. destruct b; [intros [= <-]; auto|discriminate]. Qed.
Lemma arg_none {A} s (r : result A) k s' : arg s r k = (s', None) -> exists a, r = Ok a /\ k a = (s', None).
Proof. destruct r; cbn; [eauto|discriminate]. Qed.

(* everything the outcome, instruments, time and selection arrays need *)
Definition yzts_ok (f : frame) (r : roles) : bool :=
  col_all f finite (r_y r) && forallb (col_all f finite) (optl (r_z r))
  && forallb (col_all f finite) (opt1 (r_t r)) && forallb (col_all f finite) (opt1 (r_s r)).
Definition refresh_yzts (s : ddata) : ddata :=
  let r := dd_roles s in
  mk_dd r (dd_other s) (dd_force s) (dd_bt s) (dd_by s)
        (r_y r) (r_z r) (r_t r) (r_s r) (c_d s) (c_x s) (c_cl s).

Lemma set_yzts_ok f s : yzts_ok f (dd_roles s) = true -> set_yzts f s = (refresh_yzts s, None).
Proof.
  unfold yzts_ok, set_yzts, refresh_yzts.
  destruct s as [[y d x z t v cl] o fo bt b a1 a2 a3 a4 a5 a6 a7]; cbn [dd_roles r_y r_z r_t r_s].
  rewrite !andb_true_iff. intros [[[A B] C] D].
  unfold assert_. rewrite A. cbn [next].
  destruct z as [z|]; [cbn [optl] in B; rewrite B|]; cbn [next];
    (destruct t as [t|]; [cbn in C; apply andb_true_iff in C as [C _]; rewrite C|]); cbn [next];
    (destruct v as [v|]; [cbn in D; apply andb_true_iff in D as [D _]; rewrite D|]); reflexivity.
Qed.
Lemma set_yzts_fail f s : yzts_ok f (dd_roles s) = false ->
  exists s1, set_yzts f s = (s1, Some ValueError) /\
    dd_roles s1 = dd_roles s /\ dd_other s1 = dd_other s /\ dd_force s1 = dd_force s /\
    dd_bt s1 = dd_bt s /\ dd_by s1 = dd_by s /\ c_d s1 = c_d s /\ c_x s1 = c_x s /\ c_cl s1 = c_cl s.
Proof.
  unfold yzts_ok, set_yzts.
  destruct s as [[y d x z t v cl] o fo bt b a1 a2 a3 a4 a5 a6 a7]; cbn [dd_roles r_y r_z r_t r_s].
  unfold assert_. destruct (col_all f finite y); cbn [next andb]; [|intros _; eexists; split; [reflexivity|cbn; tauto]].
  destruct z as [z|]; [cbn [optl]; destruct (forallb (col_all f finite) z)|]; cbn [next andb optl forallb];
    try (intros _; eexists; split; [reflexivity|cbn; tauto]);
  (destruct t as [t|]; [cbn [opt1 forallb]; destruct (col_all f finite t)|]; cbn [next andb opt1 forallb];
    try (intros _; eexists; split; [reflexivity|cbn; tauto]));
  (destruct v as [v|]; [cbn [opt1 forallb]; destruct (col_all f finite v)|]; cbn [next andb opt1 forallb];
    try discriminate;
    try (intros _; eexists; split; [reflexivity|cbn; tauto])).
Qed.
Lemma set_yzts_none f s s' : set_yzts f s = (s', None) -> yzts_ok f (dd_roles s) = true /\ s' = refresh_yzts s.
Proof.
  intros H. destruct (yzts_ok f (dd_roles s)) eqn:E.
  - rewrite (set_yzts_ok _ _ E) in H. injection H as <-. auto.
  - destruct (set_yzts_fail _ _ E) as [s1 [A _]]. rewrite A in H. discriminate.
Qed.
Lemma set_yzts_keeps f s s' e : set_yzts f s = (s', e) ->
    dd_roles s' = dd_roles s /\ dd_other s' = dd_other s /\ dd_force s' = dd_force s /\
    dd_bt s' = dd_bt s /\ dd_by s' = dd_by s /\ c_d s' = c_d s /\ c_x s' = c_x s /\ c_cl s' = c_cl s.
Proof.
  intros H. destruct (yzts_ok f (dd_roles s)) eqn:E.
  - rewrite (set_yzts_ok _ _ E) in H. injection H as <- <-. cbn. tauto.
  - destruct (set_yzts_fail _ _ E) as [s1 [A B]]. rewrite A in H. injection H as <- <-. exact B.
Qed.

Definition xd_ok (f : frame) (s : ddata) (d : string) : bool :=
  mem d (r_d (dd_roles s)) && col_all f finite d && x_finite f (dd_force s) (xd_list s d).
Lemma set_xd_eq f s d :
  set_xd f s d = if xd_ok f s d then (with_xd s d (xd_list s d), None) else (s, Some ValueError).
Proof.
  unfold set_xd, xd_ok, assert_.
  destruct (mem d (r_d (dd_roles s))); cbn [next andb]; [|reflexivity].
  destruct (col_all f finite d); cbn [next andb]; [|reflexivity].
  destruct (x_finite f (dd_force s) (xd_list s d)); reflexivity.
Qed.
Definition xd0_ok (f : frame) (s : ddata) : Prop :=
  exists d l, r_d (dd_roles s) = d :: l /\ xd_ok f s d = true.
Lemma set_xd0_none f s s' : set_xd0 f s = (s', None) ->
  exists d l, r_d (dd_roles s) = d :: l /\ xd_ok f s d = true /\ s' = with_xd s d (xd_list s d).
Proof.
  unfold set_xd0. destruct (r_d (dd_roles s)) as [|d l] eqn:E; [discriminate|].
  rewrite set_xd_eq. destruct (xd_ok f s d) eqn:O; [|discriminate].
  intros [= <-]. exists d, l. auto.
Qed.
Lemma set_xd0_keeps f s s' e : set_xd0 f s = (s', e) ->
  dd_roles s' = dd_roles s /\ dd_bt s' = dd_bt s /\ dd_by s' = dd_by s /\
  dd_other s' = dd_other s /\ dd_force s' = dd_force s /\
  c_y s' = c_y s /\ c_z s' = c_z s /\ c_t s' = c_t s /\ c_s s' = c_s s /\ c_cl s' = c_cl s /\
  (e <> None -> s' = s).
Proof.
  unfold set_xd0. destruct (r_d (dd_roles s)) as [|d l] eqn:E.
  - intros [= <- <-]. tauto.
  - rewrite set_xd_eq. destruct (xd_ok f s d); intros [= <- <-]; cbn; tauto.
Qed.
Lemma set_cl_eq f s :
  set_cl f s = if forallb (col_all f finite) (optl (r_cl (dd_roles s)))
               then (with_cl s (Some (optl (r_cl (dd_roles s)))), None) else (s, Some ValueError).
Proof. unfold set_cl, assert_. now destruct (forallb _ _). Qed.

(** ** The invariant of objects whose assignments all succeeded *)
Record inv (f : frame) (s : ddata) : Prop := mk_inv {
  i_cols : distinct (fcols f) = true;
  i_wf : well_formed f (dd_roles s);
  i_cur : arrays_current s;
  i_x : c_x s = xd_list s (c_d s);
  i_yzts : yzts_ok f (dd_roles s) = true;
  i_xd0 : xd0_ok f s;
  i_xd : xd_ok f s (c_d s) = true;
  i_cl : forallb (col_all f finite) (optl (r_cl (dd_roles s))) = true }.

Lemma mem_true c l : In c l -> mem c l = true.
Proof. apply mem_iff. Qed.

Lemma construct_inv f cl y d x z t v other fo s :
  construct f cl y d x z t v other fo = Ok s -> inv f s.
Proof.
  unfold construct. intros H.
  apply require_inv in H as [HC H].
  apply bind_inv in H as [cl' [Hcl H]].
  apply bind_inv in H as [y' [Hy H]].
  apply bind_inv in H as [d' [Hd H]].
  apply bind_inv in H as [z' [Hz H]].
  apply bind_inv in H as [t' [Ht H]].
  apply bind_inv in H as [v' [Hv H]]. cbv zeta in H.
  apply bind_inv in H as [x' [Hx H]].
  apply require_inv in H as [HB H].
  apply bind_inv in H as [other' [_ H]].
  apply bind_inv in H as [fo' [_ H]].
  apply bind_inv in H as [bt [_ H]].
  apply bind_inv in H as [by_ [_ H]].
  apply bind_inv in H as [s1 [Hs H]].
  apply require_inv in H as [HD H]. injection H as <-.
  set (r := set_rx (mk_roles y' d' [] z' t' v' cl') x') in *.
  set (s0 := mk_dd r other' fo' bt (binary_col f y') y' None None None y' [] cl') in *.
  destruct (next (set_yzts f s0) (set_xd0 f)) as [s2 [e|]] eqn:E; cbn in Hs; [discriminate|].
  injection Hs as <-. apply next_none in E as [s3 [E1 E2]].
  apply set_yzts_none in E1 as [Y ->].
  apply set_xd0_none in E2 as [d0 [l [D [X ->]]]].
  assert (CL : NoDup (optl cl') /\ incl (optl cl') (fcols f) /\ forallb (col_all f finite) (optl cl') = true).
  { destruct cl as [c|]; [|injection Hcl as <-; repeat split; [constructor|intros ? []]].
    apply bind_inv in Hcl as [l' [A B]]. apply require_inv in B as [B C]. injection C as <-.
    apply list_arg_inv in A as [_ [A1 A2]]. auto. }
  destruct CL as [CL1 [CL2 CL3]].
  assert (W : well_formed f r).
  { apply well_formed_iff. split; [|unfold disjoint_roles; now rewrite HB, HD].
    apply each_role_parts.
    apply one_arg_inv in Hy as [_ Hy]. apply list_arg_inv in Hd as [_ [Hd1 Hd2]].
    apply opt_list_arg_inv in Hz as [Hz1 Hz2]. apply opt_one_arg_inv in Ht. apply opt_one_arg_inv in Hv.
    apply x_arg_inv in Hx as [Hx1 Hx2]; [|exact HC]. cbn. tauto. }
  constructor; auto.
  - repeat split. change (In d0 (r_d r)). change (r_d r = d0 :: l) in D. rewrite D. now left.
  - exists d0, l. split; [exact D|exact X].
Qed.

Lemma check_disjoint_none s s' : check_disjoint s = (s', None) -> disjoint_roles (dd_roles s) = true /\ s' = s.
Proof. apply assert_none. Qed.

Ltac parts H := let A := fresh in
  pose proof (proj1 (each_role_parts _ _) (proj1 (proj1 (well_formed_iff _ _) H))) as A; cbn in A.

Lemma each_of f s : inv f s -> each_role f (dd_roles s).
Proof. intros I. apply (proj1 (well_formed_iff _ _) (i_wf _ _ I)). Qed.

(* each assignment keeps every single role duplicate free and inside the data *)
Lemma assign_each f s o s' e : distinct (fcols f) = true ->
  each_role f (dd_roles s) -> assign f s o = (s', e) -> each_role f (dd_roles s').
Proof.
  intros HC E H.
  assert (K : forall r' k s1 e1, (forall a b c, k a = (b, c) -> dd_roles b = dd_roles a) ->
      each_role f r' ->
      next (check_disjoint (with_roles s r')) k = (s1, e1) -> each_role f (dd_roles s1)).
  { intros r' k s1 e1 Hk Hr. unfold check_disjoint, assert_.
    destruct (disjoint_roles _); cbn [next]; intros G.
    - apply Hk in G. rewrite G. exact Hr.
    - injection G as <- <-. exact Hr. }
  assert (K1 : forall a b c, set_yzts f a = (b, c) -> dd_roles b = dd_roles a).
  { intros a b c G. apply set_yzts_keeps in G. tauto. }
  assert (K2 : forall a b c, set_xd0 f a = (b, c) -> dd_roles b = dd_roles a).
  { intros a b c G. apply set_xd0_keeps in G. tauto. }
  assert (K3 : forall a b c, set_cl f a = (b, c) -> dd_roles b = dd_roles a).
  { intros a b c. rewrite set_cl_eq. destruct (forallb _ _); intros [= <- <-]; reflexivity. }
  assert (E' := proj1 (each_role_parts _ _) E).
  destruct o as [v|v|v|v|v|v|v|v|v|v]; cbn [assign] in H.
  - destruct (one_arg f v) as [y|] eqn:A; cbn [arg] in H; [|injection H as <- <-; exact E].
    apply one_arg_inv in A as [_ A]. revert H. apply K; [exact K1|]. apply each_role_parts. cbn. tauto.
  - destruct (list_arg f v) as [d|] eqn:A; cbn [arg] in H; [|injection H as <- <-; exact E].
    apply list_arg_inv in A as [_ A]. revert H. apply K; [exact K2|]. apply each_role_parts. cbn. tauto.
  - destruct (x_arg f (dd_roles s) v) as [x|] eqn:A; cbn [arg] in H; [|injection H as <- <-; exact E].
    apply x_arg_inv in A; [|exact HC]. revert H. apply K; [exact K2|]. apply each_role_parts. cbn. tauto.
  - destruct (opt_list_arg f v) as [d|] eqn:A; cbn [arg] in H; [|injection H as <- <-; exact E].
    apply opt_list_arg_inv in A. revert H. apply K; [exact K1|]. apply each_role_parts. cbn. tauto.
  - destruct (opt_one_arg f v) as [d|] eqn:A; cbn [arg] in H; [|injection H as <- <-; exact E].
    apply opt_one_arg_inv in A. revert H. apply K; [exact K1|]. apply each_role_parts. cbn. tauto.
  - destruct (opt_one_arg f v) as [d|] eqn:A; cbn [arg] in H; [|injection H as <- <-; exact E].
    apply opt_one_arg_inv in A. revert H. apply K; [exact K1|]. apply each_role_parts. cbn. tauto.
  - destruct (r_cl (dd_roles s)); [|injection H as <- <-; exact E].
    destruct (list_arg f v) as [d|] eqn:A; cbn [arg] in H; [|injection H as <- <-; exact E].
    apply list_arg_inv in A as [_ A]. revert H. apply K; [exact K3|]. apply each_role_parts. cbn. tauto.
  - destruct (bool_arg v); cbn [arg] in H; [|injection H as <- <-; exact E].
    apply K2 in H. rewrite H. exact E.
  - destruct (force_arg v); cbn [arg] in H; [|injection H as <- <-; exact E].
    apply K2 in H. rewrite H. exact E.
  - destruct v; try (injection H as <- <-; exact E).
    rewrite set_xd_eq in H. destruct (xd_ok f s s0); injection H as <- <-; exact E.
Qed.

(* a successful role assignment leaves pairwise disjoint roles, whatever was before *)
Lemma assign_disjoint f s o s' :
  sets_role o = true -> (forall v, o = SetCluster v -> r_cl (dd_roles s) <> None) ->
  assign f s o = (s', None) -> disjoint_roles (dd_roles s') = true.
Proof.
  intros R C H.
  assert (K : forall r' k s1, (forall a b c, k a = (b, c) -> dd_roles b = dd_roles a) ->
      next (check_disjoint (with_roles s r')) k = (s1, None) -> disjoint_roles (dd_roles s1) = true).
  { intros r' k s1 Hk G. apply next_none in G as [s2 [A B]].
    apply check_disjoint_none in A as [A ->]. apply Hk in B. rewrite B. exact A. }
  assert (K1 : forall a b c, set_yzts f a = (b, c) -> dd_roles b = dd_roles a).
  { intros a b c G. apply set_yzts_keeps in G. tauto. }
  assert (K2 : forall a b c, set_xd0 f a = (b, c) -> dd_roles b = dd_roles a).
  { intros a b c G. apply set_xd0_keeps in G. tauto. }
  assert (K3 : forall a b c, set_cl f a = (b, c) -> dd_roles b = dd_roles a).
  { intros a b c. rewrite set_cl_eq. destruct (forallb _ _); intros [= <- <-]; reflexivity. }
  destruct o as [v|v|v|v|v|v|v|v|v|v]; try discriminate; cbn [assign] in H;
    try (apply arg_none in H as [a [_ H]]; revert H; apply K; assumption).
  destruct (r_cl (dd_roles s)) eqn:E; [|exfalso; exact (C v eq_refl eq_refl)].
  apply arg_none in H as [a [_ H]]. revert H. apply K. exact K3.
Qed.

Lemma assign_inv f s o s' : inv f s -> assign f s o = (s', None) -> inv f s'.
Proof.
  intros I H.
  assert (E' := assign_each _ _ _ _ _ (i_cols _ _ I) (each_of _ _ I) H).
  destruct I as [IC IW IU IX IY I0 I1 IL].
  assert (W : sets_role o = true -> (forall v, o = SetCluster v -> r_cl (dd_roles s) <> None) ->
     well_formed f (dd_roles s')).
  { intros A B. apply well_formed_iff. split; [exact E'|]. now apply (assign_disjoint f s o). }
  destruct IU as [U1 [U2 [U3 [U4 [U5 U6]]]]].
  destruct o as [v|v|v|v|v|v|v|v|v|v]; cbn [assign] in H.
  - assert (W' := W eq_refl ltac:(discriminate)). clear W.
    apply arg_none in H as [a [_ H]]. apply next_none in H as [s1 [A B]].
    apply check_disjoint_none in A as [A ->]. apply set_yzts_none in B as [B ->].
    constructor; auto. unfold arrays_current; cbn. tauto.
  - assert (W' := W eq_refl ltac:(discriminate)). clear W.
    apply arg_none in H as [a [_ H]]. apply next_none in H as [s1 [A B]].
    apply check_disjoint_none in A as [A ->]. apply set_xd0_none in B as [d [l [B [X ->]]]].
    constructor; auto.
    + unfold arrays_current; cbn in *. rewrite B. cbn. tauto.
    + exists d, l. auto.
  - assert (W' := W eq_refl ltac:(discriminate)). clear W.
    apply arg_none in H as [a [_ H]]. apply next_none in H as [s1 [A B]].
    apply check_disjoint_none in A as [A ->]. apply set_xd0_none in B as [d [l [B [X ->]]]].
    constructor; auto.
    + unfold arrays_current; cbn in *. rewrite B. cbn. tauto.
    + exists d, l. auto.
  - assert (W' := W eq_refl ltac:(discriminate)). clear W.
    apply arg_none in H as [a [_ H]]. apply next_none in H as [s1 [A B]].
    apply check_disjoint_none in A as [A ->]. apply set_yzts_none in B as [B ->].
    constructor; auto. unfold arrays_current; cbn. tauto.
  - assert (W' := W eq_refl ltac:(discriminate)). clear W.
    apply arg_none in H as [a [_ H]]. apply next_none in H as [s1 [A B]].
    apply check_disjoint_none in A as [A ->]. apply set_yzts_none in B as [B ->].
    constructor; auto. unfold arrays_current; cbn. tauto.
  - assert (W' := W eq_refl ltac:(discriminate)). clear W.
    apply arg_none in H as [a [_ H]]. apply next_none in H as [s1 [A B]].
    apply check_disjoint_none in A as [A ->]. apply set_yzts_none in B as [B ->].
    constructor; auto. unfold arrays_current; cbn. tauto.
  - destruct (r_cl (dd_roles s)) as [cl|] eqn:CL.
    2:{ injection H as <-. constructor; auto; [repeat split; congruence|now rewrite CL]. }
    assert (W' : well_formed f (dd_roles s')) by (apply W; [reflexivity|congruence]). clear W.
    apply arg_none in H as [a [_ H]]. apply next_none in H as [s1 [A B]].
    apply check_disjoint_none in A as [A ->]. rewrite set_cl_eq in B.
    destruct (forallb _ _) eqn:F in B; [|discriminate]. injection B as <-.
    constructor; auto. unfold arrays_current; cbn. tauto.
  - clear W. apply arg_none in H as [a [_ H]]. apply set_xd0_none in H as [d [l [B [X ->]]]].
    constructor; auto.
    + unfold arrays_current; cbn in *. rewrite B. cbn. tauto.
    + exists d, l. auto.
  - clear W. apply arg_none in H as [a [_ H]]. apply set_xd0_none in H as [d [l [B [X ->]]]].
    constructor; auto.
    + unfold arrays_current; cbn in *. rewrite B. cbn. tauto.
    + exists d, l. auto.
  - clear W. destruct v as [|d| |]; try discriminate. rewrite set_xd_eq in H.
    destruct (xd_ok f s d) eqn:X; [|discriminate]. injection H as <-.
    constructor; auto. unfold arrays_current; cbn. repeat split; auto.
    unfold xd_ok in X. apply andb_true_iff in X as [X _]. apply andb_true_iff in X as [X _]. now apply mem_iff.
Qed.

Lemma reachable_inv f s : reachable f s -> inv f s.
Proof.
  induction 1 as [s [cl [y [d [x [z [t [v [other [fo H]]]]]]]]]|s o s' _ IH H].
  - exact (construct_inv _ _ _ _ _ _ _ _ _ _ _ H).
  - exact (assign_inv _ _ _ _ IH H).
Qed.

(** ** Features *)
Lemma remove1_app c (a b : list string) : ~ In c a -> remove1 c (a ++ b) = a ++ remove1 c b.
Proof.
  induction a as [|x r IH]; cbn; [reflexivity|]. intros H.
  destruct (String.eqb_spec c x); [subst; tauto|]. rewrite IH; tauto.
Qed.
Lemma remove1_filter c (l : list string) : NoDup l -> remove1 c l = filter (fun x => negb (String.eqb c x)) l.
Proof.
  induction l as [|x r IH]; cbn; [reflexivity|]. intros H. inversion H; subst.
  destruct (String.eqb_spec c x); cbn; [subst|now rewrite IH].
  symmetry. clear - H2. induction r as [|y r IH]; cbn; [reflexivity|].
  destruct (String.eqb_spec x y); cbn; [subst; exfalso; apply H2; now left|].
  rewrite IH; [reflexivity|intros G; apply H2; now right].
Qed.
Lemma xd_list_features f s d : well_formed f (dd_roles s) -> In d (r_d (dd_roles s)) ->
  xd_list s d = features (dd_roles s) (dd_other s) d.
Proof.
  intros W D. apply well_formed_iff in W as [E W].
  apply each_role_parts in E. unfold disjoint_roles in W. apply andb_true_iff in W as [W _].
  apply disjoint_base_iff in W.
  unfold xd_list, features. destruct (dd_other s); [|now rewrite app_nil_r].
  rewrite remove1_app by (apply (proj1 (proj2 (proj2 W))); exact D).
  rewrite remove1_filter by tauto. reflexivity.
Qed.

(* membership in the features *)
Lemma features_in r other d c :
  In c (features r other d) <-> In c (r_x r) \/ (other = true /\ In c (r_d r) /\ c <> d).
Proof.
  unfold features. rewrite in_app_iff. destruct other.
  - rewrite filter_In, negb_true_iff. destruct (String.eqb_spec d c); intuition congruence.
  - cbn. intuition congruence.
Qed.
Lemma features_clean f r other d c : well_formed f r -> In d (r_d r) -> In c (features r other d) ->
  c <> d /\ c <> r_y r /\ ~ In c (optl (r_z r)) /\ r_t r <> Some c /\ r_s r <> Some c /\ ~ In c (optl (r_cl r)).
Proof.
  intros W D H. apply features_in in H.
  unfold well_formed, role_columns in W. destruct W as [W _].
  rewrite !nodup_app in W. setoid_rewrite in_app_iff in W. setoid_rewrite in_app_iff in W.
  setoid_rewrite in_app_iff in W. setoid_rewrite in_app_iff in W. setoid_rewrite in_app_iff in W.
  setoid_rewrite in_opt1 in W.
  destruct W as [_ [[_ [[_ [_ W3]] W2]] W1]].
  specialize (W1 (r_y r) (or_introl eq_refl)).
  destruct H as [H|[_ [H N]]].
  - specialize (W3 c H).
    assert (W2' := W2 d D).
    assert (c <> r_y r) by (intros ->; tauto).
    assert (c <> d) by (intros ->; tauto).
    tauto.
  - specialize (W2 c H). assert (c <> r_y r) by (intros ->; tauto). tauto.
Qed.
Lemma features_nodup f r other d : well_formed f r -> NoDup (features r other d).
Proof.
  intros W. unfold well_formed, role_columns in W. destruct W as [W _].
  rewrite !nodup_app in W. destruct W as [_ [[A [[B _] C]] _]].
  unfold features. apply nodup_app. split; [exact B|].
  destruct other; [|split; [constructor|intros ? ? []]].
  split; [now apply filter_nodup|].
  intros c Hc G. apply filter_In in G as [G _]. apply (C c G). rewrite in_app_iff. now left.
Qed.

(** The data object with fewer covariates. *)
From Verif Require Import M_Data S_Data L_Data L_DataOps L_DataProps.
From Coq Require Import List String Bool Lia.
Import ListNotations.
From Verif Require Import Base.
Local Open Scope string_scope.
Local Open Scope list_scope.

(** What the constructor stores. *)
Lemma constructed_form f s : constructed f s -> exists d l, r_d (dd_roles s) = d :: l /\
  s = mk_dd (dd_roles s) (dd_other s) (dd_force s) (map (fun c => (c, binary_col f c)) (r_d (dd_roles s))) (binary_col f (r_y (dd_roles s)))
        (r_y (dd_roles s)) (r_z (dd_roles s)) (r_t (dd_roles s)) (r_s (dd_roles s)) d (xd_list s d) (r_cl (dd_roles s)).
Proof.
  intros (cl & y & d & x & z & t & v & other & fo & H). unfold construct in H.
  apply require_inv in H as [HC H].
  apply bind_inv in H as [cl' [Hcl H]].
  apply bind_inv in H as [y' [Hy H]].
  apply bind_inv in H as [d' [Hd H]].
  apply bind_inv in H as [z' [Hz H]].
  apply bind_inv in H as [t' [Ht H]].
  apply bind_inv in H as [v' [Hv H]]. cbv zeta in H.
  apply bind_inv in H as [x' [Hx H]].
  apply require_inv in H as [HB H].
  apply bind_inv in H as [other' [_ H]].
  apply bind_inv in H as [fo' [_ H]].
  apply bind_inv in H as [bt [Hbt H]].
  apply bind_inv in H as [by_ [_ H]].
  apply bind_inv in H as [s1 [Hs H]].
  apply require_inv in H as [HD H]. injection H as <-.
  unfold check_binary in Hbt. apply require_inv in Hbt as [_ Hbt]. injection Hbt as <-.
  set (r := set_rx (mk_roles y' d' [] z' t' v' cl') x') in *.
  destruct (next _ (set_xd0 f)) as [s2 [e|]] eqn:E; cbn in Hs; [discriminate|].
  injection Hs as <-. apply next_none in E as [s3 [E1 E2]].
  apply set_yzts_none in E1 as [Y ->].
  apply set_xd0_none in E2 as [d0 [l [D [X ->]]]].
  exists d0, l. split; [exact D|]. reflexivity.
Qed.

Lemma nodup_sub {A} (p : A -> bool) (a x b : list A) : NoDup (a ++ x ++ b) -> NoDup (a ++ filter p x ++ b).
Proof.
  induction a as [|h a IH]; cbn; intro H.
  - induction x as [|h x IH]; cbn in *; [exact H|]. inversion_clear H as [|? ? N R]. specialize (IH R). destruct (p h); [|exact IH]. cbn. constructor; [|exact IH].
    intro I. apply N. apply in_app_iff in I as [I|I]; apply in_app_iff; [left; apply filter_In in I as [I _]; exact I|right; exact I].
  - inversion_clear H as [|? ? N R]. constructor; [|apply IH, R]. intro I. apply N. rewrite !in_app_iff in *. destruct I as [I|[I|I]]; auto. right; left. apply filter_In in I as [I _]. exact I.
Qed.
Lemma sub_roles f p r : well_formed f r -> well_formed f (set_rx r (filter p (r_x r))).
Proof.
  intros [N I]. unfold well_formed, role_columns in *. cbn. split.
  - change (NoDup (([r_y r] ++ r_d r) ++ filter p (r_x r) ++ (optl (r_z r) ++ opt1 (r_t r) ++ opt1 (r_s r) ++ optl (r_cl r)))). 
    assert (H : ([r_y r] ++ r_d r ++ r_x r ++ optl (r_z r) ++ opt1 (r_t r) ++ opt1 (r_s r) ++ optl (r_cl r) = ([r_y r] ++ r_d r) ++ r_x r ++ (optl (r_z r) ++ opt1 (r_t r) ++ opt1 (r_s r) ++ optl (r_cl r)))%list) by (rewrite <- app_assoc; reflexivity).
    rewrite H in N. apply nodup_sub. exact N.
  - intros c Hc. apply I. cbn in Hc |- *. destruct Hc as [Hc|Hc]; [left; exact Hc|right]. rewrite !in_app_iff in *. destruct Hc as [Hc|[Hc|Hc]]; auto. right; left. apply filter_In in Hc as [Hc _]. exact Hc.
Qed.

(** [x_cols = <sublist>] succeeds and leaves the object that the constructor
    builds for this sublist (up to the flag of the finiteness check). *)
Lemma sub_assign f p s : constructed f s -> exists s' d l,
  assign f s (SetX (CList (filter p (r_x (dd_roles s))))) = (s', None) /\ r_d (dd_roles s) = d :: l /\
  s' = mk_dd (set_rx (dd_roles s) (filter p (r_x (dd_roles s)))) (dd_other s) (dd_force s) (dd_bt s) (dd_by s) (c_y s) (c_z s) (c_t s) (c_s s) d
         (if dd_other s then remove1 d (filter p (r_x (dd_roles s)) ++ r_d (dd_roles s)) else filter p (r_x (dd_roles s))) (c_cl s).
Proof.
  intro K. pose proof (constructed_inv _ _ K) as I. destruct I as [IC IW IU IX IY I0 I1 IL]. pose proof (sub_roles f p _ IW) as W.
  destruct I0 as (d & l & Ed & Xd).
  eexists. exists d, l. split; [|split; [exact Ed|reflexivity]]. cbn [assign x_arg].
  pose proof (proj1 (each_role_parts _ _) (proj1 (proj1 (well_formed_iff _ _) W))) as Q. cbn in Q.
  rewrite list_arg_list by tauto. cbn [arg]. unfold check_disjoint, assert_. cbn [dd_roles with_roles].
  rewrite (proj2 (proj1 (well_formed_iff _ _) W)). cbn [next]. unfold set_xd0. cbn [dd_roles with_roles r_d set_rx]. rewrite Ed. rewrite set_xd_eq.
  assert (X : xd_ok f (with_roles s (set_rx (dd_roles s) (filter p (r_x (dd_roles s))))) d = true).
  { unfold xd_ok in *. rewrite !andb_true_iff in *. destruct Xd as ((A & B) & D). split; [split; [exact A|exact B]|].
    apply x_finite_iff. rewrite (xd_list_features f); [|exact W|cbn; rewrite Ed; now left].
    intros c Hc. apply x_finite_iff with (c := c) in D; [exact D|]. rewrite (xd_list_features f); [|exact IW|rewrite Ed; now left].
    cbn [dd_roles with_roles dd_other] in Hc. apply features_in in Hc. apply features_in. destruct Hc as [Hc|Hc]; [left|right; exact Hc]. cbn in Hc. apply filter_In in Hc as [Hc _]. exact Hc. }
  rewrite X. unfold with_xd, with_roles, xd_list. cbn. rewrite Ed. reflexivity.
Qed.
(** What the constructor accepts is usable. *)
Lemma constructed_usable f s : constructed f s -> usable f (dd_roles s) (dd_force s).
Proof.
  intro K. pose proof (constructed_inv _ _ K) as [IC IW IU IX IY I0 I1 IL]. destruct I0 as (d0 & l & Ed & Xd).
  assert (D : forallb (col_all f finite) (r_d (dd_roles s)) = true).
  { destruct K as (cl & y & d & x & z & t & v & other & fo & H). unfold construct in H.
    apply require_inv in H as [HC H].
    apply bind_inv in H as [cl' [Hcl H]].
    apply bind_inv in H as [y' [Hy H]].
    apply bind_inv in H as [d' [Hd H]].
    apply bind_inv in H as [z' [Hz H]].
    apply bind_inv in H as [t' [Ht H]].
    apply bind_inv in H as [v' [Hv H]]. cbv zeta in H.
    apply bind_inv in H as [x' [Hx H]].
    apply require_inv in H as [HB H].
    apply bind_inv in H as [other' [_ H]].
    apply bind_inv in H as [fo' [_ H]].
    apply bind_inv in H as [bt [Hbt H]].
    apply bind_inv in H as [by_ [_ H]].
    apply bind_inv in H as [s1 [Hs H]].
    apply require_inv in H as [HD H]. injection H as <-.
    unfold check_binary in Hbt. apply require_inv in Hbt as [Q _].
    destruct (next _ (set_xd0 f)) as [s2 [e|]] eqn:E; cbn in Hs; [discriminate|].
    injection Hs as <-. apply next_none in E as [s3 [E1 E2]].
    apply set_yzts_none in E1 as [Y ->].
    apply set_xd0_none in E2 as [d1 [l1 [D1 [X ->]]]]. exact Q. }
  split; [apply distinct_iff; exact IC|]. split; [exact IW|]. split; [rewrite Ed; discriminate|]. split.
  - intros c Hc. apply number_col_iff. unfold yzts_ok in IY. rewrite !andb_true_iff in IY. rewrite forallb_forall in D, IL. rewrite !in_app_iff in Hc.
    destruct IY as (((Y1 & Y2) & Y3) & Y4). rewrite forallb_forall in Y2, Y3, Y4. destruct Hc as [[<-|[]]|[Hc|[Hc|[Hc|[Hc|Hc]]]]]; auto.
  - intros c Hc. unfold xd_ok in Xd. rewrite !andb_true_iff in Xd. destruct Xd as (_ & X). apply x_finite_iff with (c := c) in X; [exact X|].
    rewrite (xd_list_features f); [|exact IW|rewrite Ed; now left]. apply features_in. now left.
Qed.
(** The data object without some covariates can be constructed. *)
Lemma sub_constructed f p s : constructed f s -> exists s2, constructed f s2 /\ dd_roles s2 = set_rx (dd_roles s) (filter p (r_x (dd_roles s))) /\ dd_other s2 = dd_other s /\ dd_force s2 = dd_force s.
Proof.
  intro K. pose proof (constructed_usable _ _ K) as (A & W & N & F & X).
  assert (U : usable f (set_rx (dd_roles s) (filter p (r_x (dd_roles s)))) (dd_force s)).
  { split; [exact A|]. split; [apply sub_roles; exact W|]. split; [exact N|]. split; [exact F|]. intros c Hc. apply X. cbn in Hc. apply filter_In in Hc as [Hc _]. exact Hc. }
  destruct (construct_ok f _ (dd_other s) _ U) as (s2 & E & R & O & Fo & _). exists s2. split; [|auto]. do 9 eexists. exact E.
Qed.

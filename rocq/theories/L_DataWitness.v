(** Concrete data objects, and refutations. *)
From Verif Require Import Base M_Data S_Data L_Data L_DataOps L_DataProps L_DataArrays.
From Coq Require Import Lra.
Open Scope string_scope.
Open Scope list_scope.

(* ten columns, two rows; d1 is 0/1, w holds a missing value, the rest is 2 *)
Definition ex_frame : frame :=
  mk_frame ["y"; "d1"; "d2"; "x1"; "x2"; "z"; "t"; "s"; "c"; "w"] 2
    (fun c i => if String.eqb c "w" then NaN
                else if String.eqb c "d1" then Num (match i with O => 0 | _ => 1 end) else Num 2).
Definition ex_roles : roles :=
  mk_roles "y" ["d1"; "d2"] ["x1"; "x2"] (Some ["z"]) (Some "t") None None.
Definition ex_cluster_roles : roles :=
  mk_roles "y" ["d1"; "d2"] ["x1"] (Some ["z"]) (Some "t") (Some "s") (Some ["c"]).

Lemma ex_number c : In c ["y"; "d1"; "d2"; "x1"; "x2"; "z"; "t"; "s"; "c"] -> number_column ex_frame c.
Proof.
  intros H i _. cbn in H.
  repeat (destruct H as [<-|H]; [cbn; eexists; reflexivity|]). destruct H.
Qed.
Ltac nodup := apply distinct_iff; reflexivity.
Lemma ex_usable fo : usable ex_frame ex_roles fo.
Proof.
  split; [nodup|]. split; [split; [nodup|apply subset_iff; reflexivity]|]. split; [discriminate|].
  split; intros c Hc; [|apply number_allowed]; apply ex_number; cbn in *; tauto.
Qed.
Lemma ex_cluster_usable fo : usable ex_frame ex_cluster_roles fo.
Proof.
  split; [nodup|]. split; [split; [nodup|apply subset_iff; reflexivity]|]. split; [discriminate|].
  split; intros c Hc; [|apply number_allowed]; apply ex_number; cbn in *; tauto.
Qed.
Lemma construct_of f r other fo : usable f r fo -> exists s, constructed f s /\ dd_roles s = r /\ dd_other s = other /\
  dd_force s = fo /\ c_d s = hd EmptyString (r_d r).
Proof.
  intros U. destruct (construct_ok f r other fo U) as [s [K [A [B [C D]]]]]. exists s.
  split; [repeat eexists; exact K|auto].
Qed.

(** ** Refutations *)
Lemma shared_list : exists f s l, reachable f s /\ ~ well_formed f (dd_roles (caller_changes_x s l)).
Proof.
  destruct (construct_of ex_frame ex_roles true Strict (ex_usable _)) as [s [K [R _]]].
  exists ex_frame, s, ["x1"; "x2"; "y"]. split; [now apply R_new|].
  intros [W _]. apply distinct_iff in W. unfold caller_changes_x in W. cbn [dd_roles with_roles] in W.
  rewrite R in W. discriminate.
Qed.

(* after a rejected assignment of the outcome to the covariates, the learners
   are given the outcome as a feature *)
Lemma leak_after_rejection f s : reachable f s ->
  exists s1 s2, assign f s (SetX (CStr (r_y (dd_roles s)))) = (s1, Some ValueError) /\
    assign f s1 (SetXD (CStr (c_d s))) = (s2, None) /\ c_d s2 = c_d s /\ c_y s2 = c_y s /\ In (c_y s2) (c_x s2).
Proof.
  intros H. assert (I := reachable_inv _ _ H). assert (E := each_of _ _ I). apply each_role_parts in E.
  assert (N := numbers _ _ H). destruct N as [N1 N2].
  destruct (features_reachable _ _ H) as [F D].
  destruct (arrays_reachable _ _ H) as [U1 _].
  destruct I as [IC IW IU IX IY I0 I1 IL].
  cbn [assign x_arg]. rewrite list_arg_str by tauto. cbn [arg].
  set (r' := set_rx (dd_roles s) [r_y (dd_roles s)]).
  assert (ND : disjoint_roles r' = false).
  { destruct (disjoint_roles r') eqn:Q; [|reflexivity]. unfold disjoint_roles in Q.
    apply andb_true_iff in Q as [Q _]. apply disjoint_base_iff in Q as [Q _]. exfalso. apply Q. now left. }
  unfold check_disjoint, assert_. cbn [dd_roles with_roles]. rewrite ND. cbn [next].
  exists (with_roles s r'). eexists. split; [reflexivity|].
  rewrite set_xd_eq.
  assert (L : forall c, In c (xd_list (with_roles s r') (c_d s)) ->
     c = r_y (dd_roles s) \/ In c (c_x s)).
  { unfold xd_list, r'. cbn [with_roles dd_roles dd_other set_rx r_x r_d]. rewrite F.
    destruct (dd_other s) eqn:O.
    - intros c Hc. rewrite features_in.
      assert (IN : In c ([r_y (dd_roles s)] ++ r_d (dd_roles s)) /\ c <> c_d s).
      { assert (YD : r_y (dd_roles s) <> c_d s).
        { apply well_formed_iff in IW as [_ IW]. unfold disjoint_roles in IW. apply andb_true_iff in IW as [IW _].
          apply disjoint_base_iff in IW as [_ [IW _]]. intros Q. apply IW. rewrite Q. exact D. }
        rewrite remove1_filter in Hc.
        - apply filter_In in Hc as [Hc1 Hc2]. split; [exact Hc1|]. apply negb_true_iff, String.eqb_neq in Hc2. congruence.
        - apply nodup_app. split; [apply nodup_one|]. split; [apply E|].
          apply well_formed_iff in IW as [_ IW]. unfold disjoint_roles in IW. apply andb_true_iff in IW as [IW _].
          apply disjoint_base_iff in IW as [_ [IW _]]. intros q [<-|[]]. exact IW. }
      destruct IN as [[<-|IN] NE]; [now left|]. right. right. auto.
    - intros c [<-|[]]. now left. }
  assert (O : xd_ok f (with_roles s r') (c_d s) = true).
  { unfold xd_ok. rewrite !andb_true_iff. repeat split.
    - apply mem_iff. exact D.
    - apply number_col_iff, N1. right. now left.
    - apply x_finite_iff. intros c Hc. destruct (L c Hc) as [->|G]; [|now apply N2].
      apply number_allowed, N1. rewrite <- U1. now left. }
  rewrite O. split; [reflexivity|]. split; [reflexivity|]. split; [reflexivity|].
  cbn [with_xd c_y c_x with_roles]. rewrite U1.
  unfold xd_list, r'. cbn [with_roles dd_roles dd_other set_rx r_x r_d].
  destruct (dd_other s); [|now left].
  assert (YD : r_y (dd_roles s) <> c_d s).
  { apply well_formed_iff in IW as [_ IW]. unfold disjoint_roles in IW. apply andb_true_iff in IW as [IW _].
    apply disjoint_base_iff in IW as [_ [IW _]]. intros Q. apply IW. rewrite Q. exact D. }
  cbn [app remove1]. destruct (String.eqb_spec (c_d s) (r_y (dd_roles s))); [congruence|]. now left.
Qed.

(* a rejected d_cols: the attribute names a treatment the arrays do not hold *)
Lemma arrays_stale : exists f s s1 e, reachable f s /\ assign f s (SetD (CStr "w")) = (s1, Some e) /\
  r_d (dd_roles s1) = ["w"] /\ c_d s1 = "d1".
Proof.
  destruct (construct_of ex_frame ex_roles true Strict (ex_usable _)) as [s [K [R [_ [_ D]]]]].
  exists ex_frame, s. eexists. eexists. split; [now apply R_new|].
  destruct s as [r o fo bt b a1 a2 a3 a4 a5 a6 a7]. cbn in R, D. subst r. subst a5.
  split; [reflexivity|]. split; reflexivity.
Qed.

Lemma not_refreshed : exists f s s' c y d z t v other fo,
  construct f None y d CNone z t v other fo = Ok s /\
  assign f s (SetZ CNone) = (s', None) /\ In c (fcols f) /\ ~ In c (role_columns (dd_roles s')).
Proof.
  set (f := mk_frame ["y"; "d"; "x"; "z"] 2 (fun _ _ => Num 2)).
  assert (U : usable f (mk_roles "y" ["d"] ["x"] (Some ["z"]) None None None) Strict).
  { split; [nodup|]. split; [split; [nodup|apply subset_iff; reflexivity]|]. split; [discriminate|].
    split; intros c Hc; [|apply number_allowed]; intros i _; eexists; reflexivity. }
  destruct (construct_ok f _ true Strict U) as [s [K [R _]]].
  exists f, s. eexists. exists "z", (CStr "y"), (CList ["d"]), (CList ["z"]), CNone, CNone, (FBool true), (FBool true).
  split; [etransitivity; [|exact K]; reflexivity|].
  destruct s as [r o fo bt b a1 a2 a3 a4 a5 a6 a7]. cbn in R. subst r.
  split; [reflexivity|]. split; [cbn; tauto|]. cbn. intuition discriminate.
Qed.

Lemma binary_stale : exists f s s', constructed f s /\ assign f s (SetD (CStr "d2")) = (s', None) /\
  r_d (dd_roles s') = ["d2"] /\ map fst (dd_bt s') = ["d1"] /\ ~ binary_current f s'.
Proof.
  set (r := mk_roles "y" ["d1"] ["x1"; "x2"] None None None None).
  assert (U : usable ex_frame r Strict).
  { split; [nodup|]. split; [split; [nodup|apply subset_iff; reflexivity]|]. split; [discriminate|].
    split; intros c Hc; [|apply number_allowed]; apply ex_number; cbn in *; tauto. }
  destruct (construct_of ex_frame r true Strict U) as [s [K [R [O [F _]]]]].
  assert (B := binary_constructed _ _ K). destruct B as [_ [B _]]. rewrite R in B. cbn in B.
  exists ex_frame, s. eexists. split; [exact K|].
  destruct s as [rr o fo bt b a1 a2 a3 a4 a5 a6 a7]. cbn in R, O, F, B. subst rr o fo.
  split; [reflexivity|]. split; [reflexivity|]. split; [exact B|].
  unfold binary_current. cbn. rewrite B. intros [_ [Q _]]. discriminate.
Qed.

(* the same with the outcome: binary_outcome says "binary" for an outcome of twos *)
Lemma binary_outcome_stale : exists f s s', constructed f s /\ assign f s (SetY (CStr "x1")) = (s', None) /\
  dd_by s' = true /\ ~ zero_one_column f (r_y (dd_roles s')).
Proof.
  set (r := mk_roles "d1" ["d2"] ["x2"] None None None None).
  assert (U : usable ex_frame r Strict).
  { split; [nodup|]. split; [split; [nodup|apply subset_iff; reflexivity]|]. split; [discriminate|].
    split; intros c Hc; [|apply number_allowed]; apply ex_number; cbn in *; tauto. }
  destruct (construct_of ex_frame r true Strict U) as [s [K [R [O [F _]]]]].
  assert (B := binary_constructed _ _ K). destruct B as [B _]. rewrite R in B. cbn in B.
  exists ex_frame, s. eexists. split; [exact K|].
  destruct s as [rr o fo bt b a1 a2 a3 a4 a5 a6 a7]. cbn in R, O, F, B. subst rr o fo.
  split; [reflexivity|]. split.
  - cbn. apply B. intros i Hi. cbn. destruct i; [now left|now right].
  - cbn. intros Q. destruct (Q 0%nat ltac:(cbn; lia)) as [G|G]; cbn in G; injection G as G; lra.
Qed.

(** ** Arrays for the examples *)
Definition ex_arr (k : nat) : arr := mk_arr 3 k (fun i j => Num (INR (i + j))).
Lemma ex_fits : fits Strict (ex_arr 2) (ex_arr 1) (ex_arr 2) (Some (ex_arr 1)) None (Some (ex_arr 1)).
Proof.
  unfold fits, matrix, vector, opt_is, all_cells, number, allowed; cbn.
  repeat split; try lia; intros; eexists; reflexivity.
Qed.

Lemma ex_d1_binary : zero_one_column ex_frame "d1".
Proof. intros i Hi. cbn. destruct i; [now left|now right]. Qed.
Lemma ex_d2_not_binary : ~ zero_one_column ex_frame "d2".
Proof. intros Q. destruct (Q 0%nat ltac:(cbn; lia)) as [G|G]; cbn in G; injection G as G; lra. Qed.

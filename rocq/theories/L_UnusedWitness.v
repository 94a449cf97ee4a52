(** Columns without a role and cluster labels: example. *)
From Verif Require Export L_Unused.
From Verif Require Import L_DataOps L_DataProps L_Data L_InitMade L_InitArgs L_Init L_InitAcceptAll L_EqualWitness.
From Coq Require Import Lia Lra.
Local Open Scope R_scope.
Local Open Scope string_scope.

(** Clusters by "z"; the second frame has other labels and one more column. *)
Definition u_roles : M_Data.roles := M_Data.mk_roles "y" ["e"] ["x"; "d"] None None None (Some ["z"]).
Definition u_cell (c : string) (i : nat) : M_Data.cell := if String.eqb c "q" then M_Data.NaN else if String.eqb c "z" then M_Data.Num (7 + 3 * h_d i) else h_cell c i.
Definition u_frame : M_Data.frame := M_Data.mk_frame ["q"; "y"; "d"; "x"; "z"; "e"] 10 u_cell.
Definition unused_case : Prop := exists s s' C w, S_Data.constructed h_frame s /\ S_Data.constructed u_frame s' /\ M_Data.dd_roles s = u_roles /\ M_Data.dd_roles s' = u_roles /\ M_Data.dd_other s' = M_Data.dd_other s /\ M_Data.dd_force s' = M_Data.dd_force s /\
  agree_on_roles u_roles h_frame u_frame /\ (forall i, col u_frame "z" i <> col h_frame "z" i) /\
  plr_init h_learner i_rd h_frame s reg cls None (PInt 2) (PInt 1) (PStr "partialling out") (PBool false) = Ok (C, w) /\ c_cluster C <> None.
Lemma u_agree : agree_on_roles u_roles h_frame u_frame.
Proof.
  split; [reflexivity| |].
  - intros c i H. cbn in H. repeat (destruct H as [<-|H]; [reflexivity|]). destruct H.
  - intros c i j [<-|[]]. unfold col. cbn. split; lra.
Qed.
Lemma unused_holds : unused_case.
Proof.
  destruct (L_DataWitness.construct_of h_frame u_roles true M_Data.Strict) as (s & K & R & O & Fo & D).
  { assert (N : forall c, S_Data.number_column h_frame c) by (intros c i _; cbn; eexists; reflexivity).
    split; [apply L_Data.distinct_iff; reflexivity|]. split; [i_wf|]. split; [discriminate|]. split; intros c _; [|apply number_allowed]; apply N. }
  destruct (L_DataWitness.construct_of u_frame u_roles true M_Data.Strict) as (s' & K' & R' & O' & Fo' & D').
  { assert (N : forall c, c <> "q" -> S_Data.number_column u_frame c). { intros c Hc i _. apply String.eqb_neq in Hc. cbn. unfold u_cell. rewrite Hc. destruct (String.eqb c "z"); eexists; reflexivity. }
    split; [apply L_Data.distinct_iff; reflexivity|]. split; [i_wf|]. split; [discriminate|]. split; intros c Hc; [|apply number_allowed]; apply N; cbn in Hc; repeat (destruct Hc as [<-|Hc]; [discriminate|]); destruct Hc. }
  destruct (proj2 (plr_accepts_all h_learner i_rd h_frame s K reg cls None (PInt 2) (PInt 1) (PStr "partialling out") (PBool false))) as ((C & w) & E).
  { split; [unfold no_instruments; rewrite R; reflexivity|]. split; [|split; [left; reflexivity|]; split; [exact reg_values|]; split; [repeat split; auto|]; intros _ c Hc; rewrite R in Hc; apply h_01; destruct Hc as [<-|[]]; auto].
    unfold data_split. rewrite R. cbn [M_Data.r_cl u_roles]. split; [reflexivity|]. split; [cbn; lia|]. split; [reflexivity|]. split; [cbn; lia|]. split; [cbn; lia|]. exists false. split; [reflexivity|discriminate]. }
  exists s, s', C, w. split; [exact K|]. split; [exact K'|]. split; [exact R|]. split; [exact R'|]. split; [congruence|]. split; [congruence|]. split; [exact u_agree|]. split; [|split; [exact E|]].
  - intro i. unfold col. cbn. unfold h_d. destruct (Nat.even i); lra.
  - destruct (plr_made h_learner i_rd h_frame s (S_Data.R_new _ _ K) i_sound reg cls None (PInt 2) (PInt 1) "partialling out" (PBool false) C w E) as (mc & bin & -> & _). unfold with_clusters. destruct (arrays_r _ _ (S_Data.R_new _ _ K)) as (_ & _ & _ & _ & Cl & _). rewrite Cl, R. discriminate.
Qed.

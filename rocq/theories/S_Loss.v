(** Specifications: the losses a fitted object reports for its nuisance
    functions. *)
From Verif Require Export S_Init S_Lifecycle.
Local Open Scope R_scope.
Local Open Scope string_scope.

(** The rows below [n] with property G, in increasing order. *)
Definition rows_in (n : nat) (G : nat -> Prop) (rows : list nat) : Prop := Sorted lt rows /\ forall i, In i rows <-> (i < n)%nat /\ G i.
(** Loss of the predictions [p] of [y] on the given rows: the logistic loss of
    the probability, kept away from 0 and 1 by 1e-15, for classifiers and the
    root of the mean squared error otherwise; nan without rows. *)
Definition away (q : R) : R := Rmax (1 / 10 ^ 15) (Rmin (1 - 1 / 10 ^ 15) q).
Definition mean_loss (classifier : bool) (p y : vec) (rows : list nat) : option R :=
  match rows with
  | [] => None
  | _ => Some (if classifier then - Rmean (map (fun i => y i * ln (away (p i)) + (1 - y i) * ln (1 - away (p i))) rows)
               else sqrt (Rmean (map (fun i => (y i - p i) ^ 2) rows)))
  end.

Section Loss.
Context {P : Type}.
Variables (w : world P) (r t : nat).
(** The entry of nuisance_loss for function [name] in repetition r, treatment t. *)
Definition loss_entry (name : string) (v : option R) : Prop := exists d, m_loss (w_obj w) = Some d /\ b_at (d name) [r; t] = v.
(** It is the loss of [p] for [y] over the rows with property G. *)
Definition loss_over (name : string) (classifier : bool) (n : nat) (p y : vec) (G : nat -> Prop) : Prop :=
  exists rows, rows_in n G rows /\ loss_entry name (mean_loss classifier p y rows).
(** … and nan for predictions the user supplied. *)
Definition loss_reported (ext : ext_arg) (c name : string) (classifier : bool) (n : nat) (p y : vec) (G : nat -> Prop) : Prop :=
  ((exists e, supplied ext c name r e) -> loss_entry name None) /\
  ((forall e, ~ supplied ext c name r e) -> loss_over name classifier n p y G).
End Loss.
(** Labels 0 and 1, of which 0 occurs: the codes a classifier is fitted on are
    then the labels. *)
Definition labels_01 (n : nat) (v : vec) : Prop := (forall i, (i < n)%nat -> v i = 0 \/ v i = 1) /\ exists i, (i < n)%nat /\ v i = 0.
(** No data set with an empty list of cluster variables. *)
Definition proper_clusters (s : M_Data.ddata) : Prop := M_Data.r_cl (M_Data.dd_roles s) <> Some [].

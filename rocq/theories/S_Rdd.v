(** Specifications for the regression discontinuity estimator. *)
From Verif Require Export M_Rdd S_Framework S_Splitting.
Local Open Scope R_scope.

(** First-stage features of a unit with treatment intention [t] and score [s]. *)
Definition unit_features (sp : fs_spec) (t s : R) : list R :=
  match sp with CutoffOnly => [t] | CutoffAndScore => [t; s] | Interacted => [t; t * s; s] end.
(** Row i is tested in fold [f] and in no other. *)
Definition tested_only (smpls : list fold) (i : nat) (f : fold) : Prop :=
  exists k, nth_error smpls k = Some f /\ In i (snd f) /\ forall j g, nth_error smpls j = Some g -> In i (snd g) -> j = k.
(** The learner trained on the train part of a fold with kernel weights. *)
Definition trained (learn : rd_learner) (sp : fs_spec) (score : nat -> R) (x : nat -> list R) (outcome w : nat -> R) (f : fold) : list R -> R :=
  learn (map (fun i => (unit_features sp (if Rle_dec 0 (score i) then 1 else 0) (score i) ++ x i, outcome i, w i)) (fst f)).
(** The adjustment: average of the predictions for a unit at the cutoff, not
    intended and intended to be treated. *)
Definition cutoff_average (m : list R -> R) (sp : fs_spec) (x : list R) : R :=
  (m (unit_features sp 0 0 ++ x) + m (unit_features sp 1 0 ++ x)) / 2.
(** Calls of a user on an object. *)
Inductive rd_call := CallFit (n_iter : pyval) | CallConfint (level : pyval).
Definition rd_step (o : rd_obj) (st : option rd_fit) (c : rd_call) : option rd_fit :=
  match c with CallFit k => fst (rd_fit_call o st k) | CallConfint _ => st end.

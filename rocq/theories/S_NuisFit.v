(** Specifications: what a complete [fit] of two model classes reports. *)
From Verif Require Export S_Nuis S_Valid S_Splitting.
Local Open Scope R_scope.
Local Open Scope string_scope.

Section Spec.
Context {E P : Type}.
Variable L : learner E row P.
Variables (f : E -> row -> R) (g : E -> row -> list R).
Variable mc : machinery E P.

(** The learners predict row by row and ignore their past when cloned; joblib
    runs every fold task once, in any order. *)
Record sound_learning (w : world P) : Prop := {
  sl_row : row_wise L f g;
  sl_clone : clone_ok L;
  sl_sched : forall sm r t l fs, m_smpls (w_obj w) = Some sm -> nth_error sm r = Some fs -> schedule (mc_order mc r t l) (length fs) }.
(** If the learner predicts probabilities, all labels of its target occur in
    all train parts. *)
Definition labels_everywhere (w : world P) (n : nat) (lrn : string) (y : vec) (G : nat -> Prop) : Prop :=
  mc_proba mc lrn = true -> classifier_ok L g /\
    forall sm fs h i, m_smpls (w_obj w) = Some sm -> In fs sm -> In h fs -> (i < n)%nat -> exists j, (j < n)%nat /\ G j /\ In j (fst h) /\ y j = y i.
(** A state reached by a constructor call and any method calls, in which every
    drawn split uses a generator that permutes. *)
Definition soundly_reached (C : ctx P) (w : world P) : Prop :=
  exists nf nr dr gen perm w0 ops, shuffles gen /\ perm_ok perm /\ new_object C nf nr dr gen perm = Ok w0 /\ (forall o, In o ops -> good_op o) /\ w = run C ops w0.

(** [v] is the prediction used for nuisance function [name] in repetition r and
    treatment t: the user's, if supplied, and otherwise the cross-fitted one
    for the split and the parameters of the object. *)
Definition used_prediction (w : world P) (n : nat) (ext : ext_arg) (r t : nat) (col name lrn : string) (x : nat -> row) (y : vec) (sel : rows_sel) (fs : list fold) (v : vec) : Prop :=
  (forall e, supplied ext col name r e -> forall i, v i = e i) /\
  ((forall e, ~ supplied ext col name r e) ->
     cross_fitted L f g (setup_of mc n r t (fun l => nth r (m_params (w_obj w) l col) None) (fun _ => None)) name lrn x y sel fs v).
End Spec.

(** Specifications: sensitivity repair, splits held by an object, learner
    evaluation. *)
From Verif Require Export S_Lifecycle.
Local Open Scope R_scope.

Section Spec.
Context {P : Type}.
Variable C : ctx P.

(** Sensitivity estimates of repetition r and treatment t for the nuisance
    results [out]. *)
Definition sens_of (est : nat -> nat -> nuis_out -> R -> sens_out) (w : world P) (out : nat -> nat -> nuis_out) (r t : nat) : sens_out :=
  est r t (out r t) (theta_of C (split_cluster C w r) (out r t)).

(** What the object reports: nu2 and its influence component. *)
Definition reports_nu2 (w : world P) (r t : nat) (v : R) (psi : nat -> R) : Prop :=
  exists s, m_sens (w_obj w) = Some s /\ b_at (sb_nu2 s) [0%nat; r; t] = Some v /\ forall i, b_at (sb_psi_nu2 s) [i; r; t] = Some (psi i).

(** A repetition of a split that may be used for estimation: the test rows
    partition the data, and the train rows avoid the test rows, unless the
    documented "no sample splitting" form is used. *)
Definition valid_rep (k : nat) (fs : list fold) : Prop :=
  Permutation (flat_map snd fs) (seq 0 k) /\
  ((exists tr te, fs = [(tr, te)] /\ Permutation tr (seq 0 k)) \/
   forall f, In f fs -> NoDup (fst f) /\ forall i, In i (fst f) -> (i < k)%nat /\ ~ In i (snd f)).

(** Random generators permute. *)
Definition perm_ok (perm : nat -> nat -> list nat -> list nat) : Prop := forall r v l, Permutation (perm r v l) l.
Definition good_op (o : op P) : Prop := match o with ODraw g perm => shuffles g /\ perm_ok perm | _ => True end.
End Spec.

(** Specifications about call histories of an estimator object. *)
From Verif Require Export S_Model.
Local Open Scope R_scope.

Section Spec.
Context {P : Type}.
Variable C : ctx P.

Definition is_fit (o : op P) : bool := match o with OFit _ _ _ _ => true | _ => false end.
(** No call of [fit] in a history. *)
Definition no_fit (ops : list (op P)) : Prop := forall o, In o ops -> is_fit o = false.
(** Some call of [fit] in a history starting at [w] returned. *)
Fixpoint some_fit (ops : list (op P)) (w : world P) : Prop :=
  match ops with
  | [] => False
  | o :: r => (is_fit o = true /\ snd (run_op C o w) = Ok tt) \/ some_fit r (fst (run_op C o w))
  end.

(** The k-th framework created in the history of the object reports [f] in
    state [w]. *)
Definition fw_reports (w : world P) (k : nat) (f : framework) : Prop :=
  exists o, nth_error (w_fws w) k = Some o /\ f = fw_view (w_heap w) o.

(** The results kept by value. *)
Record same_by_value (f g : framework) : Prop := {
  sv_n_obs : fw_n_obs g = fw_n_obs f; sv_n_thetas : fw_n_thetas g = fw_n_thetas f; sv_n_rep : fw_n_rep g = fw_n_rep f;
  sv_thetas : fw_thetas g = fw_thetas f; sv_ses : fw_ses g = fw_ses f; sv_psi : fw_scaled_psi g = fw_scaled_psi f;
  sv_cluster : fw_cluster g = fw_cluster f; sv_sens : fw_sens g = fw_sens f; sv_names : fw_names g = fw_names f }.

(** All entries of an array are nan. *)
Definition all_nan (b : buf) : Prop := forall idx, b_at b idx = None.

(** The object's own estimates are the framework's. *)
Definition object_matches (w : world P) (f : framework) : Prop :=
  (b_shape (m_coef (w_obj w)) = [length (c_dcols C)] /\ b_shape (m_se (w_obj w)) = [length (c_dcols C)]) /\
  (forall t, (t < length (c_dcols C))%nat ->
     b_at (m_coef (w_obj w)) [t] = Some (at_ (fw_thetas f) [t]) /\ b_at (m_se (w_obj w)) [t] = Some (at_ (fw_ses f) [t])) /\
  forall t r, (t < length (c_dcols C))%nat -> (r < fw_n_rep f)%nat ->
     b_at (hget (w_heap w) (m_all_coef (w_obj w))) [t; r] = Some (at_ (fw_all_thetas f) [t; r]) /\
     b_at (hget (w_heap w) (m_all_se (w_obj w))) [t; r] = Some (at_ (fw_all_ses f) [t; r]).

(** Loss of a prediction: root mean squared error over the observations where
    both values are available, or the logistic loss of the clipped probability
    for classifiers; unavailable without any such observation. *)
Definition available (n : nat) (pred target : nat -> option R) : list (R * R) :=
  flat_map (fun i => match pred i, target i with Some p, Some y => [(p, y)] | _, _ => [] end) (seq 0 n).
Definition is_loss (n : nat) (classifier : bool) (pred target : nat -> option R) (v : option R) : Prop :=
  match available n pred target with
  | [] => v = None
  | l => v = Some (if classifier then - Rmean (map (fun p => snd p * ln (Rmax (1 / 10 ^ 15) (Rmin (1 - 1 / 10 ^ 15) (fst p)))
                                       + (1 - snd p) * ln (1 - Rmax (1 / 10 ^ 15) (Rmin (1 - 1 / 10 ^ 15) (fst p)))) l)
                   else sqrt (Rmean (map (fun p => (snd p - fst p) ^ 2) l)))
  end.
Definition target_of (no : nuis_out) (l : string) : nat -> option R :=
  match no_targets no l with Some v => v | None => fun _ => None end.
(** Losses reported by the object are those of the results [out]. *)
Definition reports_losses (w : world P) (out : nat -> nat -> nuis_out) : Prop :=
  exists d, m_loss (w_obj w) = Some d /\ forall l r t, In l (c_learners C) -> (r < m_n_rep (w_obj w))%nat -> (t < length (c_dcols C))%nat ->
    is_loss (c_n C) (c_classifier C l) (no_preds (out r t) l) (target_of (out r t) l) (b_at (d l) [r; t]).
(** Stored predictions and targets are those of the results [out]. *)
Definition stores_predictions (w : world P) (out : nat -> nat -> nuis_out) : Prop :=
  exists pr tg, m_preds (w_obj w) = Some pr /\ m_targets (w_obj w) = Some tg /\
    forall l r t i, In l (c_learners C) -> (r < m_n_rep (w_obj w))%nat -> (t < length (c_dcols C))%nat ->
      b_at (pr l) [i; r; t] = no_preds (out r t) l i /\ b_at (tg l) [i; r; t] = target_of (out r t) l i.
End Spec.

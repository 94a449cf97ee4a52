(** Specifications for hyperparameter tuning. *)
From Verif Require Export M_Tune S_Lifecycle.
Local Open Scope R_scope.

Section Spec.
Context {P T : Type}.
Variable C : ctx P.
Variable tn : nat -> option nat -> list fold -> result (tune_out P T).

(** [res] is the result of tuning treatment t on the folds of repetition r of
    the current split. *)
Definition tuning_of (w : world P) (t r : nat) (res : tune_out P T) : Prop :=
  exists sm fs, m_smpls (w_obj w) = Some sm /\ nth_error sm r = Some fs /\ tn t (Some r) fs = Ok res.
(** [res] is the result of tuning treatment t once on the full sample. *)
Definition full_tuning_of (t : nat) (res : tune_out P T) : Prop := tn t None [(seq 0 (c_n C), seq 0 (c_n C))] = Ok res.

(** Only nuisance parameters may differ. *)
Definition only_params (w w' : world P) : Prop :=
  w_heap w' = w_heap w /\ w_fws w' = w_fws w /\ w_obj w' = with_params (m_params (w_obj w')) (w_obj w).
End Spec.

(** Two data sets agree on the rows of a training set. *)
Definition agree_on {X} (rows : list nat) (x x' : nat -> X) (y y' d d' : nat -> R) : Prop :=
  forall i, In i rows -> x i = x' i /\ y i = y' i /\ d i = d' i.
(** The parameters found for fold k are the same for every nuisance function. *)
Definition same_fold_params {P T} (k : nat) (a b : tune_out P T) : Prop :=
  map fst (to_params a) = map fst (to_params b) /\
  forall l u v, dict_get l (to_params a) = Some u -> dict_get l (to_params b) = Some v -> nth_error u k = nth_error v k.
(** One value per fold for every nuisance function. *)
Definition per_fold {P T} (K : nat) (a : tune_out P T) : Prop := forall l u, dict_get l (to_params a) = Some u -> length u = K.

(** The documented arguments of a tuning call for a model with learners
    [names]: a parameter grid for each learner, scoring methods for learners
    only, at least two folds and two randomly drawn settings, one of the two
    search modes, integers or None for the number of jobs, logical flags. *)
Definition documented_call (names : list string) (a : tune_args) : Prop :=
  (exists l, ta_grids a = KDict l /\ incl names l) /\
  (ta_scoring a = KNone \/ exists l, ta_scoring a = KDict l /\ incl l names) /\
  (exists k, ta_n_folds a = PInt k /\ (2 <= k)%Z) /\ (exists k, ta_n_iter a = PInt k /\ (2 <= k)%Z) /\
  (ta_mode a = PStr "grid_search" \/ ta_mode a = PStr "randomized_search") /\
  (ta_n_jobs a = PNone \/ (exists k, ta_n_jobs a = PInt k) \/ exists b, ta_n_jobs a = PBool b) /\
  (exists b, ta_on_folds a = PBool b) /\ (exists b, ta_set a = PBool b) /\ (exists b, ta_return a = PBool b).

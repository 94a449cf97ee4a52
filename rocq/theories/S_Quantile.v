(** Specifications for the quantile models. *)
From Verif Require Export M_Quantile S_Scores S_CrossFit.
Local Open Scope R_scope.

(** Average of the potential-quantile score and of the preliminary weighted score
    at a candidate value, for raw propensity predictions [m]. *)
Definition pq_moment (n : nat) (treated norm : bool) (thr q : R) (y d g m : vec) (theta : R) : R :=
  meanf n (pq_score q (arm treated d) g (pq_adjust n treated norm thr d m) y theta).
Definition ipw_moment (n : nat) (treated norm : bool) (thr q : R) (y d m : vec) (theta : R) : R :=
  meanf n (ipw_score treated q theta d y (pq_adjust n treated norm thr d m)).
(** Inverse propensity weights of the chosen arm (zero outside the arm). *)
Definition arm_weight (n : nat) (treated norm : bool) (thr : R) (d m : vec) : vec :=
  fun i => arm treated d i / pq_adjust n treated norm thr d m i.
(** Weighted share of the rows satisfying a condition. *)
Definition wshare (n : nat) (w : vec) (p : nat -> bool) : R := meanf n (fun i => w i * b2r (p i)).
(** [t] is a q-quantile of [y] under the weights [w]. *)
Definition weighted_quantile (n : nat) (w y : vec) (q t : R) : Prop :=
  wshare n w (fun i => rltb (y i) t) <= q <= wshare n w (fun i => rleb (y i) t).
Definition in_arm (treated : bool) (d : vec) (i : nat) : Prop := d i = level treated.
(** A value below (not below) all outcomes of the arm. *)
Definition below (n : nat) (t : bool) (d y : vec) (c : R) := forall i, (i < n)%nat -> in_arm t d i -> c < y i.
Definition above (n : nat) (t : bool) (d y : vec) (c : R) := forall i, (i < n)%nat -> in_arm t d i -> y i <= c.
(** Weighted average of the CVaR target at a candidate quantile. *)
Definition tail_mean (n : nat) (w y : vec) (q theta : R) : R := meanf n (fun i => w i * cvar_target q theta y i).

(** scikit-learn's splitters: both halves come from the rows given, without
    overlap; the inner folds test every position once. *)
Definition splitters_ok (o : q_oracles) : Prop :=
  (forall l lab, Permutation (fst (qo_tts o l lab) ++ snd (qo_tts o l lab)) l) /\
  (forall lab, partition_of (length lab) (qo_skf o lab)).
(** A minimiser of |score| that is no worse than the ends of its bracket. *)
Definition solver_ok (o : q_oracles) : Prop :=
  forall score b, fst b <= snd b ->
    fst b <= qo_solve o score b <= snd b /\
    Rabs (score (qo_solve o score b)) <= Rabs (score (fst b)) /\ Rabs (score (qo_solve o score b)) <= Rabs (score (snd b)).
(** Two data sets agree on the train rows of a fold and in the features of its test rows. *)
Definition agree_on {X} (f : fold) (x x' : nat -> X) (y y' d d' : vec) : Prop :=
  (forall i, In i (fst f) -> x i = x' i /\ y i = y' i /\ d i = d' i) /\ (forall i, In i (snd f) -> x i = x' i).

(** Specifications for best linear predictors, group effects and policy trees. *)
From Verif Require Export M_Blp S_Scores S_Framework.
Local Open Scope R_scope.

(** The interval reported in a row has probability [lv] under the reference
    distribution when the estimate is centred and scaled by its standard error. *)
Definition has_level (cdf : R -> R) (r : row3) (se lv : R) : Prop :=
  let '(lo, eff, up) := r in cdf ((up - eff) / se) - cdf ((lo - eff) / se) = lv.
Definition effect (r : row3) : R := snd (fst r).
Definition lower (r : row3) : R := fst (fst r).
Definition upper (r : row3) : R := snd r.
(** The critical value a joint band of level [lv] needs: the quantile over the
    draws of the largest absolute statistic over the basis rows. *)
Definition joint_critical (n_boot n_rows : nat) (stat : nat -> nat -> R) (lv : R) : R :=
  quantile (map (fun b => maxf n_rows (fun e => Rabs (stat b e))) (seq 0 n_boot)) lv.
(** Share of draws whose statistics all lie within [c]. *)
Definition share_within (n_boot n_rows : nat) (stat : nat -> nat -> R) (c : R) : R :=
  rshare (fun b => forallb (fun e => rleb (Rabs (stat b e)) c) (seq 0 n_rows)) (seq 0 n_boot).

(** What is assumed of the regression routine: least-squares coefficients
    (normal equations) and the HC0 sandwich covariance. *)
Definition resid (p : nat) (B : nat -> nat -> R) (y : nat -> R) (g : regression) (i : nat) : R := y i - sumf p (fun k => B i k * rg_params g k).
Definition gram (n : nat) (B : nat -> nat -> R) (j k : nat) : R := sumf n (fun i => B i j * B i k).
Definition least_squares (n p : nat) (B : nat -> nat -> R) (y : nat -> R) (g : regression) : Prop :=
  forall j, (j < p)%nat -> sumf n (fun i => B i j * resid p B y g i) = 0.
Definition sandwich (n p : nat) (B : nat -> nat -> R) (y : nat -> R) (g : regression) : Prop :=
  forall j k, (j < p)%nat -> (k < p)%nat ->
    sumf p (fun a => sumf p (fun b => gram n B j a * rg_omega g a b * gram n B b k)) =
    sumf n (fun i => B i j * (resid p B y g i) ^ 2 * B i k).
Definition hc0 (n p : nat) (B : nat -> nat -> R) (y : nat -> R) (g : regression) : Prop := least_squares n p B y g /\ sandwich n p B y g.

(** Group indicators: 0/1, no row in two groups, every group non-empty;
    exhaustive if every row is in a group. *)
Definition exclusive_groups (n p : nat) (G : nat -> nat -> R) : Prop :=
  (forall i j, (i < n)%nat -> (j < p)%nat -> G i j = 0 \/ G i j = 1) /\
  (forall i j k, (i < n)%nat -> (j < p)%nat -> (k < p)%nat -> G i j = 1 -> G i k = 1 -> j = k) /\
  (forall j, (j < p)%nat -> exists i, (i < n)%nat /\ G i j = 1).
Definition exhaustive (n p : nat) (G : nat -> nat -> R) : Prop := forall i, (i < n)%nat -> exists j, (j < p)%nat /\ G i j = 1.
Definition group_size (n : nat) (G : nat -> R) : R := sumf n G.

(** A 0/1 policy, its value and its weighted classification error. *)
Definition policy (n : nat) (pi : nat -> R) : Prop := forall i, (i < n)%nat -> pi i = 0 \/ pi i = 1.
Definition policy_value (n : nat) (s pi : nat -> R) : R := sumf n (fun i => pi i * s i).
Definition weighted_error (n : nat) (label weight pi : nat -> R) : R := sumf n (fun i => if reqb (pi i) (label i) then 0 else weight i).

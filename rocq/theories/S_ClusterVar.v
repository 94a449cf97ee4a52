(** The multiway cluster-robust variance formula. *)
From Verif Require Export S_Estimation.
Local Open Scope R_scope.

(** Score total over the observations selected. *)
Definition total (n : nat) (sel : nat -> Prop) (dec : forall i, {sel i} + {~ sel i}) (psi : nat -> R) : R :=
  Rsum (map (fun i => if dec i then psi i else 0) (seq 0 n)).
(** Score total of cluster z of dimension cv among the observations whose
    other cluster is in I2. *)
Definition total1 (n : nat) (cv : nat -> Z) (psi : nat -> R) (z : Z) : R := total n (fun i => cv i = z) (fun i => Z.eq_dec (cv i) z) psi.
Definition and_dec (A B : Prop) (a : {A} + {~ A}) (b : {B} + {~ B}) : {A /\ B} + {~ (A /\ B)}.
Proof. destruct a as [a|a]; [destruct b as [b|b]|]; [left; auto|right; tauto|right; tauto]. Defined.
Definition total2 (n : nat) (cv cw : nat -> Z) (I2 : list Z) (psi : nat -> R) (z : Z) : R :=
  total n (fun i => cv i = z /\ In (cw i) I2) (fun i => and_dec _ _ (Z.eq_dec (cv i) z) (in_dec Z.eq_dec (cw i) I2)) psi.

(** Contribution of a test cell to the middle of the sandwich: squared cluster
    totals, averaged over the clusters of the cell; in two dimensions the rows
    and the columns of the cell, scaled by the smaller dimension. *)
Definition cell_term (n : nat) (cvs : list (nat -> Z)) (psi : nat -> R) (g : cfold) : R :=
  match cvs, snd g with
  | [cv], [I1] => Rsum (map (fun z => (total1 n cv psi z) ^ 2) I1) / INR (length I1)
  | [cv; cw], [I1; I2] =>
      INR (Nat.min (length I1) (length I2)) / (INR (length I1) * INR (length I2)) ^ 2 *
      (Rsum (map (fun z => (total2 n cv cw I2 psi z) ^ 2) I1) + Rsum (map (fun z => (total2 n cw cv I1 psi z) ^ 2) I2))
  | _, _ => 0
  end.
(** Number of clusters of the smallest dimension. *)
Definition distinct (n : nat) (cv : nat -> Z) (k : nat) : Prop :=
  exists l, NoDup l /\ length l = k /\ forall z, In z l <-> exists i, (i < n)%nat /\ cv i = z.
Definition smallest_dimension (n : nat) (cvs : list (nat -> Z)) (k : nat) : Prop :=
  (exists cv, In cv cvs /\ distinct n cv k) /\ forall cv k', In cv cvs -> distinct n cv k' -> (k <= k')%nat.

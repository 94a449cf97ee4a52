(** Specification of the sensitivity elements as plug-in estimates of the
    residual variance and of the debiased second moment of the representer. *)
From Verif Require Export S_Scores.
Local Open Scope R_scope.

(** Prediction for the observed arm. *)
Definition observed_fit (d g0 g1 : vec) (i : nat) : R := if reqb (d i) 1 then g1 i else g0 i.
Definition observed_fit4 (d t g00 g01 g10 g11 : vec) (i : nat) : R :=
  if reqb (d i) 1 then (if reqb (t i) 1 then g11 i else g10 i) else (if reqb (t i) 1 then g01 i else g00 i).
(** Squared residuals: [sigma2] is their mean, its influence component their
    deviation from it. *)
Definition sigma2_of (n : nat) (s : sens_elems) (fit y : vec) : Prop :=
  sl_sigma2 s = meanf n (fun i => (y i - fit i) ^ 2) /\ forall i, (i < n)%nat -> sl_psi_sigma2 s i = (y i - fit i) ^ 2 - sl_sigma2 s.
(** A representer as a function of the treatment value [a] put into row i, and a
    linear functional [M] of such functions. *)
Definition debiased_nu2 (n : nat) (s : sens_elems) (d : vec) (M : (R -> vec) -> vec) (al : R -> vec) : Prop :=
  let el := fun i => 2 * M al i - (al (d i) i) ^ 2 in
  sl_nu2 s = meanf n el /\ forall i, (i < n)%nat -> sl_psi_nu2 s i = el i - sl_nu2 s.
Definition debiased_nu2_2 (n : nat) (s : sens_elems) (d t : vec) (M : (R -> R -> vec) -> vec) (al : R -> R -> vec) : Prop :=
  let el := fun i => 2 * M al i - (al (d i) (t i) i) ^ 2 in
  sl_nu2 s = meanf n el /\ forall i, (i < n)%nat -> sl_psi_nu2 s i = el i - sl_nu2 s.
(** Functionals: weighted effect of switching the treatment on; weighted level;
    weighted double difference. *)
Definition effect (w : vec) (al : R -> vec) : vec := fun i => w i * (al 1 i - al 0 i).
Definition level1 (w : vec) (al : R -> vec) : vec := fun i => w i * al 1 i.
Definition double_diff (w : vec) (al : R -> R -> vec) : vec := fun i => w i * ((al 1 1 i - al 1 0 i) - (al 0 1 i - al 0 0 i)).
(** Representers. *)
Definition ipw (w m : vec) (a : R) : vec := fun i => w i * (a / m i - (1 - a) / (1 - m i)).
Definition ipw_level (w m : vec) (a : R) : vec := fun i => w i * (a / m i).
(** Difference in differences: treated share [q1]; control weights [odds / q0]. *)
Definition did_alpha (q1 q0 : R) (odds : vec) (a : R) : vec := fun i => a / q1 - (1 - a) * odds i / q0.
(** Repeated cross-sections: cell shares. *)
Definition cs_alpha (q11 q10 q01 q00 : R) (odds : vec) (a b : R) : vec := fun i =>
  a * b / q11 - a * (1 - b) / q10 - (1 - a) * b * odds i / q01 + (1 - a) * (1 - b) * odds i / q00.
(** Influence component of the maximal bias: derivative of
    sqrt (sigma2 * nu2) along the two components. *)
Definition bias_derivative (s2 n2 ps2 pn2 v : R) : Prop := derivable_pt_lim (fun t => sqrt ((s2 + t * ps2) * (n2 + t * pn2))) 0 v.
(** Share of treated rows among the training rows of the fold testing row i. *)
Definition training_share (f : fold) (d : vec) : R := Rmean (map d (fst f)).
(** Average weight of the control rows: in-sample odds weights, treated share, or
    control share. *)
Definition did_q0 (n : nat) (obs norm : bool) (d odds : vec) : R :=
  if obs then (if norm then meanf n (fun i => (1 - d i) * odds i) else meanf n d) else 1 - meanf n d.

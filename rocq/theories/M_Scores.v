(** Score elements and sensitivity elements of the estimators.
    Vectors of length n are functions on row numbers; indicators are 0/1 reals.
    Nuisance predictions are arguments.  Division by zero is totalised (numpy:
    inf or nan with a warning); theorems exclude it. *)
From Verif Require Export M_Estimation.
Local Open Scope R_scope.

Definition vec := nat -> R.
(** [{"psi_a": ..., "psi_b": ...}]. *)
Record elems := { el_a : vec; el_b : vec }.
(** Dictionary of [_sensitivity_element_est]. *)
Record sens_elems := { sl_sigma2 : R; sl_nu2 : R; sl_psi_sigma2 : vec; sl_psi_nu2 : vec; sl_rr : vec }.

(** ** Propensity utilities *)
(** [_trimm] (utils/_propensity_score.py:14-20); [truncate]: trimming_rule == "truncate". *)
Definition trimm (truncate : bool) (thr : R) (m : vec) : vec :=
  fun i => if truncate then rclip thr (1 - thr) (m i) else m i.
(** [_check_trimming] (utils/_checks.py:131-148); [rule]: trimming_rule is "truncate". *)
Definition check_trimming (rule : bool) (thr : pyval) : result unit :=
  require rule ValueError
  (match thr with
   | PFloat t => require (negb (rleb t 0 || rleb (1 / 2) t)) ValueError (Ok tt)
   | _ => Err TypeError
   end).
(** [_normalize_ipw] (utils/_propensity_score.py:23-32). *)
Definition normalize_ipw (n : nat) (m d : vec) : vec :=
  let mean_treat1 := meanf n (fun i => d i / m i) in
  let mean_treat0 := meanf n (fun i => (1 - d i) / (1 - m i)) in
  fun i => d i * (m i * mean_treat1) + (1 - d i) * (1 - (1 - m i) * mean_treat0).
(** [_propensity_score_adjustment] (utils/_propensity_score.py:4-11). *)
Definition ps_adjust (n : nat) (m d : vec) (norm : bool) : vec := if norm then normalize_ipw n m d else m.

(** Mean-centred sensitivity elements from the two score elements (e.g.
    irm/irm.py:380-390). *)
Definition centred (n : nat) (s2 nu : vec) (rr : vec) : sens_elems :=
  {| sl_sigma2 := meanf n s2; sl_nu2 := meanf n nu;
     sl_psi_sigma2 := fun i => s2 i - meanf n s2; sl_psi_nu2 := fun i => nu i - meanf n nu; sl_rr := rr |}.

(** [_compute_sensitivity_bias] (utils/_sensitivity.py:4-7). *)
Definition sens_bias (s : sens_elems) : R * vec :=
  let mb := sqrt (sl_sigma2 s * sl_nu2 s) in
  (mb, fun i => (sl_sigma2 s * sl_psi_nu2 s i + sl_nu2 s * sl_psi_sigma2 s i) / (2 * mb)).

(** ** Partially linear regression *)
(** [DoubleMLPLR._score_elements] (plm/plr.py:234-251), string scores;
    [iv]: score == "IV-type". *)
Definition plr_score (iv : bool) (y d l m g : vec) : elems :=
  let v := fun i => d i - m i in
  if iv then {| el_a := fun i => - (v i * d i); el_b := fun i => v i * (y i - g i) |}
  else {| el_a := fun i => - (v i * v i); el_b := fun i => v i * (y i - l i) |}.
(** [DoubleMLPLR._sensitivity_element_est] (plm/plr.py:253-284). *)
Definition plr_sens (n : nat) (iv : bool) (y d l m g : vec) (theta : R) : sens_elems :=
  let s2 := fun i => if iv then (y i - g i - theta * d i) ^ 2 else (y i - l i - theta * (d i - m i)) ^ 2 in
  let v := fun i => d i - m i in
  let nu2 := 1 / meanf n (fun i => (v i) ^ 2) in
  {| sl_sigma2 := meanf n s2; sl_nu2 := nu2; sl_psi_sigma2 := fun i => s2 i - meanf n s2;
     sl_psi_nu2 := fun i => nu2 - (v i) ^ 2 * nu2 ^ 2; sl_rr := fun i => v i * nu2 |}.
(** Initial estimate before ml_g is fitted (plm/plr.py:207-210); no nan entries. *)
Definition plr_theta_initial (n : nat) (y d l m : vec) : R :=
  - meanf n (fun i => (d i - m i) * (y i - l i)) / meanf n (fun i => - ((d i - m i) * (d i - m i))).

(** [DoubleMLPLIV._score_elements] with one instrument (plm/pliv.py:380-405). *)
Definition pliv_score (iv : bool) (y z d l m r g : vec) : elems :=
  let u := fun i => y i - l i in let w := fun i => d i - r i in let v := fun i => z i - m i in
  if iv then {| el_a := fun i => - (v i * d i); el_b := fun i => v i * (y i - g i) |}
  else {| el_a := fun i => - (w i * v i); el_b := fun i => v i * u i |}.

(** ** Interactive regression *)
(** Weights attribute: [weights] and, if given as dictionary, the column of
    [weights_bar] of the current repetition (irm/irm.py:211-227). *)
Record wgt := { wg : vec; wg_bar : option vec }.
(** [weights=None] (irm/irm.py:212-213). *)
Definition unit_weights : wgt := {| wg := fun _ => 1; wg_bar := None |}.
(** [DoubleMLIRM._get_weights] (irm/irm.py:220-238); [atte]: score == "ATTE".
    The IRM has score "ATE" or "ATTE" here; callables are not modelled. *)
Definition irm_weights (n : nat) (atte : bool) (w : wgt) (d m : vec) : vec * vec :=
  if atte then
    let subgroup := fun i => wg w i * d i in
    let p := meanf n subgroup in
    (fun i => subgroup i / p, fun i => m i * wg w i / p)
  else (wg w, match wg_bar w with None => wg w | Some b => b end).
(** [DoubleMLIRM._score_elements] (irm/irm.py:343-362). *)
Definition irm_score (n : nat) (atte norm : bool) (w : wgt) (y d g0 g1 m : vec) : elems :=
  let ma := ps_adjust n m d norm in
  let ws := irm_weights n atte w d ma in
  {| el_a := fun i => -1 * (fst ws i / meanf n (fst ws));
     el_b := fun i => fst ws i * (g1 i - g0 i) +
                      snd ws i * (d i * (y i - g1 i) / ma i - (1 - d i) * (y i - g0 i) / (1 - ma i)) |}.
(** [DoubleMLIRM._sensitivity_element_est] (irm/irm.py:364-398). *)
Definition irm_sens (n : nat) (atte norm : bool) (w : wgt) (y d g0 g1 m : vec) : sens_elems :=
  let ma := ps_adjust n m d norm in
  let ws := irm_weights n atte w d ma in
  let rr := fun i => snd ws i * (d i / ma i - (1 - d i) / (1 - ma i)) in
  let m_alpha := fun i => fst ws i * (snd ws i * (1 / ma i + 1 / (1 - ma i))) in
  centred n (fun i => (y i - d i * g1 i - (1 - d i) * g0 i) ^ 2) (fun i => 2 * m_alpha i - (rr i) ^ 2) rr.

(** [DoubleMLAPO._get_weights], [_score_elements], [_sensitivity_element_est]
    (irm/apo.py:201-209, 313-323, 325-358); [tr] is the indicator of the level. *)
Definition apo_weights (w : wgt) : vec * vec := (wg w, match wg_bar w with None => wg w | Some b => b end).
Definition apo_score (n : nat) (norm : bool) (w : wgt) (y tr g1 m : vec) : elems :=
  let ma := ps_adjust n m tr norm in
  let ws := apo_weights w in
  {| el_a := fun i => -1 * (fst ws i / meanf n (fst ws));
     el_b := fun i => fst ws i * g1 i + snd ws i * (tr i * (y i - g1 i) / ma i) |}.
Definition apo_sens (n : nat) (norm : bool) (w : wgt) (y tr g0 g1 m : vec) : sens_elems :=
  let ma := ps_adjust n m tr norm in
  let ws := apo_weights w in
  let rr := fun i => snd ws i * (tr i / ma i) in
  let m_alpha := fun i => fst ws i * (snd ws i * (1 / ma i)) in
  centred n (fun i => (y i - tr i * g1 i - (1 - tr i) * g0 i) ^ 2) (fun i => 2 * m_alpha i - (rr i) ^ 2) rr.

(** [DoubleMLIIVM._score_elements] (irm/iivm.py:404-436), score "LATE".  The
    normalisation uses the treatment d although the propensity is that of z (411-412). *)
Definition iivm_adjust (n : nat) (norm : bool) (d m : vec) : vec := if norm then normalize_ipw n m d else m.
Definition iivm_score (n : nat) (norm : bool) (y z d g0 g1 m r0 r1 : vec) : elems :=
  let ma := iivm_adjust n norm d m in
  {| el_a := fun i => -1 * (r1 i - r0 i + z i * (d i - r1 i) / ma i - (1 - z i) * (d i - r0 i) / (1 - ma i));
     el_b := fun i => g1 i - g0 i + z i * (y i - g1 i) / ma i - (1 - z i) * (y i - g0 i) / (1 - ma i) |}.

(** [DoubleMLSSM._score_elements] (irm/ssm.py:406-424); [d] 0/1, [s] selection. *)
Definition ssm_weight_treat (n : nat) (norm : bool) (d s pi m : vec) : R :=
  if norm then sumf n d / sumf n (fun i => d i * s i / (pi i * m i)) else 1.
Definition ssm_weight_control (n : nat) (norm : bool) (d s pi m : vec) : R :=
  if norm then sumf n (fun i => 1 - d i) / sumf n (fun i => (1 - d i) * s i / (pi i * (1 - m i))) else 1.
Definition ssm_score (n : nat) (norm : bool) (y d s g1 g0 pi m : vec) : elems :=
  let wt := ssm_weight_treat n norm d s pi m in
  let wc := ssm_weight_control n norm d s pi m in
  {| el_a := fun _ => -1;
     el_b := fun i => (wt * (d i * s i * (y i - g1 i) / (m i * pi i)) + g1 i)
                      - (wc * ((1 - d i) * s i * (y i - g0 i) / ((1 - m i) * pi i)) + g0 i) |}.

(** ** Difference in differences *)
(** Fold-wise shares: [p_hat[test] = mean(d[train])] (did/did.py:276-279;
    did/did_cs.py:221-230): for row i the last fold testing i. *)
Fixpoint fold_share (smpls : list fold) (d : vec) (i : nat) (dflt : R) : R :=
  match smpls with
  | [] => dflt
  | f :: r => fold_share r d i (if existsb (Nat.eqb i) (snd f) then Rmean (map d (fst f)) else dflt)
  end.
(** [DoubleMLDID._score_elements] (did/did.py:287-321); [obs]: score ==
    "observational"; [norm]: in_sample_normalization. *)
Definition did_weights (n : nat) (obs norm : bool) (d m p : vec) : vec * vec * vec * vec :=
  (* weight_psi_a, weight_g0, weight_g1, weight_resid_d0 *)
  let dm := meanf n d in
  if obs then
    let pw := fun i => (1 - d i) * (m i / (1 - m i)) in
    if norm then (fun i => d i / dm, fun _ => 0, fun _ => 0, fun i => d i / dm - pw i / meanf n pw)
    else (fun i => d i / p i, fun _ => 0, fun _ => 0, fun i => (d i - m i) / (p i * (1 - m i)))
  else
    if norm then (fun _ => 1, fun i => d i / dm - 1, fun i => 1 - d i / dm,
                  fun i => d i / dm - (1 - d i) / meanf n (fun j => 1 - d j))
    else (fun _ => 1, fun i => d i / p i - 1, fun i => 1 - d i / p i, fun i => (d i - p i) / (p i * (1 - p i))).
Definition did_score (n : nat) (obs norm : bool) (y d g0 g1 m p : vec) : elems :=
  let '(wa, w0, w1, wr) := did_weights n obs norm d m p in
  {| el_a := fun i => -1 * wa i; el_b := fun i => (w0 i * g0 i + w1 i * g1 i) + wr i * (y i - g0 i) |}.
(** [DoubleMLDID._sensitivity_element_est] (did/did.py:323-368). *)
Definition did_sens (n : nat) (obs norm : bool) (y d g0 g1 m : vec) : sens_elems :=
  let p := meanf n d in
  let pw := fun i => m i / (1 - m i) in
  let w0 := fun i => (1 - d i) * pw i in
  let ar := if obs then
      if norm then (fun i => d i / p * (1 / p + pw i / meanf n w0), fun i => d i / p - w0 i / meanf n w0)
      else (fun i => d i / p ^ 2 * (1 + pw i), fun i => d i / p - (1 - d i) / p * pw i)
    else (fun _ => 1 / p + 1 / (1 - p), fun i => d i / p - (1 - d i) / (1 - p)) in
  centred n (fun i => (y i - (d i * g1 i + (1 - d i) * g0 i)) ^ 2) (fun i => 2 * fst ar i - (snd ar i) ^ 2) (snd ar).

(** [DoubleMLDIDCS._score_elements] (did/did_cs.py:356-442).  Residual weights in
    the order (d1,t1), (d1,t0), (d0,t1), (d0,t0). *)
Definition cs_weight_a (n : nat) (obs norm : bool) (d p : vec) : vec :=
  if obs then (if norm then fun i => d i / meanf n d else fun i => d i / p i) else fun _ => 1.
Definition cs_resid_weights (n : nat) (obs norm : bool) (d t m p lam : vec) : vec * vec * vec * vec :=
  let d1t1 := fun i => d i * t i in let d1t0 := fun i => d i * (1 - t i) in
  let d0t1 := fun i => (1 - d i) * t i in let d0t0 := fun i => (1 - d i) * (1 - t i) in
  let pw := fun i => m i / (1 - m i) in
  if obs then
    if norm then
      let u1 := fun i => d0t1 i * pw i in let u0 := fun i => d0t0 i * pw i in
      (fun i => d1t1 i / meanf n d1t1, fun i => -1 * (d1t0 i / meanf n d1t0),
       fun i => -1 * (u1 i / meanf n u1), fun i => u0 i / meanf n u0)
    else
      (fun i => d1t1 i / (p i * lam i), fun i => -1 * (d1t0 i / (p i * (1 - lam i))),
       fun i => -1 * (d0t1 i / (p i * lam i) * pw i), fun i => d0t0 i / (p i * (1 - lam i)) * pw i)
  else
    if norm then
      (fun i => d1t1 i / meanf n d1t1, fun i => -1 * (d1t0 i / meanf n d1t0),
       fun i => -1 * (d0t1 i / meanf n d0t1), fun i => d0t0 i / meanf n d0t0)
    else
      (fun i => d1t1 i / (p i * lam i), fun i => -1 * (d1t0 i / (p i * (1 - lam i))),
       fun i => -1 * (d0t1 i / ((1 - p i) * lam i)), fun i => d0t0 i / ((1 - p i) * (1 - lam i))).
Definition cs_score (n : nat) (obs norm : bool) (y d t g00 g01 g10 g11 m p lam : vec) : elems :=
  let wa := cs_weight_a n obs norm d p in
  let '(r11, r10, r01, r00) := cs_resid_weights n obs norm d t m p lam in
  {| el_a := fun i => -1 * wa i;
     el_b := fun i => (wa i * g11 i + -1 * wa i * g10 i + wa i * g00 i + -1 * wa i * g01 i)
       + (r11 i * (y i - g11 i) + r10 i * (y i - g10 i) + r00 i * (y i - g00 i) + r01 i * (y i - g01 i)) |}.
(** [DoubleMLDIDCS._sensitivity_element_est] (did/did_cs.py:444-542). *)
Definition cs_sens (n : nat) (obs norm : bool) (y d t g00 g01 g10 g11 m : vec) : sens_elems :=
  let d1t1 := fun i => d i * t i in let d1t0 := fun i => d i * (1 - t i) in
  let d0t1 := fun i => (1 - d i) * t i in let d0t0 := fun i => (1 - d i) * (1 - t i) in
  let p := meanf n d in let lam := meanf n t in
  let pw := fun i => m i / (1 - m i) in
  let w1 := fun i => d0t1 i * pw i in let w0 := fun i => d0t0 i * pw i in
  let ar := if obs then
      if norm then
        (fun i => d i / p * (1 / meanf n d1t1 + 1 / meanf n d1t0 + pw i / meanf n w1 + pw i / meanf n w0),
         fun i => d1t1 i / meanf n d1t1 - d1t0 i / meanf n d1t0 - w1 i / meanf n w1 + w0 i / meanf n w0)
      else
        (fun i => d i / p ^ 2 * ((1 / lam + 1 / (1 - lam)) * (1 + pw i)),
         fun i => (t i / (p * lam) + (1 - t i) / (p * (1 - lam))) * (d i + (1 - d i) * pw i))
    else
      if norm then
        (fun _ => 1 / meanf n d1t1 + 1 / meanf n d1t0 + 1 / meanf n d0t1 + 1 / meanf n d0t0,
         fun i => d1t1 i / meanf n d1t1 - d1t0 i / meanf n d1t0 - d0t1 i / meanf n d0t1 + d0t0 i / meanf n d0t0)
      else
        (fun _ => 1 / (p * lam) + 1 / (p * (1 - lam)) + 1 / ((1 - p) * lam) + 1 / ((1 - p) * (1 - lam)),
         fun i => d1t1 i / (p * lam) - d1t0 i / (p * (1 - lam)) - d0t1 i / ((1 - p) * lam) + d0t0 i / ((1 - p) * (1 - lam))) in
  centred n (fun i => (y i - (d0t0 i * g00 i + d0t1 i * g01 i + d1t0 i * g10 i + d1t1 i * g11 i)) ^ 2)
    (fun i => 2 * fst ar i - (snd ar i) ^ 2) (snd ar).

(** ** Admissible weights *)
(** The [weights] argument: None, array, dictionary (entries under the two
    expected keys; [extra]: further keys), anything else. *)
Inductive warg := WNone | WArr (a : nd) | WDict (w bar : entry nd) (extra : bool) | WOther.
Inductive wscore := ScATE | ScATTE | ScCallable.
Definition arr_all (p : R -> bool) (a : nd) : bool := forallb (fun i => p (at_ a i)) (indices (shape a)).
Definition arr_sum (a : nd) : R := Rsum (map (at_ a) (indices (shape a))).
Definition need_shape (e : entry nd) (s : list nat) : result nd :=
  match e with
  | Val a => require (shape_eqb (shape a) s) ValueError (Ok a)
  | _ => Err AttributeError (* no attribute shape *)
  end.
(** [_check_weights] (utils/_checks.py:235-282).  APO and APOS call it with
    score="ATE" (irm/apo.py:141, irm/apos.py:86). *)
Definition check_weights (w : warg) (sc : wscore) (n n_rep : nat) : result unit :=
  (match w with
   | WNone => Ok tt
   | WOther => Err TypeError
   | WArr a =>
       let! _ := require (shape_eqb (shape a) [n]) ValueError (
                 require (arr_all (fun x => rleb 0 x) a) ValueError (
                 require (negb (reqb (arr_sum a) 0)) ValueError (Ok tt))) in
       match sc with
       | ScATTE => require (arr_all (fun x => reqb (x ^ 2 - x) 0) a) ValueError (Ok tt)
       | _ => Ok tt
       end
   | WDict ew eb extra =>
       match sc with
       | ScATTE => Err TypeError
       | ScCallable => Err AssertionError
       | ScATE =>
           require (present ew && present eb && negb extra) ValueError (
           let! a := need_shape ew [n] in
           let! b := need_shape eb [n; n_rep] in
           require (arr_all (fun x => rleb 0 x) a && arr_all (fun x => rleb 0 x) b) ValueError (
           require (negb (reqb (arr_sum a) 0) && negb (reqb (arr_sum b) 0)) ValueError (Ok tt)))
       end
   end)%res.
(** [_initialize_weights] and the lookups of [_get_weights] in repetition r
    (irm/irm.py:211-238); only used for accepted arguments. *)
Definition weights_of (w : warg) (r : nat) : wgt :=
  match w with
  | WArr a => {| wg := fun i => at_ a [i]; wg_bar := None |}
  | WDict (Val a) (Val b) _ => {| wg := fun i => at_ a [i]; wg_bar := Some (fun i => at_ b [i; r]) |}
  | _ => unit_weights
  end.

(** Model of doubleml/utils/gain_statistics.py. *)
From Verif Require Export BaseR.
Local Open Scope R_scope.
Local Open Scope res_scope.

(** Floats with numpy's treatment of division by zero ([np.divide] warns and
    yields inf or nan).  Finite values are exact reals and there is no negative
    zero: a zero denominator counts as +0. *)
Inductive ext := Fin (x : R) | PosInf | NegInf | NaN.
Definition eneg (a : ext) : ext := match a with Fin x => Fin (- x) | PosInf => NegInf | NegInf => PosInf | NaN => NaN end.
Definition eadd (a b : ext) : ext :=
  match a, b with
  | NaN, _ | _, NaN | PosInf, NegInf | NegInf, PosInf => NaN
  | PosInf, _ | _, PosInf => PosInf
  | NegInf, _ | _, NegInf => NegInf
  | Fin x, Fin y => Fin (x + y)
  end.
Definition esub (a b : ext) : ext := eadd a (eneg b).
Definition ediv (a b : ext) : ext :=
  match a, b with
  | NaN, _ | _, NaN => NaN
  | Fin x, Fin y => if reqb y 0 then (if rltb 0 x then PosInf else if rltb x 0 then NegInf else NaN) else Fin (x / y)
  | Fin _, _ => Fin 0
  | PosInf, Fin y => if rltb y 0 then NegInf else PosInf
  | NegInf, Fin y => if rltb y 0 then PosInf else NegInf
  | _, _ => NaN
  end.
(** [np.clip(a, 0, 1)]; nan stays nan. *)
Definition eclip01 (a : ext) : ext :=
  match a with Fin x => Fin (rclip 0 1 x) | PosInf => Fin 1 | NegInf => Fin 0 | NaN => NaN end.
Definition efin (a : ext) : option R := match a with Fin x => Some x | _ => None end.
(** [np.median] of a row: nan as soon as one entry is nan.  Only used on rows
    whose entries are finite or nan. *)
Fixpoint fins (l : list ext) : option (list R) :=
  match l with
  | [] => Some []
  | a :: r => match efin a, fins r with Some x, Some xs => Some (x :: xs) | _, _ => None end
  end.
Definition emedian (l : list ext) : ext := match fins l with Some xs => Fin (median xs) | None => NaN end.

(** What [gain_statistics] reads from a model: [framework.sensitivity_elements]
    (None: not a dict) with the entries sigma2 and nu2, and [all_coef]
    (None: not an array). *)
Record gmodel := { gm_sens : option (entry nd * entry nd); gm_coef : option nd }.

(** gain_statistics.py:28-45. *)
Definition gain_keys (m : gmodel) : result (entry nd * entry nd) :=
  match gm_sens m with
  | None => Err TypeError
  | Some (s, v) => require (present s && present v)%bool ValueError (Ok (s, v))
  end.
Definition gain_array (e : entry nd) : result nd := match e with Val a => Ok a | _ => Err TypeError end.
Definition gain_dims (a : nd) : bool := (Nat.eqb (length (shape a)) 3 && Nat.eqb (dim 0 a) 1)%bool.
(** gain_statistics.py:47-75, for one key. *)
Definition gain_pair (l s : entry nd) : result (nd * nd) :=
  let! a := gain_array l in
  let! b := gain_array s in
  require (gain_dims a) ValueError (require (gain_dims b) ValueError
    (require (shape_eqb (shape a) (shape b)) ValueError (Ok (a, b)))).
(** gain_statistics.py:77-90. *)
Definition gain_coef (m : gmodel) : result nd := match gm_coef m with None => Err TypeError | Some a => Ok a end.

(** gain_statistics.py:99-106, one treatment and repetition; [vy] = [np.var(y)]. *)
Definition r2_y (vy s2 : R) : ext := esub (Fin 1) (ediv (Fin s2) (Fin vy)).
Definition cf_y_rep (vy s2l s2s : R) : ext :=
  eclip01 (ediv (esub (r2_y vy s2l) (r2_y vy s2s)) (esub (Fin 1) (r2_y vy s2l))).
Definition cf_d_rep (nl ns : R) : ext :=
  let r := ediv (Fin ns) (Fin nl) in eclip01 (ediv (esub (Fin 1) r) r).
(** gain_statistics.py:115-124. *)
Definition gain_denom (s2l s2s nl ns : R) : R :=
  let vg := s2s - s2l in let vr := nl - ns in
  if (rltb 0 vg && rltb 0 vr)%bool then sqrt (vg * vr) else 0.
Definition rho_rep (s2l s2s nl ns delta : R) : R :=
  let den := gain_denom s2l s2s nl ns in
  rclip 0 1 (if reqb den 0 then 1 else Rabs delta / den) * rsign delta.

Record gains := { ga_cf_y : nat -> ext; ga_cf_d : nat -> ext; ga_rho : nat -> R; ga_delta : nat -> R }.

(** gain_statistics.py:92-130.  [n_coef, n_rep] are returned with the vectors.
    With a second sigma2/nu2 shape than the first only the checks above apply
    (sigma2 and nu2 of different shapes pass them; numpy would broadcast or
    fail): modelled for the shape of sigma2. *)
Definition gain_statistics (vy : R) (long short : gmodel) : result (nat * nat * gains) :=
  let! kl := gain_keys long in
  let! ks := gain_keys short in
  let! sig := gain_pair (fst kl) (fst ks) in
  let! nu := gain_pair (snd kl) (snd ks) in
  let! cl := gain_coef long in
  let! cs := gain_coef short in
  let k := dim 1 (fst sig) in let r := dim 2 (fst sig) in
  require (shape_eqb (shape cl) [k; r]) ValueError
  (require (shape_eqb (shape cs) [k; r]) ValueError
  (let s2l := fun t j => at_ (fst sig) [0%nat; t; j] in let s2s := fun t j => at_ (snd sig) [0%nat; t; j] in
   let nl := fun t j => at_ (fst nu) [0%nat; t; j] in let ns := fun t j => at_ (snd nu) [0%nat; t; j] in
   let delta := fun t j => at_ cs [t; j] - at_ cl [t; j] in
   Ok (k, r, {| ga_cf_y := fun t => emedian (map (fun j => cf_y_rep vy (s2l t j) (s2s t j)) (seq 0 r));
                ga_cf_d := fun t => emedian (map (fun j => cf_d_rep (nl t j) (ns t j)) (seq 0 r));
                ga_rho := fun t => medianf r (fun j => rho_rep (s2l t j) (s2s t j) (nl t j) (ns t j) (delta t j));
                ga_delta := fun t => medianf r (fun j => delta t j) |}))).

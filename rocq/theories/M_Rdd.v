(** Model of doubleml/rdd/rdd.py (class RDFlex). *)
From Verif Require Export M_Estimation.
Local Open Scope R_scope.
Local Open Scope res_scope.

(** ** Kernels (rdd.py:562-566) *)
Inductive kern := Uniform | Triangular | Epanechnikov.
Definition kernel (k : kern) (x h : R) : R :=
  match k with
  | Uniform => if rleb (Rabs x) h then 1 else 0
  | Triangular => Rmax 0 ((h - Rabs x) / h)
  | Epanechnikov => if rltb (Rabs x) h then 3 / 4 * (1 - (x / h) ^ 2) else 0
  end.
(** [_check_and_set_kernel] (rdd.py:555-584): the name is case-folded ([fold]);
    [PyCall k] is a callable. *)
Inductive kern_arg := KStr (s : string) | KCall (f : R -> R -> R) | KOther.
Definition set_kernel (casefold : string -> string) (a : kern_arg) : result (R -> R -> R) :=
  match a with
  | KStr s =>
      let s' := casefold s in
      if String.eqb s' "uniform" then Ok (kernel Uniform)
      else if String.eqb s' "triangular" then Ok (kernel Triangular)
      else if String.eqb s' "epanechnikov" then Ok (kernel Epanechnikov)
      else Err ValueError
  | KCall f => Ok f
  | KOther => Err TypeError
  end.
(** The check of [h_fs] (rdd.py:140-146) when it is given; [default] is the
    bandwidth selected by rdrobust. *)
Definition set_h_fs (default : R) (h : pyval) : result R :=
  match h with PNone => Ok default | PFloat x => Ok x | _ => Err TypeError end.

(** ** First stage (rdd.py:405-442) *)
(** Type of the outcome or treatment column; arrays made by [np.full_like] have
    that type, so writing a prediction into them casts it. *)
Inductive dtype := DFloat | DInt | DBool.
(** C cast of a float to an integer: towards zero. *)
Definition trunc (x : R) : Z := if rleb 0 x then Int_part x else (- Int_part (- x))%Z.
Definition cast (t : dtype) (x : R) : R :=
  match t with DFloat => x | DInt => IZR (trunc x) | DBool => if reqb x 0 then 0 else 1 end.
(** [(mu_left + mu_right) / 2]; the sum of boolean arrays is their union. *)
Definition average (t : dtype) (a b : R) : R :=
  match t with DBool => (if (reqb a 0 && reqb b 0)%bool then 0 else 1) / 2 | _ => (a + b) / 2 end.

Inductive fs_spec := CutoffOnly | CutoffAndScore | Interacted.
Definition set_fs_spec (a : pyval) : result fs_spec :=
  match a with
  | PStr s => if String.eqb s "cutoff" then Ok CutoffOnly else if String.eqb s "cutoff and score" then Ok CutoffAndScore
              else if String.eqb s "interacted cutoff and score" then Ok Interacted else Err ValueError
  | _ => Err TypeError
  end.
(** Leading feature columns for a row with (centred) score [s]: in the sample,
    and in the two prediction matrices. *)
Definition intended (s : R) : R := if rleb 0 s then 1 else 0.
Definition z_sample (sp : fs_spec) (s : R) : list R :=
  match sp with CutoffOnly => [intended s] | CutoffAndScore => [intended s; s] | Interacted => [intended s; intended s * s; s] end.
Definition z_left (sp : fs_spec) : list R := match sp with CutoffOnly => [0] | CutoffAndScore => [0; 0] | Interacted => [0; 0; 0] end.
Definition z_right (sp : fs_spec) : list R := match sp with CutoffOnly => [1] | CutoffAndScore => [1; 0] | Interacted => [1; 0; 0] end.

(** A learner: training triples (features, outcome, weight) to a prediction rule
    ([predict], or column 1 of [predict_proba]).  Exceptions of learners are not
    modelled. *)
Definition rd_learner := list (list R * R * R) -> list R -> R.
(** The loop over the folds with the two arrays; [mu] before the loop holds the
    cast of nan, which every row's fold overwrites. *)
Definition write_rows (rows : list nat) (v : nat -> R) (mu : nat -> R) : nat -> R := fun i => if existsb (Nat.eqb i) rows then v i else mu i.
Definition fit_nuisance (t : dtype) (learn : rd_learner) (sp : fs_spec) (score : nat -> R) (x : nat -> list R) (outcome weights : nat -> R)
    (junk : nat -> R) (smpls : list fold) : nat -> R :=
  let step := fun (mu : (nat -> R) * (nat -> R)) (f : fold) =>
    let est := learn (map (fun i => (z_sample sp (score i) ++ x i, outcome i, weights i)) (fst f)) in
    (write_rows (snd f) (fun i => cast t (est (z_left sp ++ x i))) (fst mu), write_rows (snd f) (fun i => cast t (est (z_right sp ++ x i))) (snd mu)) in
  let mu := fold_left step smpls (junk, junk) in
  fun i => average t (fst mu i) (snd mu i).

(** ** The object *)
(** Result of rdrobust: three coefficients and standard errors, their intervals,
    bandwidths h and b of both sides, effective sample sizes of both sides. *)
Record rd_res := { rr_coef : nat -> R; rr_se : nat -> R; rr_ci : nat -> nat -> R; rr_h : R * R; rr_b : R * R; rr_n : nat * nat }.
(** Everything fixed at construction.  [ro_robust y d hb]: rdrobust on adjusted
    outcome, adjusted treatment (fuzzy designs) and bandwidths (None: selected by
    rdrobust). *)
Record rd_obj := {
  ro_n : nat; ro_y : nat -> R; ro_d : nat -> R; ro_ty : dtype; ro_td : dtype; ro_score : nat -> R; ro_x : nat -> list R;
  ro_fuzzy : bool; ro_spec : fs_spec; ro_kernel : R -> R -> R; ro_h_fs : R; ro_smpls : list (list fold);
  ro_ml_g : rd_learner; ro_ml_m : rd_learner; ro_junk : nat -> R;
  ro_robust : (nat -> R) -> option (nat -> R) -> option (R * R) -> rd_res }.
Definition ro_n_rep (o : rd_obj) : nat := length (ro_smpls o).
(** Adjusted columns for given weights (rdd.py:345-357). *)
Definition adjusted_y (o : rd_obj) (w : nat -> R) (smpls : list fold) (i : nat) : R :=
  ro_y o i - fit_nuisance (ro_ty o) (ro_ml_g o) (ro_spec o) (ro_score o) (ro_x o) (ro_y o) w (ro_junk o) smpls i.
Definition adjusted_d (o : rd_obj) (w : nat -> R) (smpls : list fold) (i : nat) : R :=
  ro_d o i - fit_nuisance (ro_td o) (ro_ml_m o) (ro_spec o) (ro_score o) (ro_x o) (ro_d o) w (ro_junk o) smpls i.
Definition fit_rdd (o : rd_obj) (w : nat -> R) (smpls : list fold) (hb : option (R * R)) : rd_res :=
  ro_robust o (adjusted_y o w smpls) (if ro_fuzzy o then Some (adjusted_d o w smpls) else None) hb.
Definition kernel_weights (o : rd_obj) (h : R) (i : nat) : R := ro_kernel o (ro_score o i) h.
(** The loop over the iterations (rdd.py:345-368): [k] iterations after the
    current one; the bandwidths of the last update (None with one iteration). *)
Fixpoint iterate (o : rd_obj) (k : nat) (w : nat -> R) (hb : option (R * R)) (smpls : list fold) : rd_res * option (R * R) :=
  match k with
  | 0%nat => (fit_rdd o w smpls hb, hb)
  | S k' =>
      let r := fit_rdd o w smpls None in
      let h := Rmax (fst (rr_h r)) (snd (rr_h r)) in
      let b := Rmax (fst (rr_b r)) (snd (rr_b r)) in
      iterate o k' (kernel_weights o h) (Some (h, b)) smpls
  end.
(** Stored results: per repetition the final result and bandwidth (nan for one
    iteration), and the aggregates. *)
Record rd_fit := { rf_res : list rd_res; rf_h : list (option R); rf_coef : nat -> R; rf_se : nat -> R; rf_ci : nat -> nat -> R }.
Definition res_at (l : list rd_res) (r : nat) : rd_res :=
  nth r l {| rr_coef := fun _ => 0; rr_se := fun _ => 0; rr_ci := fun _ _ => 0; rr_h := (0, 0); rr_b := (0, 0); rr_n := (0%nat, 0%nat) |}.
(** [aggregate_over_splits] (rdd.py:617-630). *)
Definition aggregate_rd (l : list rd_res) (hs : list (option R)) : rd_fit :=
  let n := length l in
  let coef := fun k => medianf n (fun r => rr_coef (res_at l r) k) in
  {| rf_res := l; rf_h := hs; rf_coef := coef;
     rf_se := fun k => sqrt (medianf n (fun r => (rr_se (res_at l r) k) ^ 2 + (rr_coef (res_at l r) k - coef k) ^ 2 / INR (fst (rr_n (res_at l r)) + snd (rr_n (res_at l r)))));
     rf_ci := fun k side => medianf n (fun r => rr_ci (res_at l r) k side) |}.
(** [fit] (rdd.py:316-366); the object's only mutable part is the stored fit. *)
Definition rd_run (o : rd_obj) (n_iter : nat) : rd_fit :=
  let rs := map (iterate o (n_iter - 1) (kernel_weights o (ro_h_fs o)) None) (ro_smpls o) in
  aggregate_rd (map fst rs) (map (fun p => option_map fst (snd p)) rs).
Definition rd_fit_call (o : rd_obj) (st : option rd_fit) (n_iter : pyval) : option rd_fit * result unit :=
  if is_int n_iter then
    if Z.ltb (int_val n_iter) 1 then (st, Err ValueError) else (Some (rd_run o (Z.to_nat (int_val n_iter))), Ok tt)
  else (st, Err TypeError).
(** [confint] (rdd.py:374-403): rows conventional, bias-corrected, robust.
    Before [fit] the arrays are nan and the table is nan: [Ok None]. *)
Definition rd_confint (ppf : R -> R) (st : option rd_fit) (level : pyval) : result (option (nat -> R * R)) :=
  match level with
  | PFloat lv =>
      require (negb (rleb lv 0 || rleb 1 lv)) ValueError
      (match st with
       | None => Ok None
       | Some f =>
           let c := ppf (1 - (1 - lv) / 2) in
           let n := length (rf_res f) in
           Ok (Some (fun k => (medianf n (fun r => rr_coef (res_at (rf_res f) r) k - rr_se (res_at (rf_res f) r) k * c),
                               medianf n (fun r => rr_coef (res_at (rf_res f) r) k + rr_se (res_at (rf_res f) r) k * c))))
       end)
  | _ => Err TypeError
  end.

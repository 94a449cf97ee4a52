(** The summary tables: [generate_summary] (doubleml/utils/_descriptive.py:5-12)
    and the [summary] properties (double_ml_framework.py:226-233,
    double_ml.py:434-449, irm/apos.py:322-333, irm/qte.py:354-365). *)
From Verif Require Export M_Model M_Multi.
Local Open Scope R_scope.
Local Open Scope string_scope.
Local Open Scope res_scope.

(** One row: coef, std err, t, P>|t| and the joined interval (None: nan). *)
Record srow := { sr_coef : R; sr_se : R; sr_t : R; sr_p : R; sr_ci : option (R * R) }.

(** Row labels of a framework's tables: the treatment names, positions if there
    are none. *)
Inductive label := Named (s : string) | Position (k : nat).
Definition label_eqb (a b : label) : bool :=
  match a, b with Named s, Named t => String.eqb s t | Position i, Position j => Nat.eqb i j | _, _ => false end.
Definition fw_labels (f : framework) : list label :=
  match fw_names f with Some l => map Named l | None => map Position (seq 0 (fw_n_thetas f)) end.

Section Join.
Context {K : Type}.
Variable eqb : K -> K -> bool.

(** [DataFrame.join] (how='left', on the index): every row of the left table once
    for every row of the right table with the same label, nan without one.  The
    order of the rows among repeated labels depends on the pandas version. *)
Definition left_join (l : list (K * (R * R * R * R))) (r : list (K * (R * R))) : list (K * srow) :=
  flat_map (fun p => let '(k, (c, s, t, v)) := p in
    match filter (fun q => eqb k (fst q)) r with
    | [] => [(k, {| sr_coef := c; sr_se := s; sr_t := t; sr_p := v; sr_ci := None |})]
    | m => map (fun q => (k, {| sr_coef := c; sr_se := s; sr_t := t; sr_p := v; sr_ci := Some (snd q) |})) m
    end) l.
(** Rows of the confidence interval table (double_ml_framework.py:672). *)
Definition ci_rows (n : nat) (ci : nd) : list (R * R) := map (fun t => (at_ ci [t; 0%nat], at_ ci [t; 1%nat])) (seq 0 n).
(** [generate_summary]: labels, four columns, joined with the intervals.  A
    wrong number of labels is refused by pandas with ValueError. *)
Definition generate_summary (idx : list K) (rows : list (R * R * R * R)) (ci : list (R * R)) : result (list (K * srow)) :=
  require (Nat.eqb (length idx) (length rows)) ValueError (Ok (left_join (combine idx rows) (combine idx ci))).
(** The statistics of a framework as rows. *)
Definition fw_rows (cdf : R -> R) (f : framework) : list (R * R * R * R) :=
  map (fun t => (at_ (fw_thetas f) [t], at_ (fw_ses f) [t], at_ (fw_t_stats f) [t], at_ (fw_pvals cdf f) [t])) (seq 0 (fw_n_thetas f)).
(** [summary] of a table with labels [idx] over framework [f]; the interval
    table carries the same labels. *)
Definition labelled_summary (ppf cdf : R -> R) (f : framework) (idx : list K) : result (list (K * srow)) :=
  let! ci := confint ppf f (PBool false) (PFloat (95 / 100)) in
  generate_summary idx (fw_rows cdf f) (ci_rows (fw_n_thetas f) ci).
(** [summary] of APOS and QTE: labels are the levels or quantiles; before the fit
    the table is empty. *)
Definition wrapper_summary {S} (ppf cdf : R -> R) (w : wrapper (K := S)) (idx : list K) : result (list (K * srow)) :=
  match wr_fw w with None => Ok [] | Some f => labelled_summary ppf cdf f idx end.
End Join.

(** [DoubleMLFramework.summary]. *)
Definition fw_summary (ppf cdf : R -> R) (f : framework) : result (list (label * srow)) := labelled_summary label_eqb ppf cdf f (fw_labels f).

(** [DoubleML.summary] with its labels, the treatment columns; statistics and
    intervals as in [obj_summary]. *)
Definition obj_table {P} (C : ctx P) (ppf cdf : R -> R) : act P (list (string * srow)) :=
  s <- obj_summary C ppf cdf ;;
  ret match s with
      | None => []
      | Some (rows, ci) => left_join String.eqb (combine (c_dcols C) rows) (combine (c_dcols C) (ci_rows (length (c_dcols C)) ci))
      end.

(** Specification of the summary tables. *)
From Verif Require Export M_Summary S_Lifecycle S_Multi.
From Coq Require Import Ascii.
Local Open Scope R_scope.

(** The row of parameter [t]: estimate, standard error, their ratio, the median
    p-value of the repetitions and the ends of the 95 % interval. *)
Definition param_row (ppf cdf : R -> R) (f : framework) (t : nat) : srow :=
  let z := ppf (975 / 1000) in
  {| sr_coef := at_ (fw_thetas f) [t]; sr_se := at_ (fw_ses f) [t]; sr_t := at_ (fw_thetas f) [t] / at_ (fw_ses f) [t];
     sr_p := medianf (fw_n_rep f) (fun r => 2 * (1 - cdf (Rabs (at_ (fw_all_thetas f) [t; r] / at_ (fw_all_ses f) [t; r]))));
     sr_ci := Some (medianf (fw_n_rep f) (fun r => at_ (fw_all_thetas f) [t; r] - at_ (fw_all_ses f) [t; r] * z),
                    medianf (fw_n_rep f) (fun r => at_ (fw_all_thetas f) [t; r] + at_ (fw_all_ses f) [t; r] * z)) |}.
(** One row per parameter, in order, under its own label. *)
Definition one_row_each {K} (ppf cdf : R -> R) (f : framework) (idx : list K) (tab : list (K * srow)) : Prop :=
  length tab = fw_n_thetas f /\ forall t k, nth_error idx t = Some k -> nth_error tab t = Some (k, param_row ppf cdf f t).
(** A model's own table: the p-value is that of the aggregated estimate. *)
Definition model_row (ppf cdf : R -> R) (f : framework) (t : nat) : srow :=
  let r := param_row ppf cdf f t in
  {| sr_coef := sr_coef r; sr_se := sr_se r; sr_t := sr_t r; sr_p := 2 * cdf (- Rabs (sr_t r)); sr_ci := sr_ci r |}.
(** Printed levels contain no blank and are different. *)
Definition readable (show : Z -> string) : Prop :=
  (forall a b, show a = show b -> a = b) /\ forall a, ~ In " "%char (list_ascii_of_string (show a)).
(** A row with the statistics of parameter [i] and the interval of parameter [j]. *)
Definition mixed_row (ppf cdf : R -> R) (f : framework) (i j : nat) : srow :=
  let r := param_row ppf cdf f i in
  {| sr_coef := sr_coef r; sr_se := sr_se r; sr_t := sr_t r; sr_p := sr_p r; sr_ci := sr_ci (param_row ppf cdf f j) |}.

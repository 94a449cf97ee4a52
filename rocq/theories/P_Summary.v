(** C85: the summary tables. *)
From Verif Require Import L_SummaryWitness.
Local Open Scope R_scope.
Local Open Scope string_scope.

(** A framework with distinct names or without names. *)
Theorem C85_framework : forall ppf cdf f,
  fw_wf f -> (forall l, fw_names f = Some l -> NoDup l) -> exists tab, fw_summary ppf cdf f = Ok tab /\ one_row_each ppf cdf f (fw_labels f) tab.
Proof. exact @framework_summary. Qed.
Print Assumptions C85_framework.

(** Contrasts of distinct levels: the names are distinct. *)
Theorem C85_contrasts : forall n nr show levels models fw arg ppf cdf,
  readable show ->
  NoDup levels -> (2 <= length levels)%nat -> length models = length levels -> level_models n nr (map fst models) ->
  (forall m, In m models -> nonneg_sens nr (snd m)) -> NoDup (refs_list arg) -> refs_list arg <> [] -> (forall r, In r (refs_list arg) -> In r levels) ->
  exists h pairs tab, causal_contrast show levels (Some fw) (map Some models) arg = Ok h /\ one_per_pair levels (refs_list arg) pairs /\ reports_differences show levels models pairs h /\
    fw_summary ppf cdf h = Ok tab /\ length tab = length pairs /\
    forall t a b, nth_error pairs t = Some (a, b) -> nth_error tab t = Some (Named (show a ++ " vs " ++ show b), param_row ppf cdf h t).
Proof. exact @contrast_table. Qed.
Print Assumptions C85_contrasts.

Example C85_case_contrasts : forall ppf cdf, exists h tab, causal_contrast tally_z [0; 1; 2]%Z (Some (fst (lvl 1 1 2))) (map Some (lvls three_levels)) (RefList [2; 0]%Z) = Ok h /\ fw_wf h /\ fw_n_thetas h = 3%nat /\
  fw_summary ppf cdf h = Ok tab /\ map fst tab = map Named [" vs 11"; "1 vs 11"; "1 vs "].
Proof. exact three_contrasts. Qed.
Example C85_case_readable : readable tally_z.
Proof. exact tally_readable. Qed.

(** A model after a successful fit; printing changes nothing. *)
Theorem C85_model : forall (P : Type) (C : ctx P) ppf cdf w nj store ext sm w',
  c_dcols C <> [] -> NoDup (c_dcols C) -> reachable C w -> fit C nj store ext sm w = (w', Ok tt) ->
  exists f tab w2, current_fw w' f /\ obj_table C ppf cdf w' = (w2, Ok tab) /\ length tab = length (c_dcols C) /\ current_fw w2 f /\ w_obj w2 = w_obj w' /\ w_heap w2 = w_heap w' /\
    forall t d, nth_error (c_dcols C) t = Some d -> nth_error tab t = Some (d, model_row ppf cdf f t).
Proof. exact @model_summary. Qed.
Print Assumptions C85_model.

Example C85_case_model : table_case.
Proof. exact two_rows. Qed.

(** Empty without estimates. *)
Theorem C85_no_estimates : forall (P : Type) (C : ctx P) ppf cdf w,
  all_nan (m_coef (w_obj w)) -> obj_table C ppf cdf w = (w, Ok []).
Proof. exact @table_empty. Qed.
Print Assumptions C85_no_estimates.

(** In particular after a new split. *)
Theorem C85_new_split : forall (P : Type) (C : ctx P) ppf cdf s asc w w',
  set_sample_splitting C s asc w = (w', Ok tt) -> obj_table C ppf cdf w' = (w', Ok []).
Proof. exact @table_after_split. Qed.
Print Assumptions C85_new_split.

(** Potential outcomes and quantile effects with distinct levels or quantiles. *)
Theorem C85_wrappers : forall (K S : Type) (eqb : K -> K -> bool) ppf cdf (w : wrapper (K := S)) (idx : list K),
  (forall a b, eqb a b = true <-> a = b) -> NoDup idx ->
  (wr_fw w = None -> wrapper_summary eqb ppf cdf w idx = Ok []) /\
  forall f, wr_fw w = Some f -> length idx = fw_n_thetas f -> exists tab, wrapper_summary eqb ppf cdf w idx = Ok tab /\ one_row_each ppf cdf f idx tab.
Proof. exact @wrapper_table. Qed.
Print Assumptions C85_wrappers.

(** Repeated levels, quantiles or names: more rows than parameters, and rows with the interval of another parameter. *)
Theorem C85_repeated_levels_refuted : forall (K : Type) (eqb : K -> K -> bool), (forall a b, eqb a b = true <-> a = b) -> forall ppf cdf f (idx : list K),
  length idx = fw_n_thetas f -> exists tab, labelled_summary eqb ppf cdf f idx = Ok tab /\
  forall i j k, (i < j)%nat -> nth_error idx i = Some k -> nth_error idx j = Some k ->
    (fw_n_thetas f < length tab)%nat /\ In (k, mixed_row ppf cdf f i j) tab /\ In (k, mixed_row ppf cdf f j i) tab.
Proof. exact @repeated_labels. Qed.
Print Assumptions C85_repeated_levels_refuted.

(** The name setter accepts repeated names. *)
Theorem C85_repeated_names_refuted : forall ppf cdf f names i j k,
  fw_wf f -> length names = fw_n_thetas f -> (i < j)%nat -> nth_error names i = Some k -> nth_error names j = Some k ->
  exists f' tab, set_names f names = Ok f' /\ fw_summary ppf cdf f' = Ok tab /\ (fw_n_thetas f < length tab)%nat /\ In (Named k, mixed_row ppf cdf f i j) tab /\ In (Named k, mixed_row ppf cdf f j i) tab.
Proof. exact @repeated_names. Qed.
Print Assumptions C85_repeated_names_refuted.

Example C85_case_repeated : forall ppf cdf, exists f f' tab, fw_wf f /\ set_names f ["b"; "a"; "b"] = Ok f' /\ fw_summary ppf cdf f' = Ok tab /\ length tab = 5%nat.
Proof. exact five_rows. Qed.

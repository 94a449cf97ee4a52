(** Specifications for the construction of regression discontinuity objects. *)
From Verif Require M_Data S_Data.
From Verif Require Export M_RddInit S_Rdd S_Init.
Local Open Scope R_scope.
Local Open Scope string_scope.

(** ** Arguments *)
Definition running_variable (f : M_Data.frame) (s : M_Data.ddata) (v : vec) : Prop :=
  exists c, M_Data.r_s (M_Data.dd_roles s) = Some c /\ v = col f c.
(** The score [v] has a fractional value, the cutoff is a number [c0] between the
    smallest and the largest score, there is one 0/1 treatment [d] and no
    instrument. *)
Definition rd_data_ok (f : M_Data.frame) (s : M_Data.ddata) (cutoff : pyval) (v : vec) (c0 : R) (d : string) : Prop :=
  let n := M_Data.frows f in
  running_variable f s v /\ (exists i, (i < n)%nat /\ forall z, v i <> IZR z) /\ level_number cutoff = Some c0 /\
  (exists i, (i < n)%nat /\ v i <= c0) /\ (exists i, (i < n)%nat /\ c0 <= v i) /\ binary_treatment f s d /\ no_instruments s.
(** A learner for the outcome and, in a fuzzy design, a classifier for the
    treatment; both accept weights. *)
Definition rd_learners_ok {E} (f : M_Data.frame) (s : M_Data.ddata) (fuzzy : bool) (ml_g : rd_learner_arg E) (ml_m : option (rd_learner_arg E)) : Prop :=
  outcome_learner f s (wl_learner ml_g) /\ wl_weights ml_g = true /\
  (fuzzy = true -> exists m, ml_m = Some m /\ predicts_probabilities (wl_learner m) /\ wl_weights m = true).
Definition bandwidth_is (selected : R) (v : pyval) (h : R) : Prop := v = PNone /\ h = selected \/ v = PFloat h.
Definition specification_is (v : pyval) (sp : fs_spec) : Prop :=
  v = PStr "cutoff" /\ sp = CutoffOnly \/ v = PStr "cutoff and score" /\ sp = CutoffAndScore \/ v = PStr "interacted cutoff and score" /\ sp = Interacted.
Definition kernel_is (casefold : string -> string) (a : kern_arg) (k : R -> R -> R) : Prop :=
  a = KCall k \/ exists name, a = KStr name /\
    (casefold name = "uniform" /\ k = kernel Uniform \/ casefold name = "triangular" /\ k = kernel Triangular \/ casefold name = "epanechnikov" /\ k = kernel Epanechnikov).
(** Everything the first stage is set up with. *)
Record first_stage := { fs_score : vec; fs_h : R; fs_spec_of : fs_spec; fs_kern : R -> R -> R; fs_treatment : string }.
Definition rd_setup (bwselect : vec -> vec -> option vec -> R) (casefold : string -> string) (f : M_Data.frame) (s : M_Data.ddata)
    (fuzzy : bool) (cutoff n_folds n_rep h_fs spec : pyval) (kernel_arg : kern_arg) (a : first_stage) : Prop :=
  exists v c0, rd_data_ok f s cutoff v c0 (fs_treatment a) /\ fs_score a = (fun i => v i - c0) /\
    is_int n_folds = true /\ (2 <= int_val n_folds)%Z /\ is_int n_rep = true /\ (1 <= int_val n_rep)%Z /\
    bandwidth_is (bwselect (outcome f s) (fs_score a) (if fuzzy then Some (col f (fs_treatment a)) else None)) h_fs (fs_h a) /\
    specification_is spec (fs_spec_of a) /\ kernel_is casefold kernel_arg (fs_kern a).
(** Some treatment value has at least as many rows as there are folds. *)
Definition foldable (n : nat) (n_folds : pyval) (v : vec) : Prop := exists i, (i < n)%nat /\ (Z.to_nat (int_val n_folds) <= rows_with n v (v i))%nat.
(** Total kernel weight on one side of the cutoff. *)
Definition weight_left (n : nat) (score : vec) (w : vec) : R := sumf n (fun i => if Rlt_dec (score i) 0 then w i else 0).
Definition weight_right (n : nat) (score : vec) (w : vec) : R := sumf n (fun i => if Rlt_dec 0 (score i) then w i else 0).
Definition fs_weights (a : first_stage) : vec := fun i => fs_kern a (fs_score a i) (fs_h a).
(** Scores with positive weight. *)
Definition within (k : kern) (x h : R) : Prop := match k with Uniform => Rabs x <= h | _ => Rabs x < h end.

(** ** The object *)
(** Weighted share of treated units on one side. *)
Definition share_left (n : nat) (score w d : vec) : R := weight_left n score (fun i => d i * w i) / weight_left n score w.
Definition share_right (n : nat) (score w d : vec) : R := weight_right n score (fun i => d i * w i) / weight_right n score w.
(** The splits: [n_rep] repetitions of [n_folds] folds, partitions, evenly
    spread over the values of [v]. *)
Definition stratified_smpls (n : nat) (n_folds n_rep : pyval) (v : vec) (sm : list (list fold)) : Prop :=
  length sm = Z.to_nat (int_val n_rep) /\
  forall fs, In fs sm -> length fs = Z.to_nat (int_val n_folds) /\ proper_split n fs /\
    (forall h k i, In h fs -> In k fs -> (i < n)%nat -> (value_count v (v i) (snd h) <= value_count v (v i) (snd k) + 1)%nat) /\
    (forall h i, In h fs -> (i < n)%nat -> (2 <= rows_with n v (v i))%nat -> exists j, (j < n)%nat /\ In j (fst h) /\ v j = v i).
(** Predictions of a learner argument, by its kind. *)
Definition fitted_rule {E} (learn : E -> bool -> rd_learner) (l : rd_learner_arg E) : rd_learner := learn (ly_obj (wl_learner l)) (ly_classifier (wl_learner l)).
(** The data object without its clusters. *)
Definition drop_clusters (s : M_Data.ddata) : M_Data.ddata :=
  M_Data.mk_dd (M_Data.set_rcl (M_Data.dd_roles s) None) (M_Data.dd_other s) (M_Data.dd_force s) (M_Data.dd_bt s) (M_Data.dd_by s)
    (M_Data.c_y s) (M_Data.c_z s) (M_Data.c_t s) (M_Data.c_s s) (M_Data.c_d s) (M_Data.c_x s) None.
(** Learners whose fit does not look at the weights. *)
Definition weightless (l : rd_learner) : Prop := forall t t', map fst t = map fst t' -> l t = l t'.

(** ** Estimation *)
(** rdrobust looks at the rows of the data only. *)
Definition rows_only (n : nat) (robust : vec -> vec -> option vec -> option (R * R) -> rd_res) : Prop :=
  forall score y y' hb, (forall i, (i < n)%nat -> y i = y' i) ->
    robust score y None hb = robust score y' None hb /\
    forall d d', (forall i, (i < n)%nat -> d i = d' i) -> robust score y (Some d) hb = robust score y' (Some d') hb.
(** Every row is assigned a fold of the split that tests but does not train on
    it. *)
Definition held_out (n : nat) (smpls : list fold) (fold_of : nat -> fold) : Prop :=
  forall i, (i < n)%nat -> In (fold_of i) smpls /\ In i (snd (fold_of i)) /\ ~ In i (fst (fold_of i)).
(** A column minus the average of the two predictions at the cutoff. *)
Definition residuals (rule : rd_learner) (a : first_stage) (x : nat -> row) (v w : vec) (fold_of : nat -> fold) : vec :=
  fun i => v i - cutoff_average (trained rule (fs_spec_of a) (fs_score a) x v w (fold_of i)) (fs_spec_of a) (x i).
(** Both stages for given first-stage weights and bandwidths. *)
Definition both_stages (robust : vec -> vec -> option vec -> option (R * R) -> rd_res) (rule_g : rd_learner) (rule_m : option rd_learner) (a : first_stage) (x : nat -> row) (y d : vec)
    (fold_of : nat -> fold) (w : vec) (hb : option (R * R)) : rd_res :=
  robust (fs_score a) (residuals rule_g a x y w fold_of) (option_map (fun m => residuals m a x d w fold_of) rule_m) hb.
Definition larger (p : R * R) : R := Rmax (fst p) (snd p).

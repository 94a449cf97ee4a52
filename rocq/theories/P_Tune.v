(** C42, C70, C71: hyperparameter tuning. *)
From Verif Require Import L_TuneArgs L_TuneWitness.
Local Open Scope R_scope.

(** ** C42 *)
Theorem C42_full_sample_results : forall (P T : Type) (C : ctx P) names (tn : nat -> option nat -> list fold -> result (tune_out P T)) a w w' l,
  is_true (ta_on_folds a) = false -> tune C names tn a w = (w', Ok (RGlobal l)) ->
  length l = length (c_dcols C) /\ forall t res, nth_error l t = Some res -> full_tuning_of C tn t res.
Proof. exact @full_results. Qed.
Print Assumptions C42_full_sample_results.

(** Fold-wise: every repetition's entry is the result of the last repetition. *)
Theorem C42_fold_results_partial : forall (P T : Type) (C : ctx P) names (tn : nat -> option nat -> list fold -> result (tune_out P T)) a w w' l,
  is_true (ta_on_folds a) = true -> (0 < m_n_rep (w_obj w))%nat -> tune C names tn a w = (w', Ok (RFolds l)) ->
  length l = length (c_dcols C) /\ forall i t row, nth_error l i = Some row -> (t < length (c_dcols C))%nat ->
    exists res, nth_error row t = Some (Some res) /\ tuning_of tn w t (m_n_rep (w_obj w) - 1) res.
Proof. exact @fold_results. Qed.
Print Assumptions C42_fold_results_partial.

Theorem C42_unequal_dimensions_refuted : forall (P T : Type) (C : ctx P) names (tn : nat -> option nat -> list fold -> result (tune_out P T)) a w,
  is_true (ta_on_folds a) = true -> c_dcols C <> [] -> (0 < m_n_rep (w_obj w))%nat -> m_n_rep (w_obj w) <> length (c_dcols C) ->
  forall w' x, tune C names tn a w <> (w', Ok x).
Proof. exact @unequal_fails. Qed.
Print Assumptions C42_unequal_dimensions_refuted.

Theorem C42_mixed_repetitions_refuted : exists (C : ctx R) tn w w' l row res0 res1, reachable C w /\ tune C ["ml"%string] tn (w_args true false true) w = (w', Ok (RFolds l)) /\
  nth_error l 0 = Some row /\ nth_error row 0 = Some (Some res1) /\ tuning_of (T := nat * option nat) tn w 0 0 res0 /\ tuning_of tn w 0 1 res1 /\ res0 <> res1.
Proof. exact mixed. Qed.
Print Assumptions C42_mixed_repetitions_refuted.

Example C42_case : (exists w w1 l, reachable two_ctx w /\ tune two_ctx ["ml"%string] w_tuner (w_args false true true) w = (w1, Ok (RGlobal l)) /\ length l = 2%nat /\ NoDup (c_dcols two_ctx)) /\
  (exists w, reachable two_ctx w /\ (0 < m_n_rep (w_obj w))%nat /\ m_n_rep (w_obj w) <> length (c_dcols two_ctx)).
Proof.
  split; [exact tune_full_case|]. destruct (two_new 1 1 eq_refl (or_introl eq_refl)) as (w & _ & R & _ & E & _). exists w. rewrite E. split; [exact R|]. split; [constructor|discriminate].
Qed.

(** ** C70 *)
Theorem C70_fold_parameters : forall (P T : Type) (C : ctx P) names (tn : nat -> option nat -> list fold -> result (tune_out P T)) a w w' x,
  is_true (ta_on_folds a) = true -> is_true (ta_set a) = true -> NoDup (c_dcols C) -> tune C names tn a w = (w', Ok x) -> only_params w w' /\
  forall t d, nth_error (c_dcols C) t = Some d -> exists res0, tuning_of tn w t 0 res0 /\
    (forall l, In l (map fst (to_params res0)) -> length (m_params (w_obj w') l d) = m_n_rep (w_obj w) /\
       forall r, (r < m_n_rep (w_obj w))%nat -> exists res v, tuning_of tn w t r res /\ dict_get l (to_params res) = Some v /\
         nth_error (m_params (w_obj w') l d) r = Some (Some v) /\ length v = m_n_folds (w_obj w)) /\
    (forall l, ~ In l (map fst (to_params res0)) -> m_params (w_obj w') l d = m_params (w_obj w) l d).
Proof. exact @tuned_folds. Qed.
Print Assumptions C70_fold_parameters.

Theorem C70_full_sample_parameters : forall (P T : Type) (C : ctx P) names (tn : nat -> option nat -> list fold -> result (tune_out P T)) a w w' x,
  is_true (ta_on_folds a) = false -> is_true (ta_set a) = true -> NoDup (c_dcols C) -> tune C names tn a w = (w', Ok x) -> only_params w w' /\
  forall t d, nth_error (c_dcols C) t = Some d -> exists res, full_tuning_of C tn t res /\
    (NoDup (map fst (to_params res)) -> forall l vs, In (l, vs) (to_params res) -> exists v rest, vs = v :: rest /\
       m_params (w_obj w') l d = repeat (Some (repeat v (m_n_folds (w_obj w)))) (m_n_rep (w_obj w))) /\
    (forall l, ~ In l (map fst (to_params res)) -> m_params (w_obj w') l d = m_params (w_obj w) l d).
Proof. exact @tuned_full. Qed.
Print Assumptions C70_full_sample_parameters.

(** Without [set_as_params] nothing changes, whether the call succeeds or not. *)
Theorem C70_only_on_request : forall (P T : Type) (C : ctx P) names (tn : nat -> option nat -> list fold -> result (tune_out P T)) a w,
  is_true (ta_set a) = false -> fst (tune C names tn a w) = w.
Proof. exact @tune_sets_nothing. Qed.
Print Assumptions C70_only_on_request.

(** Estimates, splits and frameworks are never touched. *)
Theorem C70_nothing_but_parameters : forall (P T : Type) (C : ctx P) names (tn : nat -> option nat -> list fold -> result (tune_out P T)) a w,
  only_params w (fst (tune C names tn a w)).
Proof. exact @tune_keeps. Qed.
Print Assumptions C70_nothing_but_parameters.

(** The next fit calls the nuisance estimation with the parameters found for
    the same treatment, repetition and folds. *)
Theorem C70_next_fit_uses_them : forall (P T : Type) (C : ctx P) names (tn : nat -> option nat -> list fold -> result (tune_out P T)) a w w1 x nj store ext sm w2,
  reachable C w -> NoDup (c_dcols C) -> c_dcols C <> [] -> is_true (ta_on_folds a) = true -> is_true (ta_set a) = true ->
  tune C names tn a w = (w1, Ok x) -> fit C nj store ext sm w1 = (w2, Ok tt) ->
  exists out f smp, current_fw w2 f /\ reports C w1 out f /\ m_smpls (w_obj w) = Some smp /\
    forall r t d, (r < m_n_rep (w_obj w))%nat -> nth_error (c_dcols C) t = Some d -> exists pr e res0, c_nuis C r t (nth r smp []) pr e = Ok (out r t) /\ tuning_of tn w t 0 res0 /\
      forall l, In l (map fst (to_params res0)) -> exists res v, tn t (Some r) (nth r smp []) = Ok res /\ dict_get l (to_params res) = Some v /\ pr l = Some v.
Proof. exact @next_fit. Qed.
Print Assumptions C70_next_fit_uses_them.

(** A call that raises may have replaced parameters. *)
Theorem C70_failed_call_refuted : exists (C : ctx R) tn w w', reachable C w /\ tune (T := nat * option nat) C ["ml"%string] tn (w_args true true true) w = (w', Err IndexError) /\
  m_params (w_obj w') "ml"%string "d1"%string <> m_params (w_obj w) "ml"%string "d1"%string.
Proof. exact failed_sets. Qed.
Print Assumptions C70_failed_call_refuted.

Example C70_case : (exists w w1 x w2, reachable ex_ctx w /\ NoDup (c_dcols ex_ctx) /\ c_dcols ex_ctx <> [] /\ m_n_rep (w_obj w) = 1%nat /\
  tune ex_ctx ["ml"%string] w_tuner (w_args true true true) w = (w1, Ok x) /\ fit ex_ctx PNone (PBool true) ExtNone (PBool false) w1 = (w2, Ok tt)) /\
  (exists w w1 l, reachable two_ctx w /\ tune two_ctx ["ml"%string] w_tuner (w_args false true true) w = (w1, Ok (RGlobal l)) /\ length l = 2%nat /\ NoDup (c_dcols two_ctx)).
Proof. split; [exact tune_fit_case|exact tune_full_case]. Qed.

(** Undocumented arguments are refused without effect, documented ones are
    accepted: if the tuner returns, the call returns. *)
Theorem C70_arguments : forall (P T : Type) (C : ctx P) names (tn : nat -> option nat -> list fold -> result (tune_out P T)) a w,
  (documented_call names a \/ exists e, (e = TypeError \/ e = ValueError) /\ tune C names tn a w = (w, Err e)) /\
  (forall w' x, tune C names tn a w = (w', Ok x) -> documented_call names a) /\
  (documented_call names a -> is_true (ta_on_folds a) = false -> is_true (ta_set a) = false -> (forall t, (t < length (c_dcols C))%nat -> exists res, full_tuning_of C tn t res) ->
   exists x, tune C names tn a w = (w, Ok x)).
Proof. exact @tuning_call. Qed.
Print Assumptions C70_arguments.
Example C70_case_arguments : documented_call ["ml"%string] (w_args true true true) /\
  ~ documented_call ["ml"%string] {| ta_grids := KDict ["ml"%string]; ta_on_folds := PBool true; ta_scoring := KNone; ta_n_folds := PInt 1; ta_mode := PStr "grid_search"; ta_n_iter := PInt 100; ta_n_jobs := PNone; ta_set := PBool true; ta_return := PBool true |}.
Proof. exact w_documented. Qed.

(** ** C71 *)
Theorem C71_interactive : forall (X P S : Type) (search : string -> nat -> list (X * R) -> result S) (best : S -> P) n x x' y y' d d' smpls k f a b,
  irm_tuning search best n x y d smpls = Ok a -> irm_tuning search best n x' y' d' smpls = Ok b ->
  nth_error smpls k = Some f -> agree_on (fst f) x x' y y' d d' -> same_fold_params k a b /\ per_fold (length smpls) a.
Proof. exact @irm_no_leak. Qed.
Print Assumptions C71_interactive.

Theorem C71_partialling_out : forall (X P S : Type) (search : string -> nat -> list (X * R) -> result S) (best : S -> P) (spred : S -> X -> R) n cy cd x x' y y' d d' smpls k f a b,
  plr_tuning search best spred n false cy cd x y d smpls = Ok a -> plr_tuning search best spred n false cy cd x' y' d' smpls = Ok b ->
  nth_error smpls k = Some f -> agree_on (fst f) x x' y y' d d' -> same_fold_params k a b /\ per_fold (length smpls) a.
Proof. exact @plr_no_leak. Qed.
Print Assumptions C71_partialling_out.

(** Tuning followed by cross-fitting: the prediction of a row depends on its own
    features and the training rows of its fold only. *)
Theorem C71_tuned_prediction : forall (X P S : Type) (search : string -> nat -> list (X * R) -> result S) (best : S -> P) n E (L : learner E X P) f g l order order' est x x' y y' smpls smpls' s s' wt wm wt' wm' r r' i k h,
  row_wise L f g -> clone_ok L -> partition_of n smpls -> partition_of n smpls' -> schedule order (length smpls) -> schedule order' (length smpls') ->
  dml_tune search l x y (map fst smpls) = Ok s -> dml_tune search l x' y' (map fst smpls') = Ok s' ->
  cv_predict L order est n x (YVec y) smpls (FoldDicts (map best s)) false wt wm = Ok r ->
  cv_predict L order' est n x' (YVec y') smpls' (FoldDicts (map best s')) false wt' wm' = Ok r' ->
  (i < n)%nat -> tested_in smpls i k h -> tested_in smpls' i k h -> (forall j, In j (fst h) -> x j = x' j /\ y j = y' j) -> x i = x' i -> cv_preds r i = cv_preds r' i.
Proof. exact @tuned_cv. Qed.
Print Assumptions C71_tuned_prediction.

(** The IV-type score of the partially linear model: the preliminary estimate
    uses all rows. *)
Theorem C71_iv_type_refuted : exists x y y' d k f a b, nth_error w_smpls k = Some f /\ agree_on (fst f) x x y y' d d /\
  plr_tuning w_search w_best w_spred 2 true k_id k_id x y d w_smpls = Ok a /\ plr_tuning w_search w_best w_spred 2 true k_id k_id x y' d w_smpls = Ok b /\ ~ same_fold_params k a b.
Proof. exact iv_leaks. Qed.
Print Assumptions C71_iv_type_refuted.

(** Quantile models: the target is the quantile of the full sample. *)
Theorem C71_quantile_refuted : exists x y y' d k f a b, nth_error w_smpls k = Some f /\ agree_on (fst f) x x y y' d d /\
  pq_tuning w_search w_best 2 (1 / 2) 1 x y d w_smpls = Ok a /\ pq_tuning w_search w_best 2 (1 / 2) 1 x y' d w_smpls = Ok b /\ ~ same_fold_params k a b.
Proof. exact quantile_leaks. Qed.
Print Assumptions C71_quantile_refuted.

(** Tuning on the full sample (the default). *)
Theorem C71_full_sample_refuted : exists x y y' d k f a b, nth_error w_smpls k = Some f /\ agree_on (fst f) x x y y' d d /\
  plr_tuning w_search w_best w_spred 2 false k_id k_id x y d [(seq 0 2, seq 0 2)] = Ok a /\ plr_tuning w_search w_best w_spred 2 false k_id k_id x y' d [(seq 0 2, seq 0 2)] = Ok b /\
  ~ same_fold_params 0 a b.
Proof. exact full_leaks. Qed.
Print Assumptions C71_full_sample_refuted.

(** After a redraw the parameters in force for a fold were found on rows the
    fold now tests. *)
Theorem C71_redraw_refuted : exists (C : ctx R) tn w w1 x g perm w2 sm1 sm2 f1 f2 v i, reachable C w /\ tune (T := nat * option nat) C ["ml"%string] tn (w_args true true true) w = (w1, Ok x) /\
  draw_sample_splitting C g perm w1 = (w2, Ok tt) /\ m_smpls (w_obj w) = Some sm1 /\ m_smpls (w_obj w2) = Some sm2 /\
  nth_error (nth 0 sm1 []) 0 = Some f1 /\ nth_error (nth 0 sm2 []) 0 = Some f2 /\ In i (fst f1) /\ In i (snd f2) /\
  (exists res, tuning_of tn w 0 0 res /\ dict_get "ml"%string (to_params res) = Some v) /\ nth_error (m_params (w_obj w2) "ml"%string "d"%string) 0 = Some (Some v) /\
  (forall res, tuning_of tn w2 0 0 res -> dict_get "ml"%string (to_params res) <> Some v).
Proof. exact redraw_keeps. Qed.
Print Assumptions C71_redraw_refuted.

Example C71_case : exists a b c e, plr_tuning w_search w_best w_spred 2 false k_id k_id INR (row0 0) (fun _ => 1) w_smpls = Ok a /\ plr_tuning w_search w_best w_spred 2 false k_id k_id INR (row0 2) (fun _ => 1) w_smpls = Ok b /\
  irm_tuning w_search w_best 2 INR (row0 0) (fun _ => 1) w_smpls = Ok c /\ irm_tuning w_search w_best 2 INR (row0 2) (fun _ => 1) w_smpls = Ok e /\
  agree_on [1%nat] INR INR (row0 0) (row0 2) (fun _ => 1) (fun _ => 1) /\ ~ same_fold_params 1 a b.
Proof. exact leak_case. Qed.

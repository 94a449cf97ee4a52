(** C04, C05: cross-fitting. *)
From Verif Require Import L_CrossExamples.
From Coq Require Import Lia.
Local Open Scope R_scope.

(** ** C04 *)
Theorem C04_prediction_from_own_fold : forall E X P (L : learner E X P) f g, row_wise L f g -> clone_ok L ->
  forall order est n x y smpls ps wt wm res, partition_of n smpls -> schedule order (length smpls) ->
  cv_predict L order est n x y smpls ps false wt wm = Ok res ->
  forall i, (i < n)%nat -> exists k h p data m, tested_in smpls i k h /\ param_of ps k p /\ train_data x y k h data /\
    fitted L est p data m /\ cv_preds res i = Some (f m (x i)).
Proof. exact @own_fold. Qed.
Print Assumptions C04_prediction_from_own_fold.

Theorem C04_probability_from_own_fold : forall E X P (L : learner E X P) f g, row_wise L f g -> clone_ok L ->
  forall order est n x y smpls ps wt wm res, partition_of n smpls -> schedule order (length smpls) ->
  classifier_ok L g -> labels_in_train n y smpls -> train_in_range n smpls ->
  cv_predict L order est n x (YVec y) smpls ps true wt wm = Ok res ->
  exists c, codes n y c /\ forall i, (i < n)%nat -> exists k h p m v, tested_in smpls i k h /\ param_of ps k p /\
    fitted L est p (train_rows x c h) m /\ cv_preds res i = Some v /\ nth_error (g m (x i)) 1 = Some v.
Proof. exact @own_fold_proba. Qed.
Print Assumptions C04_probability_from_own_fold.

(** Two runs on data that agree on the train part of the row's fold and on the
    row's own features. *)
Theorem C04_no_leakage : forall E X P (L : learner E X P) f g, row_wise L f g -> clone_ok L ->
  forall order order' est n x x' y y' smpls ps wt wm wt' wm' r r' i k h,
  partition_of n smpls -> schedule order (length smpls) -> schedule order' (length smpls) ->
  cv_predict L order est n x (YVec y) smpls ps false wt wm = Ok r ->
  cv_predict L order' est n x' (YVec y') smpls ps false wt' wm' = Ok r' ->
  tested_in smpls i k h -> (forall j, In j (fst h) -> x j = x' j /\ y j = y' j) -> x i = x' i -> cv_preds r i = cv_preds r' i.
Proof. exact @no_leak. Qed.
Print Assumptions C04_no_leakage.

(** For probabilities the set of labels is fixed: the labels are coded on the
    full sample. *)
Theorem C04_no_leakage_probability : forall E X P (L : learner E X P) f g, row_wise L f g -> clone_ok L ->
  forall order order' est n x x' y y' smpls ps wt wm r r' i k h,
  partition_of n smpls -> schedule order (length smpls) -> schedule order' (length smpls) -> same_labels n y y' ->
  cv_predict L order est n x (YVec y) smpls ps true wt wm = Ok r ->
  cv_predict L order' est n x' (YVec y') smpls ps true wt wm = Ok r' ->
  tested_in smpls i k h -> (forall j, In j (fst h) -> x j = x' j /\ y j = y' j) -> x i = x' i -> cv_preds r i = cv_preds r' i.
Proof. exact @no_leak_proba. Qed.
Print Assumptions C04_no_leakage_probability.

(** Exported models are the ones that made the predictions. *)
Theorem C04_exported_models_made_the_predictions : forall E X P (L : learner E X P) f g, row_wise L f g ->
  forall order est n x y smpls ps proba wt r, partition_of n smpls -> schedule order (length smpls) ->
  cv_predict L order est n x y smpls ps proba wt true = Ok r ->
  exists ms, cv_models r = Some ms /\ length ms = length smpls /\
    forall i k h v, tested_in smpls i k h -> cv_preds r i = Some v ->
      exists m, nth_error ms k = Some m /\ if proba then nth_error (g m (x i)) 1 = Some v else v = f m (x i).
Proof. exact @models_exported. Qed.
Print Assumptions C04_exported_models_made_the_predictions.

(** A concrete learner, split and schedule meet the hypotheses on every path. *)
Example C04_case : row_wise m_learner m_predict m_proba /\ clone_ok m_learner /\ classifier_ok m_learner m_proba /\
  partition_of 4 ex_smpls /\ schedule [1; 0]%nat (length ex_smpls) /\ labels_in_train 4 ex_y ex_smpls /\ train_in_range 4 ex_smpls /\
  (forall wt wm, exists r, cv_predict m_learner [1; 0]%nat [] 4 ex_x (YVec ex_y) ex_smpls NoParams false wt wm = Ok r) /\
  (exists r, cv_predict m_learner [1; 0]%nat [] 4 ex_x (YVec ex_y) ex_smpls NoParams true false false = Ok r) /\
  tested_in ex_smpls 3 1 ([0; 1], [3; 2])%nat.
Proof.
  split; [exact m_row|]. split; [exact m_clone|]. split; [exact m_classifier|]. split; [exact ex_part|]. split; [exact ex_sched|]. split; [exact ex_labels|].
  split; [exact ex_range|]. split; [exact ex_predict|]. split; [exact ex_fast_proba|]. split; [reflexivity|]. split; [left; reflexivity|].
  intros [|[|[|k]]] f' H Hin; cbn in H; try discriminate; [|reflexivity]. injection H as <-. cbn in Hin. lia.
Qed.

(** ** C05 *)
Theorem C05_same_predictions_on_every_path_and_schedule : forall E X P (L : learner E X P) f g, row_wise L f g -> clone_ok L ->
  forall order order' est n x y smpls ps (proba wt wm wt' wm' : bool) r,
  (0 < n)%nat -> partition_of n smpls -> schedule order (length smpls) -> schedule order' (length smpls) ->
  (proba = true -> exists v, y = YVec v /\ classifier_ok L g /\ labels_in_train n v smpls /\ train_in_range n smpls) ->
  (wt' = true -> exists v, y = YVec v) ->
  cv_predict L order est n x y smpls ps proba wt wm = Ok r ->
  exists r', cv_predict L order' est n x y smpls ps proba wt' wm' = Ok r' /\ (forall i, (i < n)%nat -> cv_preds r' i = cv_preds r i).
Proof. exact @paths_agree. Qed.
Print Assumptions C05_same_predictions_on_every_path_and_schedule.

Theorem C05_targets_of_predict : forall E X P (L : learner E X P) f g, row_wise L f g -> clone_ok L ->
  forall order est n x y smpls ps wt wm r, partition_of n smpls -> schedule order (length smpls) ->
  cv_predict L order est n x (YVec y) smpls ps false wt wm = Ok r ->
  exists t, cv_targets r = Some t /\ forall i, (i < n)%nat -> t i = Some (y i).
Proof. exact @targets_predict. Qed.
Print Assumptions C05_targets_of_predict.

(** Without the hypothesis on the train labels the paths differ: the fast path
    fills in zero probabilities, the manual path raises. *)
Theorem C05_missing_train_label_refuted : exists E X P (L : learner E X P) f g order est n x y smpls ps,
  row_wise L f g /\ clone_ok L /\ classifier_ok L g /\ partition_of n smpls /\ schedule order (length smpls) /\
  (exists r, cv_predict L order est n x (YVec y) smpls ps true false false = Ok r) /\
  (forall r, cv_predict L order est n x (YVec y) smpls ps true false true <> Ok r).
Proof. exact missing_label_paths. Qed.
Print Assumptions C05_missing_train_label_refuted.

(** The targets returned for probabilities depend on the path. *)
Theorem C05_targets_of_probabilities_refuted : exists E X P (L : learner E X P) order est n x y smpls ps r r',
  cv_predict L order est n x (YVec y) smpls ps true false false = Ok r /\
  cv_predict L order est n x (YVec y) smpls ps true false true = Ok r' /\ (0 < n)%nat /\
  exists t t', cv_targets r = Some t /\ cv_targets r' = Some t' /\ t 0%nat = Some 1 /\ t' 0%nat = Some 0.
Proof. exact targets_paths. Qed.
Print Assumptions C05_targets_of_probabilities_refuted.

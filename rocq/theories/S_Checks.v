(** Specifications: refused predictions, irrelevant learners, and when nuisance
    estimation succeeds. *)
From Verif Require Export S_Nuis S_NuisFit.
Local Open Scope R_scope.
Local Open Scope string_scope.

(** The reported predictions are all 0 or 1: class labels, not probabilities. *)
Definition class_labels (n : nat) (out : nuis_out) (name : string) : Prop :=
  forall i, (i < n)%nat -> no_preds out name i = Some 0 \/ no_preds out name i = Some 1.
Definition labels_only (n : nat) (v : vec) : Prop := forall i, (i < n)%nat -> v i = 0 \/ v i = 1.

(** Two setups, possibly with different learners, parameters, schedules and
    prediction methods, that share the number of rows and the external
    predictions. *)
Definition same_external {E P E' P'} (su : setup E P) (su' : setup E' P') : Prop :=
  su_n su = su_n su' /\ forall name, su_ext su name = su_ext su' name.
Definition all_external {E P} (su : setup E P) (names : list string) : Prop := forall name, In name names -> exists v, su_ext su name = Some v.

Section Spec.
Context {E P : Type}.
Variable L : learner E row P.
Variables (f : E -> row -> R) (g : E -> row -> list R).
Variable su : setup E P.

(** Nuisance function [name] is external, or its learner can be fitted: it
    accepts its parameters and any training data with at least one row, there is
    one parameter set per fold if they are fold-wise, every train part has a row
    of the subgroup, and a classifier sees all of at least two labels. *)
Record trainable (name lrn : string) (y : vec) (G : nat -> Prop) (smpls : list fold) : Prop := {
  tr_fit : forall k p data, (k < length smpls)%nat -> param_of (su_params su name) k p -> data <> [] -> exists m, fitted L (su_learner su lrn) p data m;
  tr_params : forall l, su_params su name = FoldDicts l -> length l = length smpls;
  tr_rows : forall h, In h smpls -> exists j, (j < su_n su)%nat /\ G j /\ In j (fst h);
  tr_labels : labels_ok L g su lrn y G smpls;
  tr_two : su_proba su lrn = true -> exists i j, (i < su_n su)%nat /\ (j < su_n su)%nat /\ y i <> y j }.
Definition obtainable (name lrn : string) (y : vec) (G : nat -> Prop) (smpls : list fold) : Prop := su_ext su name = None -> trainable name lrn y G smpls.
(** Predictions of [name] are not class labels: the learner never predicts 0 or
    1, or the external predictions contain another number. *)
Definition never_labels (name lrn : string) : Prop :=
  match su_ext su name with
  | Some v => ~ labels_only (su_n su) v
  | None => forall e v, if su_proba su lrn then forall p, nth_error (g e v) 1 = Some p -> p <> 0 /\ p <> 1 else f e v <> 0 /\ f e v <> 1
  end.
End Spec.

(** The learner of nuisance function [name] can be trained in every repetition
    of the object's split, with the object's parameters of treatment [t]. *)
Definition ready {E P} (L : learner E row P) (g : E -> row -> list R) (mc : machinery E P) (w : world P) (n t : nat) (col name lrn : string) (y : vec) (G : nat -> Prop) : Prop :=
  forall sm r fs, m_smpls (w_obj w) = Some sm -> nth_error sm r = Some fs ->
    trainable L g (setup_of mc n r t (fun l => nth r (m_params (w_obj w) l col) None) (fun _ => None)) name lrn y G fs.
(** A learner that predicts neither 0 nor 1. *)
Definition soft {E P} (f : E -> row -> R) (g : E -> row -> list R) (mc : machinery E P) (lrn : string) : Prop :=
  forall e v, if mc_proba mc lrn then forall p, nth_error (g e v) 1 = Some p -> p <> 0 /\ p <> 1 else f e v <> 0 /\ f e v <> 1.
Definition no_jobs_or_int (v : pyval) : Prop := v = PNone \/ exists k, v = PInt k.

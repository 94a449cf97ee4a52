(** Units of measurement: two fits of the same model on data that differ in the units of outcome, treatment or instrument. *)
From Verif Require Export S_NuisFit S_Init S_Classes.
Local Open Scope R_scope.
Local Open Scope string_scope.

(** The second column is the first one in another unit. *)
Definition affine (n : nat) (a b : R) (v v' : vec) : Prop := forall i, (i < n)%nat -> v' i = a * v i + b.

Section Units.
Context {E P : Type} (L : learner E row P) (f : E -> row -> R) (g : E -> row -> list R).
(** Training on the target in another unit gives predictions in that unit. *)
Definition equivariant (a b : R) : Prop := forall e data m m',
  ln_fit L e data = Ok m -> ln_fit L e (map (fun p => (fst p, a * snd p + b)) data) = Ok m' -> forall v, f m' v = a * f m v + b.
(** The predictions of [name] follow a change of unit: they are supplied in both units, or come from learners
    that are equivariant (nothing is asked of them if the unit stays the same). *)
Definition carried (proba : bool) (ext ext' : ext_arg) (col name : string) (r : nat) (a b : R) : Prop :=
  (forall e, ~ supplied ext col name r e) /\ (forall e, ~ supplied ext' col name r e) /\ (a = 1 /\ b = 0 \/ proba = false /\ equivariant a b) \/
  exists e e', supplied ext col name r e /\ supplied ext' col name r e' /\ forall i, e' i = a * e i + b.
(** Learners predict row by row, clones are fresh, and every fold is processed. *)
Record reliable (rd : randomness) (w : world P) : Prop := {
  re_row : row_wise L f g;
  re_clone : clone_ok L;
  re_sched : forall sm r t l fs, m_smpls (w_obj w) = Some sm -> nth_error sm r = Some fs -> schedule (rd_order rd r t l) (length fs) }.
(** A learner that predicts probabilities sees every label of the target in every training part. *)
Definition labels_seen (proba : bool) (w : world P) (n : nat) (y : vec) (G : nat -> Prop) : Prop :=
  proba = true -> classifier_ok L g /\
    forall sm fs h i, m_smpls (w_obj w) = Some sm -> In fs sm -> In h fs -> (i < n)%nat -> exists j, (j < n)%nat /\ G j /\ In j (fst h) /\ y j = y i.
End Units.

(** Same rows and treatment variables; same split and parameters. *)
Record twins {P} (fr : M_Data.frame) (s : M_Data.ddata) (w : world P) (fr' : M_Data.frame) (s' : M_Data.ddata) (w' : world P) : Prop := {
  tw_rows : M_Data.frows fr' = M_Data.frows fr;
  tw_d : M_Data.r_d (M_Data.dd_roles s') = M_Data.r_d (M_Data.dd_roles s);
  tw_split : m_smpls (w_obj w') = m_smpls (w_obj w);
  tw_params : forall l c, m_params (w_obj w') l c = m_params (w_obj w) l c }.
(** Same covariates for treatment c. *)
Definition same_covariates (fr : M_Data.frame) (s : M_Data.ddata) (fr' : M_Data.frame) (s' : M_Data.ddata) (c : string) : Prop :=
  forall i, (i < M_Data.frows fr)%nat -> covariates fr' s' c i = covariates fr s c i.
(** Estimates and standard errors of two fits, treatment t, repetition r. *)
Definition rescaled (F F' : framework) (t r : nat) (k shift : R) : Prop :=
  at_ (fw_all_thetas F') [t; r] = k * at_ (fw_all_thetas F) [t; r] + shift /\ at_ (fw_all_ses F') [t; r] = Rabs k * at_ (fw_all_ses F) [t; r].

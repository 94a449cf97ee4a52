(** Specification: when the nested estimation of sample selection succeeds. *)
From Verif Require Export S_Checks.
Local Open Scope R_scope.

(** The learner for [name] can be trained on every non-empty data set, with the
    parameters of every fold. *)
Definition learns_anything {E P} (L : learner E row P) (su : setup E P) (name lrn : string) (smpls : list fold) : Prop :=
  (forall k p data, (k < length smpls)%nat -> param_of (su_params su name) k p -> data <> [] -> exists m, fitted L (su_learner su lrn) p data m) /\
  (forall l, su_params su name = FoldDicts l -> length l = length smpls).
(** The first half of every train part is not empty, the second contains treated
    and untreated rows with an observed outcome. *)
Definition halves_usable (n : nat) (tts : list nat -> list R -> list nat * list nat) (d s : vec) (smpls : list fold) : Prop :=
  forall h, In h smpls -> let halves := tts (fst h) (map (fun i => d i + 2 * s i) (fst h)) in
    fst halves <> [] /\ (exists j, In j (snd halves) /\ (j < n)%nat /\ d j = 1 /\ s j = 1) /\ (exists j, In j (snd halves) /\ (j < n)%nat /\ d j = 0 /\ s j = 1).

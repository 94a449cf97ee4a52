(** Several treatment variables: each one estimated by an object of its own. *)
From Verif Require Export S_Equal.
Local Open Scope R_scope.
Local Open Scope string_scope.

(** The data object [s'] names [c] as its only treatment; the other treatments of [s] are listed after its
    covariates if [s] uses them as covariates, and are left out otherwise.  Both objects have the same split. *)
Record alone {P} (s : M_Data.ddata) (w : world P) (c : string) (s' : M_Data.ddata) (w' : world P) : Prop := {
  al_y : M_Data.r_y (M_Data.dd_roles s') = M_Data.r_y (M_Data.dd_roles s);
  al_d : M_Data.r_d (M_Data.dd_roles s') = [c];
  al_x : M_Data.r_x (M_Data.dd_roles s') = (M_Data.r_x (M_Data.dd_roles s) ++ (if M_Data.dd_other s then filter (fun k => negb (String.eqb c k)) (M_Data.r_d (M_Data.dd_roles s)) else []))%list;
  al_split : m_smpls (w_obj w') = m_smpls (w_obj w) }.
(** Treatment t of [F] and the only treatment of [F']: equal results in repetition r. *)
Definition alone_at (F F' : framework) (t r : nat) : Prop :=
  at_ (fw_all_thetas F') [0%nat; r] = at_ (fw_all_thetas F) [t; r] /\ at_ (fw_all_ses F') [0%nat; r] = at_ (fw_all_ses F) [t; r].
(** Equal results after the aggregation over the repetitions. *)
Definition alone_overall (F F' : framework) (t : nat) : Prop :=
  at_ (fw_thetas F') [0%nat] = at_ (fw_thetas F) [t] /\ at_ (fw_ses F') [0%nat] = at_ (fw_ses F) [t].

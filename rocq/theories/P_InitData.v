(** C82: the columns and feature rows in the end-to-end statements are those of
    the data frame. *)
From Coq Require Import Lra.
From Verif Require Import L_InitData.
From Verif Require M_Data.
From Verif Require Import L_InitWitness.
Local Open Scope R_scope.
Local Open Scope string_scope.

(** Outcome, treatments and instruments: the number in the cell. *)
Theorem C82_columns : forall f c i r, M_Data.fcell f c i = M_Data.Num r -> col f c i = r.
Proof. exact column_value. Qed.
Print Assumptions C82_columns.
Example C82_case_columns : col i_frame "y" 5%nat = 5 /\ col i_frame "c" 4%nat = 4.
Proof. split; apply C82_columns; [change (M_Data.Num (INR 5) = M_Data.Num 5)|change (M_Data.Num (INR 4) = M_Data.Num 4)]; f_equal; cbn; lra. Qed.

(** A row of features: the cells of this row, encoded in one and the same
    injective way, in the order of the columns. *)
Theorem C82_features : exists enc : M_Data.cell -> list R,
  (forall a b, enc a = enc b -> a = b) /\ (forall a, length (enc a) = 2%nat) /\ (forall r, enc (M_Data.Num r) = [1; r]) /\
  forall f cols i, feats f cols i = concat (map (fun c => enc (M_Data.fcell f c i)) cols).
Proof. exact feature_cells. Qed.
Print Assumptions C82_features.

(** Two rows look the same to the learners exactly if their cells agree. *)
Theorem C82_rows : forall f cols i g j, feats f cols i = feats g cols j <-> forall c, In c cols -> M_Data.fcell f c i = M_Data.fcell g c j.
Proof. exact features_determine. Qed.
Print Assumptions C82_rows.
Example C82_case_rows : feats i_frame ["x"] 1%nat <> feats i_frame ["x"] 2%nat /\ feats i_frame ["z"; "d"] 0%nat = feats i_frame ["z"; "d"] 0%nat.
Proof. split; [|reflexivity]. intro H. apply (proj1 (C82_rows _ _ _ _ _)) with (c := "x") in H; [|left; reflexivity]. cbn in H. injection H. lra. Qed.

(** Strata and clusters: rows belong together exactly if their values agree. *)
Theorem C82_values : forall v i j, value_codes v i = value_codes v j <-> v i = v j.
Proof. exact codes_values. Qed.
Print Assumptions C82_values.
Example C82_case_values : value_codes w_c 2%nat = value_codes w_c 3%nat /\ value_codes w_c 2%nat <> value_codes w_c 4%nat.
Proof. split; [apply C82_values; reflexivity|]. intro H. apply C82_values in H. unfold w_c in H. cbn in H. lra. Qed.

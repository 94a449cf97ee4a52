(** Columns without a role, and labels of clusters: terms of the statements. *)
From Verif Require Export M_QObject S_Data.
Local Open Scope R_scope.
Local Open Scope string_scope.

(** The columns with a role other than a cluster variable. *)
Definition used_columns (r : M_Data.roles) : list string :=
  (M_Data.r_y r :: M_Data.r_d r ++ M_Data.r_x r ++ M_Data.optl (M_Data.r_z r) ++
   match M_Data.r_t r with Some c => [c] | None => [] end ++ match M_Data.r_s r with Some c => [c] | None => [] end)%list.
(** Two data frames of the same length that agree in the columns with a role; the
    labels of the clusters may be other ones in the same order.  The other
    columns, and which other columns there are, are arbitrary.  (Cells beyond the
    last row do not exist; the frames are taken to agree there.) *)
Record agree_on_roles (r : M_Data.roles) (f f' : M_Data.frame) : Prop := {
  ag_rows : M_Data.frows f' = M_Data.frows f;
  ag_cells : forall c i, In c (used_columns r) -> M_Data.fcell f' c i = M_Data.fcell f c i;
  ag_labels : forall c i j, In c (M_Data.optl (M_Data.r_cl r)) -> (col f' c i < col f' c j <-> col f c i < col f c j) }.

(** What the columns and features handed to the estimation say about the cells
    of the data frame. *)
From Coq Require Import Lia Lra.
From Verif Require Import M_Init.
From Verif Require M_Data.
Local Open Scope R_scope.
Local Open Scope string_scope.

Lemma column_value f c i r : M_Data.fcell f c i = M_Data.Num r -> col f c i = r.
Proof. unfold col. intros ->. reflexivity. Qed.

Lemma code_inj a b : code a = code b -> a = b.
Proof.
  destruct a, b; cbn; intro H; try reflexivity; try (injection H as H1 H2); try (injection H as H1); subst; try reflexivity; exfalso; lra.
Qed.
Lemma code_length a : length (code a) = 2%nat.
Proof. destruct a; reflexivity. Qed.

(** One encoding of cells for all frames, columns and rows; a feature row is the
    encoded cells of its own row in the order of the columns. *)
Lemma feature_cells : exists enc : M_Data.cell -> list R,
  (forall a b, enc a = enc b -> a = b) /\ (forall a, length (enc a) = 2%nat) /\ (forall r, enc (M_Data.Num r) = [1; r]) /\
  forall f cols i, feats f cols i = concat (map (fun c => enc (M_Data.fcell f c i)) cols).
Proof.
  exists code. split; [exact code_inj|]. split; [exact code_length|]. split; [reflexivity|]. intros. unfold feats. apply flat_map_concat_map.
Qed.

Lemma app_split {A} (a b u v : list A) : length a = length b -> (a ++ u = b ++ v)%list -> a = b /\ u = v.
Proof.
  revert b. induction a as [|x a IH]; intros [|y b] H E; try discriminate; [auto|]. cbn in *. injection H as H. injection E as -> E. destruct (IH b H E) as [-> ->]. auto.
Qed.

(** Two rows of features agree exactly if their cells do. *)
Lemma features_determine f cols i g j : feats f cols i = feats g cols j <-> forall c, In c cols -> M_Data.fcell f c i = M_Data.fcell g c j.
Proof.
  split.
  - unfold feats. induction cols as [|c cols IH]; [intros _ k []|]. intros H k K. cbn in H. apply app_split in H as [Ha Hb]; [|rewrite !code_length; reflexivity]. destruct K as [<-|K].
    + apply code_inj, Ha.
    + apply IH; assumption.
  - intro H. unfold feats. induction cols as [|c cols IH]; [reflexivity|]. cbn. rewrite (H c) by (left; reflexivity). rewrite IH; [reflexivity|]. intros; apply H; right; assumption.
Qed.

Lemma first_row_spec v x : forall k i, v (i + k)%nat = x -> v (first_row v x k i) = x /\ (i <= first_row v x k i <= i + k)%nat.
Proof.
  induction k as [|k IH]; intros i H; cbn; [rewrite Nat.add_0_r in *; split; [exact H|lia]|].
  destruct (Req_EM_T (v i) x) as [e|e]; [split; [exact e|lia]|]. destruct (IH (S i)) as [A B]; [rewrite <- H; f_equal; lia|]. split; [exact A|lia].
Qed.
Lemma first_row_more v x : forall k i m, v (i + k)%nat = x -> (k <= m)%nat -> first_row v x m i = first_row v x k i.
Proof.
  induction k as [|k IH]; intros i m H L.
  - cbn. rewrite Nat.add_0_r in H. destruct m as [|m]; [reflexivity|]. cbn. destruct (Req_EM_T (v i) x); [reflexivity|contradiction].
  - destruct m as [|m]; [lia|]. cbn. destruct (Req_EM_T (v i) x); [reflexivity|]. apply IH; [rewrite <- H; f_equal; lia|lia].
Qed.
(** Stratification and clustering compare the values themselves. *)
Lemma codes_values v i j : value_codes v i = value_codes v j <-> v i = v j.
Proof.
  unfold value_codes. split.
  - intro H. apply Nat2Z.inj in H. destruct (first_row_spec v (v i) i 0 eq_refl) as [A _]. destruct (first_row_spec v (v j) j 0 eq_refl) as [B _]. rewrite <- A, <- B, H. reflexivity.
  - intro H. f_equal. rewrite <- H. destruct (Nat.le_ge_cases i j) as [L|L].
    + rewrite (first_row_more v (v i) i 0 j eq_refl L). reflexivity.
    + rewrite H. rewrite (first_row_more v (v j) j 0 i eq_refl L). reflexivity.
Qed.

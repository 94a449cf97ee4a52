(** Model of hyperparameter tuning: [_dml_tune] (doubleml/utils/_estimation.py:150-170),
    the model classes' [_nuisance_tuning] and [DoubleML.tune]
    (doubleml/double_ml.py:678-860). *)
From Verif Require Export M_Model.
Local Open Scope R_scope.
Local Open Scope res_scope.

(** ** Tuning of the nuisance functions of one sample split *)

(** What [_nuisance_tuning] returns: the best parameters of every fold, by name
    of the nuisance function, and the search objects. *)
Record tune_out (P T : Type) := { to_params : list (string * list P); to_res : T }.
Arguments to_params {P T}. Arguments to_res {P T}.

Section Searches.
Context {X P S : Type}.
(** GridSearchCV / RandomizedSearchCV as an oracle: [search l k data] is the
    fitted search object for nuisance function [l] in the k-th training set
    (learner, grid, scoring and the random draws of the inner KFold belong to
    the call); [best] is its [best_params_], [spred] its [predict], row by row. *)
Variable search : string -> nat -> list (X * R) -> result S.
Variable best : S -> P.
Variable spred : S -> X -> R.
Variable n : nat.

(** [_dml_tune] (150-170). *)
Definition dml_tune (l : string) (x : nat -> X) (y : nat -> R) (train_inds : list (list nat)) : result (list S) :=
  map_res (fun k => search l k (map (fun i => (x i, y i)) (nth k train_inds []))) (seq 0 (length train_inds)).

(** [l_hat[train_index] = l_tune_res[idx].predict(x[train_index, :])] for all
    folds in turn (plm/plr.py:327-331); arrays made by full_like keep the
    dtype of their model array, writing into them casts ([cast]). *)
Definition train_hat (cast : R -> R) (x : nat -> X) (smpls : list fold) (res : list S) : nat -> option R :=
  fold_left (fun v (p : fold * S) => scatter (fst (fst p)) (map (fun i => cast (spred (snd p) (x i))) (fst (fst p))) v)
            (combine smpls res) (fun _ => None).
(** [np.nanmean]. *)
Definition nanmean (v : nat -> option R) : R := Rmean (flat_map (fun i => match v i with Some a => [a] | None => [] end) (seq 0 n)).
Definition initial_theta (y d : nat -> R) (l_hat m_hat : nat -> option R) : R :=
  let res := fun (v : nat -> R) (h : nat -> option R) i => option_map (fun a => v i - a) (h i) in
  let prod := fun (a b : option R) => match a, b with Some u, Some v => Some (u * v) | _, _ => None end in
  let psi_a := fun i => option_map Ropp (prod (res d m_hat i) (res d m_hat i)) in
  let psi_b := fun i => prod (res d m_hat i) (res y l_hat i) in
  - nanmean psi_b / nanmean psi_a.

(** DoubleMLPLR (plm/plr.py:286-357); [iv]: an [ml_g] is present. *)
Definition plr_tuning (iv : bool) (cast_y cast_d : R -> R) (x : nat -> X) (y d : nat -> R) (smpls : list fold) : result (tune_out P (list (list S))) :=
  let train_inds := map fst smpls in
  let! lr := dml_tune "ml_l" x y train_inds in
  let! mr := dml_tune "ml_m" x d train_inds in
  if iv then
    let theta := initial_theta y d (train_hat cast_y x smpls lr) (train_hat cast_d x smpls mr) in
    let! gr := dml_tune "ml_g" x (fun i => y i - theta * d i) train_inds in
    Ok {| to_params := [("ml_l", map best lr); ("ml_m", map best mr); ("ml_g", map best gr)]%string; to_res := [lr; mr; gr] |}
  else Ok {| to_params := [("ml_l", map best lr); ("ml_m", map best mr)]%string; to_res := [lr; mr] |}.

(** DoubleMLIRM (irm/irm.py:400-461). *)
Definition irm_tuning (x : nat -> X) (y d : nat -> R) (smpls : list fold) : result (tune_out P (list (list S))) :=
  let! g0 := dml_tune "ml_g0" x y (map fst (cond_smpls n (fun i => reqb (d i) 0) smpls)) in
  let! g1 := dml_tune "ml_g1" x y (map fst (cond_smpls n (fun i => reqb (d i) 1) smpls)) in
  let! mr := dml_tune "ml_m" x d (map fst smpls) in
  Ok {| to_params := [("ml_g0", map best g0); ("ml_g1", map best g1); ("ml_m", map best mr)]%string; to_res := [g0; g1; mr] |}.

(** DoubleMLPQ (irm/pq.py:397-445). *)
Definition pq_tuning (q treatment : R) (x : nat -> X) (y d : nat -> R) (smpls : list fold) : result (tune_out P (list (list S))) :=
  let goal := fun i => if rleb (y i) (quantile (map y (filter (fun j => reqb (d j) treatment) (seq 0 n))) q) then 1 else 0 in
  let! gr := dml_tune "ml_g" x goal (map fst (cond_smpls n (fun i => reqb (d i) treatment) smpls)) in
  let! mr := dml_tune "ml_m" x d (map fst smpls) in
  Ok {| to_params := [("ml_g", map best gr); ("ml_m", map best mr)]%string; to_res := [gr; mr] |}.
End Searches.

(** ** DoubleML.tune *)

(** Arguments with their types (746-807).  [param_grids] / [scoring_methods] by
    their keys; a value that is no container makes the membership test itself
    raise TypeError, because [|] does not short-circuit. *)
Inductive keys_arg := KNone | KNotIterable | KOther (l : list string) | KDict (l : list string).
Record tune_args := {
  ta_grids : keys_arg; ta_on_folds : pyval; ta_scoring : keys_arg; ta_n_folds : pyval; ta_mode : pyval;
  ta_n_iter : pyval; ta_n_jobs : pyval; ta_set : pyval; ta_return : pyval }.

(** Python lists of lists: the outer list holds references to rows. *)
Record table (A : Type) := { tb_rows : list (list (option A)); tb_refs : list nat }.
Arguments tb_rows {A}. Arguments tb_refs {A}.
(** [[[None] * n_rep] * n_treat] (810): one row, n_treat references to it. *)
Definition alias_table {A} (n_rep n_treat : nat) : table A := {| tb_rows := [repeat None n_rep]; tb_refs := repeat 0%nat n_treat |}.
(** [t[i][j] = v]. *)
Definition table_set {A} (i j : nat) (v : A) (t : table A) : result (table A) :=
  match nth_error (tb_refs t) i with
  | None => Err IndexError
  | Some p => let row := nth p (tb_rows t) [] in
      require (Nat.ltb j (length row)) IndexError (Ok {| tb_rows := set_nth p (set_nth j (Some v) row) (tb_rows t); tb_refs := tb_refs t |})
  end.
(** What the caller sees. *)
Definition table_view {A} (t : table A) : list (list (option A)) := map (fun p => nth p (tb_rows t) []) (tb_refs t).

(** A loop that carries a local variable. *)
Fixpoint for_acc {P A S} (l : list A) (body : A -> S -> act P S) (s : S) : act P S :=
  match l with [] => ret s | x :: r => s' <- body x s ;; for_acc r body s' end.

Section Tune.
Context {P T : Type}.
Variable C : ctx P.
Variable learner_names : list string.
(** [_nuisance_tuning] of the model class with treatment t active, on the folds
    given; the second argument tells the repetition (fold-wise tuning) or None
    (one call on the full sample), so that random draws may differ. *)
Variable tn : nat -> option nat -> list fold -> result (tune_out P T).
Let n := c_n C.
Let n_treat := length (c_dcols C).

Inductive tune_ret :=
| RSelf
| RFolds (l : list (list (option (tune_out P T))))
| RGlobal (l : list (tune_out P T)).

(** The argument checks (746-807).  Filling the caller's [scoring_methods] with
    None entries (762-766) is not modelled. *)
Definition check_keys_in (k : keys_arg) : result unit :=
  match k with
  | KNone | KNotIterable => Err TypeError
  | KOther _ => Err ValueError
  | KDict l => require (forallb (fun x => smem x l) learner_names) ValueError (Ok tt)
  end.
Definition check_scoring (k : keys_arg) : result unit :=
  match k with
  | KNone => Ok tt
  | KNotIterable => Err TypeError
  | KOther _ => Err ValueError
  | KDict l => require (forallb (fun x => smem x learner_names) l) ValueError (Ok tt)
  end.
Definition check_tune (a : tune_args) : result unit :=
  let! _ := check_keys_in (ta_grids a) in
  let! _ := check_scoring (ta_scoring a) in
  require (is_bool (ta_on_folds a)) TypeError (
  require (is_int (ta_n_folds a)) TypeError (
  require (Z.leb 2 (int_val (ta_n_folds a))) ValueError (
  require (match ta_mode a with PStr s => smem s ["grid_search"; "randomized_search"]%string | _ => false end) ValueError (
  require (is_int (ta_n_iter a)) TypeError (
  require (Z.leb 2 (int_val (ta_n_iter a))) ValueError (
  require (match ta_n_jobs a with PNone => true | v => is_int v end) TypeError (
  require (is_bool (ta_set a)) TypeError (
  require (is_bool (ta_return a)) TypeError (Ok tt))))))))).

Definition treat_name (t : nat) : string := nth t (c_dcols C) EmptyString.
(** [params = [x[nuisance_model] for x in nuisance_params]] (841). *)
Definition collect_params (l : string) (ps : list (list (string * list P))) : result (list (list P)) :=
  map_res (fun x => match dict_get l x with Some v => Ok v | None => Err KeyError end) ps.

(** One treatment with [tune_on_folds=True] (820-842). *)
Definition tune_folds (set_params : bool) (t : nat) (tb : table (tune_out P T)) : act P (table (tune_out P T)) :=
  w <- lift (fun w => Ok w) ;;
  st <- for_acc (seq 0 (m_n_rep (w_obj w))) (fun r st =>
          res <- lift (fun w => let! fs := smpls_rep (m_smpls (w_obj w)) r in tn t (Some r) fs) ;;
          tb' <- lift (fun _ => table_set r t res (fst st)) ;;
          ret (tb', snd st ++ [to_params res])) (tb, []) ;;
  (if set_params then
     match snd st with
     | [] => raise IndexError
     | p0 :: _ => for_ (map fst p0) (fun l =>
         ps <- lift (fun _ => collect_params l (snd st)) ;;
         set_ml_nuisance_params C l (treat_name t) (ParList ps))
     end
   else ret tt) ;;;
  ret (fst st).

(** One treatment with [tune_on_folds=False] (844-855); [params[0]] of a list
    with one entry per fold. *)
Definition tune_full (set_params : bool) (t : nat) (acc : list (tune_out P T)) : act P (list (tune_out P T)) :=
  res <- lift (fun _ => tn t None [(seq 0 n, seq 0 n)]) ;;
  (if set_params then
     for_ (to_params res) (fun p =>
       match snd p with
       | [] => raise IndexError
       | v :: _ => set_ml_nuisance_params C (fst p) (treat_name t) (ParDict v)
       end)
   else ret tt) ;;;
  ret (acc ++ [res]).

Definition is_true (v : pyval) : bool := match v with PBool b => b | _ => false end.
(** [tune] (678-860).  [set_x_d], [_i_rep] and [_i_treat] are passed to the
    oracle instead of being kept as attributes. *)
Definition tune (a : tune_args) : act P tune_ret :=
  lift (fun _ => check_tune a) ;;;
  w <- lift (fun w => Ok w) ;;
  if is_true (ta_on_folds a) then
    tb <- for_acc (seq 0 n_treat) (tune_folds (is_true (ta_set a))) (alias_table (m_n_rep (w_obj w)) n_treat) ;;
    ret (if is_true (ta_return a) then RFolds (table_view tb) else RSelf)
  else
    l <- for_acc (seq 0 n_treat) (tune_full (is_true (ta_set a))) [] ;;
    ret (if is_true (ta_return a) then RGlobal l else RSelf).
End Tune.

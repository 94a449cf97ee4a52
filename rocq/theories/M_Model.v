(** Model of the estimator object (doubleml/double_ml.py) as a state machine:
    construction, sample splitting, fitting, inference, nuisance parameters,
    external predictions, evaluation.  The nuisance estimation of the concrete
    model class is an oracle; the score is linear. *)
From Verif Require Export M_Framework M_CrossFit.
Local Open Scope R_scope.
Local Open Scope res_scope.

(** ** numpy buffers; [None] is nan *)
Record buf := mk_buf { b_shape : list nat; b_at : list nat -> option R }.
Definition nan_buf (s : list nat) : buf := mk_buf s (fun _ => None).
Definition oget (o : option R) : R := match o with Some x => x | None => 0 end.
(** A buffer read as an array; nan is totalised to 0 (theorems show that the
    buffers read contain no nan). *)
Definition b_nd (b : buf) : nd := mk_nd (b_shape b) (fun i => oget (b_at b i)).
Definition nd_b (a : nd) : buf := mk_buf (shape a) (fun i => Some (at_ a i)).
Fixpoint in_shapeb (idx s : list nat) : bool :=
  match idx, s with
  | [], [] => true
  | i :: idx', n :: s' => Nat.ltb i n && in_shapeb idx' s'
  | _, _ => false
  end.
(** [b[idx] = x]; a position outside the array raises IndexError. *)
Definition b_set (idx : list nat) (x : option R) (b : buf) : result buf :=
  require (in_shapeb idx (b_shape b)) IndexError
    (Ok (mk_buf (b_shape b) (fun i => if shape_eqb i idx then x else b_at b i))).
(** [b[:, r, t] = v]. *)
Definition b_col (r t : nat) (v : nat -> option R) (b : buf) : result buf :=
  match b_shape b with
  | [n; nr; nt] =>
      require (Nat.ltb r nr && Nat.ltb t nt) IndexError
        (Ok (mk_buf (b_shape b) (fun i => match i with
               | [k; r'; t'] => if Nat.eqb r' r && Nat.eqb t' t then v k else b_at b i
               | _ => b_at b i end)))
  | _ => Err IndexError
  end.
(** [b[:, r, t]] as a vector of numbers. *)
Definition col_of (b : buf) (r t : nat) (i : nat) : R := oget (b_at b [i; r; t]).

(** ** Oracles of the model class *)
Record nuis_out := {
  no_a : nat -> R; no_b : nat -> R;                        (* psi_elements *)
  no_preds : string -> nat -> option R;                    (* preds["predictions"] *)
  no_targets : string -> option (nat -> option R) }.       (* preds["targets"], possibly None *)
Record sens_out := {
  so_sigma2 : R; so_nu2 : R;
  so_psi_sigma2 : nat -> R; so_psi_nu2 : nat -> R; so_rr : nat -> R }.

(** What is fixed when the object is created: the data (through the oracles),
    the treatment columns, the cluster columns, the stratification, the names
    of the nuisance functions ([params_names]), which of them are classifiers.
    [c_nuis r t smpls params ext] is [_nuisance_est] for repetition r and
    treatment t; it sees the folds of repetition r only, the parameters of
    (treatment t, repetition r), and the external predictions of (t, r).
    [c_sens] is [_sensitivity_element_est] (None: not implemented); callable
    scores: see M_Callable. *)
Record ctx (P : Type) := {
  c_n : nat;
  c_dcols : list string;
  c_cluster : option (list (nat -> Z));
  c_strata : option (nat -> Z);
  c_learners : list string;
  c_classifier : string -> bool;
  c_ext_ok : bool;                                          (* _external_predictions_implemented *)
  c_nuis : nat -> nat -> list fold -> (string -> option (list P)) -> (string -> option (nat -> R)) -> result nuis_out;
  c_sens : option (nat -> nat -> nuis_out -> R -> sens_out) }.
Arguments c_n {P}. Arguments c_dcols {P}. Arguments c_cluster {P}. Arguments c_strata {P}. Arguments c_learners {P}.
Arguments c_classifier {P}. Arguments c_ext_ok {P}. Arguments c_nuis {P}. Arguments c_sens {P}.

Record sens_bufs := { sb_sigma2 : buf; sb_nu2 : buf; sb_psi_sigma2 : buf; sb_psi_nu2 : buf; sb_rr : buf }.

(** ** The object and the objects it shares buffers with *)
Definition loc := nat.
(** A framework object: [construct_framework] passes [all_coef], [all_se] and
    [_var_scaling_factors] by reference and the framework keeps these references
    (double_ml_framework.py:53-58), everything else is its own. *)
Record fwobj := { fo_base : framework; fo_all_thetas : loc; fo_all_ses : loc; fo_vs : loc }.
(** Attributes of the estimator (double_ml.py:24-112).  [_models] is not modelled. *)
Record dml (P : Type) := {
  m_n_rep : nat; m_n_folds : nat; m_nfpc : nat;
  m_smpls : option (list (list fold));
  m_smpls_cluster : option (list (list cfold));
  m_psi : buf; m_psi_deriv : buf; m_psi_a : buf; m_psi_b : buf;
  m_vs : loc; m_all_coef : loc; m_all_se : loc;
  m_coef : buf; m_se : buf;
  m_fw : option nat;
  m_preds : option (string -> buf);
  m_targets : option (string -> buf);
  m_loss : option (string -> buf);
  m_sens : option sens_bufs;
  m_params : string -> string -> list (option (list P)) }.
Arguments m_n_rep {P}. Arguments m_n_folds {P}. Arguments m_nfpc {P}. Arguments m_smpls {P}. Arguments m_smpls_cluster {P}.
Arguments m_psi {P}. Arguments m_psi_deriv {P}. Arguments m_psi_a {P}. Arguments m_psi_b {P}.
Arguments m_vs {P}. Arguments m_all_coef {P}. Arguments m_all_se {P}. Arguments m_coef {P}. Arguments m_se {P}.
Arguments m_fw {P}. Arguments m_preds {P}. Arguments m_targets {P}. Arguments m_loss {P}. Arguments m_sens {P}. Arguments m_params {P}.

Record world (P : Type) := { w_heap : list buf; w_fws : list fwobj; w_obj : dml P }.
Arguments w_heap {P}. Arguments w_fws {P}. Arguments w_obj {P}.

Definition hget (h : list buf) (l : loc) : buf := nth l h (nan_buf []).
(** What a framework object currently reports. *)
Definition fw_view (h : list buf) (o : fwobj) : framework :=
  let f := fo_base o in
  {| fw_n_obs := fw_n_obs f; fw_n_thetas := fw_n_thetas f; fw_n_rep := fw_n_rep f;
     fw_thetas := fw_thetas f; fw_ses := fw_ses f;
     fw_all_thetas := b_nd (hget h (fo_all_thetas o)); fw_all_ses := b_nd (hget h (fo_all_ses o));
     fw_vs := b_nd (hget h (fo_vs o)); fw_scaled_psi := fw_scaled_psi f;
     fw_cluster := fw_cluster f; fw_sens := fw_sens f; fw_names := fw_names f;
     fw_boot := fw_boot f; fw_sens_params := fw_sens_params f |}.

(** ** Statements: state, exception keeps what was assigned before *)
Definition act (P A : Type) := world P -> world P * result A.
Definition ret {P A} (x : A) : act P A := fun w => (w, Ok x).
Definition raise {P A} (e : exn) : act P A := fun w => (w, Err e).
Definition andthen {P A B} (m : act P A) (k : A -> act P B) : act P B := fun w =>
  match m w with (w', Ok x) => k x w' | (w', Err e) => (w', Err e) end.
Notation "x <- m ;; k" := (andthen m (fun x => k)) (at level 100, m at next level, right associativity).
Notation "m ;;; k" := (andthen m (fun _ => k)) (at level 100, right associativity).
Definition lift {P A} (r : world P -> result A) : act P A := fun w => (w, r w).
Fixpoint for_ {P A} (l : list A) (body : A -> act P unit) : act P unit :=
  match l with [] => ret tt | x :: r => body x ;;; for_ r body end.
(** Attribute assignment. *)
Definition assign {P} (u : dml P -> dml P) : act P unit := fun w =>
  ({| w_heap := w_heap w; w_fws := w_fws w; w_obj := u (w_obj w) |}, Ok tt).
(** [buffer[...] = ...] on a shared buffer. *)
Definition hwrite {P} (l : loc) (u : buf -> result buf) : act P unit := fun w =>
  match u (hget (w_heap w) l) with
  | Ok b => ({| w_heap := set_nth l b (w_heap w); w_fws := w_fws w; w_obj := w_obj w |}, Ok tt)
  | Err e => (w, Err e)
  end.
(** Allocation of a buffer and of a framework object. *)
Definition halloc {P} (b : buf) : act P loc := fun w =>
  ({| w_heap := w_heap w ++ [b]; w_fws := w_fws w; w_obj := w_obj w |}, Ok (length (w_heap w))).
Definition fw_alloc {P} (o : fwobj) : act P nat := fun w =>
  ({| w_heap := w_heap w; w_fws := w_fws w ++ [o]; w_obj := w_obj w |}, Ok (length (w_fws w))).

Section Setters.
Context {P : Type}.
Implicit Type m : dml P.
Definition with_split (nr nf : nat) (sm : option (list (list fold))) (sc : option (list (list cfold))) m : dml P :=
  {| m_n_rep := nr; m_n_folds := nf; m_nfpc := m_nfpc m; m_smpls := sm; m_smpls_cluster := sc;
     m_psi := m_psi m; m_psi_deriv := m_psi_deriv m; m_psi_a := m_psi_a m; m_psi_b := m_psi_b m;
     m_vs := m_vs m; m_all_coef := m_all_coef m; m_all_se := m_all_se m; m_coef := m_coef m; m_se := m_se m; m_fw := m_fw m;
     m_preds := m_preds m; m_targets := m_targets m; m_loss := m_loss m; m_sens := m_sens m; m_params := m_params m |}.
Definition with_arrays (psi dpsi pa pb : buf) (vs ac ase : loc) (co se : buf) m : dml P :=
  {| m_n_rep := m_n_rep m; m_n_folds := m_n_folds m; m_nfpc := m_nfpc m; m_smpls := m_smpls m; m_smpls_cluster := m_smpls_cluster m;
     m_psi := psi; m_psi_deriv := dpsi; m_psi_a := pa; m_psi_b := pb;
     m_vs := vs; m_all_coef := ac; m_all_se := ase; m_coef := co; m_se := se; m_fw := m_fw m;
     m_preds := m_preds m; m_targets := m_targets m; m_loss := m_loss m; m_sens := m_sens m; m_params := m_params m |}.
Definition with_results (fw : option nat) (pr tg ls : option (string -> buf)) (sn : option sens_bufs) m : dml P :=
  {| m_n_rep := m_n_rep m; m_n_folds := m_n_folds m; m_nfpc := m_nfpc m; m_smpls := m_smpls m; m_smpls_cluster := m_smpls_cluster m;
     m_psi := m_psi m; m_psi_deriv := m_psi_deriv m; m_psi_a := m_psi_a m; m_psi_b := m_psi_b m;
     m_vs := m_vs m; m_all_coef := m_all_coef m; m_all_se := m_all_se m; m_coef := m_coef m; m_se := m_se m; m_fw := fw;
     m_preds := pr; m_targets := tg; m_loss := ls; m_sens := sn; m_params := m_params m |}.
Definition with_params (ps : string -> string -> list (option (list P))) m : dml P :=
  {| m_n_rep := m_n_rep m; m_n_folds := m_n_folds m; m_nfpc := m_nfpc m; m_smpls := m_smpls m; m_smpls_cluster := m_smpls_cluster m;
     m_psi := m_psi m; m_psi_deriv := m_psi_deriv m; m_psi_a := m_psi_a m; m_psi_b := m_psi_b m;
     m_vs := m_vs m; m_all_coef := m_all_coef m; m_all_se := m_all_se m; m_coef := m_coef m; m_se := m_se m; m_fw := m_fw m;
     m_preds := m_preds m; m_targets := m_targets m; m_loss := m_loss m; m_sens := m_sens m; m_params := ps |}.
(** [self._psi = ...], [self._psi_deriv = ...] and the two score elements. *)
Definition with_psi (psi dpsi : buf) m : dml P :=
  with_arrays psi dpsi (m_psi_a m) (m_psi_b m) (m_vs m) (m_all_coef m) (m_all_se m) (m_coef m) (m_se m) m.
Definition with_elements (pa pb : buf) m : dml P :=
  with_arrays (m_psi m) (m_psi_deriv m) pa pb (m_vs m) (m_all_coef m) (m_all_se m) (m_coef m) (m_se m) m.
Definition with_coef (co se : buf) m : dml P :=
  with_arrays (m_psi m) (m_psi_deriv m) (m_psi_a m) (m_psi_b m) (m_vs m) (m_all_coef m) (m_all_se m) co se m.
Definition with_loss (ls : option (string -> buf)) m : dml P := with_results (m_fw m) (m_preds m) (m_targets m) ls (m_sens m) m.
Definition with_predictions (pr tg : option (string -> buf)) m : dml P := with_results (m_fw m) pr tg (m_loss m) (m_sens m) m.
Definition with_sens (sn : option sens_bufs) m : dml P := with_results (m_fw m) (m_preds m) (m_targets m) (m_loss m) sn m.
Definition with_fw (fw : option nat) m : dml P := with_results fw (m_preds m) (m_targets m) (m_loss m) (m_sens m) m.
End Setters.

(** ** External predictions *)
(** The argument [external_predictions] of [fit]: None, not a dict, or a dict
    from treatments to (not a dict | dict from learners to values).  Keys of a
    Python dict are distinct; lookups take the first. *)
Inductive ext_inner := InnerOther | InnerDict (l : list (string * entry nd)).
Inductive ext_arg := ExtNone | ExtOther | ExtDict (l : list (string * ext_inner)).
Fixpoint dict_get {A} (k : string) (l : list (string * A)) : option A :=
  match l with [] => None | (k', v) :: r => if String.eqb k k' then Some v else dict_get k r end.
Definition smem (k : string) (l : list string) : bool := existsb (String.eqb k) l.

(** [_check_external_predictions] (utils/_checks.py:285-341). *)
Definition check_external (ext : ext_arg) (treats learners : list string) (n n_rep : nat) : result unit :=
  match ext with
  | ExtNone => Ok tt
  | ExtOther => Err TypeError
  | ExtDict l =>
      require (forallb (fun p => smem (fst p) treats) l) ValueError (
      all_ok (fun p => match snd p with
        | InnerOther => Err TypeError
        | InnerDict il =>
            require (forallb (fun q => smem (fst q) learners) il) ValueError (
            all_ok (fun q => match snd q with
              | Val a => require (shape_eqb (shape a) [n; n_rep]) ValueError (Ok tt)
              | _ => Err TypeError end) il)
        end) l)
  end.
(** [_set_external_predictions] (utils/_estimation.py:331-343):
    [external_predictions[treatment]] raises KeyError for a treatment without
    entry. *)
Definition set_external (ext : ext_arg) (learners : list string) (treatment : string) (r : nat)
  : result (string -> option (nat -> R)) :=
  match ext with
  | ExtNone => Ok (fun _ => None)
  | ExtOther => Err TypeError
  | ExtDict l =>
      match learners with
      | [] => Ok (fun _ => None)
      | _ =>
          match dict_get treatment l with
          | None => Err KeyError
          | Some InnerOther => Err AttributeError
          | Some (InnerDict il) =>
              Ok (fun learner => if smem learner learners then
                    match dict_get learner il with Some (Val a) => Some (fun i => at_ a [i; r]) | _ => None end
                  else None)
          end
      end
  end.

Section Object.
Context {P : Type}.
Variable C : ctx P.
Let n := c_n C.
Let n_treat := length (c_dcols C).
Notation act := (act P).

(** ** Construction and sample splitting *)

(** [_initialize_arrays] (double_ml.py:1064-1079). *)
Definition initialize_arrays : act unit :=
  w0 <- lift (fun w => Ok w) ;;
  let n_rep := m_n_rep (w_obj w0) in
  lvs <- halloc (nan_buf [n_treat]) ;;
  lac <- halloc (nan_buf [n_treat; n_rep]) ;;
  las <- halloc (nan_buf [n_treat; n_rep]) ;;
  assign (with_arrays (nan_buf [n; n_rep; n_treat]) (nan_buf [n; n_rep; n_treat])
            (nan_buf [n; n_rep; n_treat]) (nan_buf [n; n_rep; n_treat]) lvs lac las (nan_buf [n_treat]) (nan_buf [n_treat])).
(** [_initialize_ml_nuisance_params], e.g. plm/plr.py:137-138: None for every
    learner, treatment and repetition. *)
Definition initialize_params : act unit :=
  assign (fun m => with_params (fun _ _ => repeat None (m_n_rep m)) m).

(** [draw_sample_splitting] (1206-1232); [g]/[perm] are the random generators. *)
Definition draw_sample_splitting (g : rng) (perm : nat -> nat -> list nat -> list nat) : act unit :=
  w <- lift (fun w => Ok w) ;;
  let m := w_obj w in
  match c_cluster C with
  | Some cv =>
      p <- lift (fun _ => cluster_resampling (m_nfpc m) (m_n_rep m) n cv perm) ;;
      assign (fun m => with_split (m_n_rep m) (m_n_folds m) (Some (fst p)) (Some (snd p)) m)
  | None =>
      sm <- lift (fun _ => resampling (m_n_folds m) (m_n_rep m) n (c_strata C) g) ;;
      assign (fun m => with_split (m_n_rep m) (m_n_folds m) (Some sm) (m_smpls_cluster m) m)
  end.

(** [__init__] (24-112) followed by the initialisation of the nuisance
    parameters in the subclass. *)
Definition blank : dml P :=
  {| m_n_rep := 0; m_n_folds := 0; m_nfpc := 0; m_smpls := None; m_smpls_cluster := None;
     m_psi := nan_buf []; m_psi_deriv := nan_buf []; m_psi_a := nan_buf []; m_psi_b := nan_buf [];
     m_vs := 0%nat; m_all_coef := 0%nat; m_all_se := 0%nat; m_coef := nan_buf []; m_se := nan_buf []; m_fw := None;
     m_preds := None; m_targets := None; m_loss := None; m_sens := None; m_params := fun _ _ => [] |}.
Definition with_spec (nr nf nfpc : nat) (m : dml P) : dml P :=
  {| m_n_rep := nr; m_n_folds := nf; m_nfpc := nfpc; m_smpls := m_smpls m; m_smpls_cluster := m_smpls_cluster m;
     m_psi := m_psi m; m_psi_deriv := m_psi_deriv m; m_psi_a := m_psi_a m; m_psi_b := m_psi_b m;
     m_vs := m_vs m; m_all_coef := m_all_coef m; m_all_se := m_all_se m; m_coef := m_coef m; m_se := m_se m; m_fw := m_fw m;
     m_preds := m_preds m; m_targets := m_targets m; m_loss := m_loss m; m_sens := m_sens m; m_params := m_params m |}.
Definition construct (n_folds n_rep draw : pyval) (g : rng) (perm : nat -> nat -> list nat -> list nat) : act unit :=
  lift (fun _ => require (match c_cluster C with Some cv => Nat.leb (length cv) 2 | None => true end) NotImplementedError (Ok tt)) ;;;
  lift (fun _ => require (is_int n_folds) TypeError (require (Z.leb 1 (int_val n_folds)) ValueError (Ok tt))) ;;;
  lift (fun _ => require (is_int n_rep) TypeError (require (Z.leb 1 (int_val n_rep)) ValueError (Ok tt))) ;;;
  lift (fun _ => require (is_bool draw) TypeError (Ok tt)) ;;;
  let k := Z.to_nat (int_val n_folds) in
  assign (with_spec (Z.to_nat (int_val n_rep))
            (match c_cluster C with Some cv => Nat.pow k (length cv) | None => k end) k) ;;;
  (match draw with PBool true => draw_sample_splitting g perm | _ => ret tt end) ;;;
  initialize_arrays ;;;
  initialize_params.
Definition new_object (n_folds n_rep draw : pyval) (g : rng) (perm : nat -> nat -> list nat -> list nat) : result (world P) :=
  match construct n_folds n_rep draw g perm {| w_heap := []; w_fws := []; w_obj := blank |} with
  | (w, Ok _) => Ok w
  | (_, Err e) => Err e
  end.

(** Accepted indices are in range (theorem C01), so this loses nothing. *)
Definition nf (f : zfold) : fold := (map Z.to_nat (fst f), map Z.to_nat (snd f)).
(** [set_sample_splitting] (1234-1310): one tuple assignment after all checks. *)
Definition set_sample_splitting (all_smpls : pysplit) (all_smpls_cluster : option (list (list cfold))) : act unit :=
  p <- lift (fun _ =>
      let! ck := check_sample_splitting n all_smpls in
      let! sc := match c_cluster C with
                 | None => Ok None
                 | Some cv => let! sc := check_cluster_splitting n cv all_smpls_cluster (ck_n_rep ck) (ck_n_folds ck) in Ok (Some sc)
                 end in
      Ok (ck, sc)) ;;
  assign (with_split (ck_n_rep (fst p)) (ck_n_folds (fst p)) (Some (map (map nf) (ck_smpls (fst p)))) (snd p)) ;;;
  initialize_arrays ;;;
  initialize_params.

(** ** Nuisance parameters *)
Inductive param_arg := ParNone | ParDict (p : P) | ParList (l : list (list P)).
(** [set_ml_nuisance_params] (862-911). *)
Definition set_ml_nuisance_params (learner treat : string) (v : param_arg) : act unit :=
  lift (fun _ => require (smem learner (c_learners C)) ValueError (Ok tt)) ;;;
  lift (fun _ => require (smem treat (c_dcols C)) ValueError (Ok tt)) ;;;
  all_params <- lift (fun w => let m := w_obj w in
     match v with
     | ParNone => Ok (repeat None (m_n_rep m))
     | ParDict p => Ok (repeat (Some (repeat p (m_n_folds m))) (m_n_rep m))
     | ParList l =>
         require (Nat.eqb (length l) (m_n_rep m)) AssertionError (
         require (forallb (fun x => Nat.eqb (length x) (m_n_folds m)) l) AssertionError (Ok (map Some l)))
     end) ;;
  assign (fun m => with_params (fun l t => if String.eqb l learner && String.eqb t treat then all_params else m_params m l t) m).
(** [get_params] (266-291). *)
Definition get_params (learner : string) (w : world P) : result (string -> list (option (list P))) :=
  require (smem learner (c_learners C)) ValueError (Ok (m_params (w_obj w) learner)).

(** ** fit *)

(** [_check_fit] (974-998). *)
Definition check_fit (n_jobs store : pyval) (ext : ext_arg) (store_models : pyval) : act unit :=
  lift (fun w =>
    require (match n_jobs with PNone => true | v => is_int v end) TypeError (
    require (is_bool store) TypeError (
    require (is_bool store_models) TypeError (
    if c_ext_ok C then check_external ext (c_dcols C) (c_learners C) n (m_n_rep (w_obj w))
    else match ext with ExtNone => Ok tt | _ => Err NotImplementedError end)))).

(** [_initalize_fit] (1000-1013): predictions and targets are only reset when
    they are going to be stored. *)
Definition initialize_fit (store : bool) : act unit :=
  assign (fun m => with_loss (Some (fun _ => nan_buf [m_n_rep m; n_treat])) m) ;;;
  (if store then assign (fun m => with_predictions (Some (fun _ => nan_buf [n; m_n_rep m; n_treat]))
                                                  (Some (fun _ => nan_buf [n; m_n_rep m; n_treat])) m)
   else ret tt) ;;;
  match c_sens C with
  | None => ret tt
  | Some _ => assign (fun m => with_sens (Some {| sb_sigma2 := nan_buf [1%nat; m_n_rep m; n_treat];
        sb_nu2 := nan_buf [1%nat; m_n_rep m; n_treat]; sb_psi_sigma2 := nan_buf [n; m_n_rep m; n_treat];
        sb_psi_nu2 := nan_buf [n; m_n_rep m; n_treat]; sb_rr := nan_buf [n; m_n_rep m; n_treat] |}) m)
  end.

(** [self._smpls[self._i_rep]] (460-464): None is not subscriptable. *)
Definition smpls_rep {A} (o : option (list A)) (r : nat) : result A :=
  match o with
  | None => Err TypeError
  | Some l => match nth_error l r with Some x => Ok x | None => Err IndexError end
  end.

(** One value of the losses (1104-1128): over the rows with a target; nan if
    there is none.  nan predictions propagate in numpy.nanmean as missing rows
    as well. *)
Definition paired (pred target : nat -> option R) : list (R * R) :=
  flat_map (fun i => match pred i, target i with Some p, Some y => [(p, y)] | _, _ => [] end) (seq 0 n).
Definition loss_value (classifier : bool) (pred : nat -> option R) (target : option (nat -> option R)) : option R :=
  match target with
  | None => None
  | Some tg =>
      match paired pred tg with
      | [] => None
      | l => Some (if classifier
                   then - Rmean (map (fun p => let q := rclip (1 / 10 ^ 15) (1 - 1 / 10 ^ 15) (fst p) in
                                               snd p * ln q + (1 - snd p) * ln (1 - q)) l)
                   else sqrt (Rmean (map (fun p => (snd p - fst p) ^ 2) l)))
      end
  end.

(** Update one entry of a dictionary of buffers, for every learner name. *)
Definition dict_write (names : list string) (d : string -> buf) (u : string -> buf -> result buf) : result (string -> buf) :=
  fold_left (fun acc l => let! d := acc in let! b := u l (d l) in Ok (fun k => if String.eqb k l then b else d k)) names (Ok d).
Definition update_dict (get : dml P -> option (string -> buf)) (put : option (string -> buf) -> dml P -> dml P)
  (u : string -> buf -> result buf) : act unit :=
  d <- lift (fun w => match get (w_obj w) with
                      | None => Err TypeError
                      | Some d => dict_write (c_learners C) d u end) ;;
  assign (put (Some d)).

(** [_fit_nuisance_and_score_elements] (1015-1034). *)
Definition fit_nuisance (store : bool) (ext : ext_arg) (r t : nat) : act nuis_out :=
  let treat := nth t (c_dcols C) EmptyString in
  ed <- lift (fun _ => set_external ext (c_learners C) treat r) ;;
  no <- lift (fun w => let m := w_obj w in
        let! fs := smpls_rep (m_smpls m) r in
        c_nuis C r t fs (fun l => nth r (m_params m l treat) None) ed) ;;
  (* _set_score_elements (1400-1414) *)
  w <- lift (fun w => Ok w) ;;
  pa <- lift (fun w => b_col r t (fun i => Some (no_a no i)) (m_psi_a (w_obj w))) ;;
  assign (fun m => with_elements pa (m_psi_b m) m) ;;;
  pb <- lift (fun w => b_col r t (fun i => Some (no_b no i)) (m_psi_b (w_obj w))) ;;
  assign (fun m => with_elements (m_psi_a m) pb m) ;;;
  update_dict m_loss with_loss (fun l b => b_set [r; t] (loss_value (c_classifier C l) (no_preds no l) (no_targets no l)) b) ;;;
  (if store then
     update_dict m_preds (fun d m => with_predictions d (m_targets m) m) (fun l b => b_col r t (no_preds no l) b) ;;;
     update_dict m_targets (fun d m => with_predictions (m_preds m) d m)
       (fun l b => b_col r t (match no_targets no l with Some v => v | None => fun _ => None end) b)
   else ret tt) ;;;
  ret no.

(** Cluster arguments of repetition r (1312-1342). *)
Definition cluster_args_of (m : dml P) (r : nat) : result (option cluster_args) :=
  match c_cluster C with
  | None => Ok None
  | Some cv =>
      let! fs := smpls_rep (m_smpls m) r in
      let! sc := smpls_rep (m_smpls_cluster m) r in
      Ok (Some {| ca_vars := cv; ca_smpls := fs; ca_smpls_cluster := sc; ca_n_folds_per_cluster := m_nfpc m |})
  end.

(** [_solve_score_and_estimate_se] (1036-1053) for a linear score. *)
Definition solve_score (r t : nat) : act unit :=
  w <- lift (fun w => Ok w) ;;
  let m := w_obj w in
  coef <- lift (fun w => let m := w_obj w in
      let! cl := cluster_args_of m r in
      Ok (lin_est_coef n (col_of (m_psi_a m) r t) (col_of (m_psi_b m) r t) cl)) ;;
  hwrite (m_all_coef m) (b_set [t; r] (Some coef)) ;;;
  psi <- lift (fun w => let m := w_obj w in
      b_col r t (fun i => Some (lin_score (col_of (m_psi_a m) r t) (col_of (m_psi_b m) r t) (oget (b_at (hget (w_heap w) (m_all_coef m)) [t; r])) i)) (m_psi m)) ;;
  assign (fun m => with_psi psi (m_psi_deriv m) m) ;;;
  dpsi <- lift (fun w => let m := w_obj w in b_col r t (fun i => Some (col_of (m_psi_a m) r t i)) (m_psi_deriv m)) ;;
  assign (fun m => with_psi (m_psi m) dpsi m) ;;;
  sv <- lift (fun w => let m := w_obj w in
      let! cl := cluster_args_of m r in
      var_est n (col_of (m_psi m) r t) (col_of (m_psi_deriv m) r t) cl) ;;
  hwrite (m_all_se m) (b_set [t; r] (Some (sqrt (fst sv)))) ;;;
  hwrite (m_vs m) (b_set [t] (Some (snd sv))).

(** [_fit_sensitivity_elements] (1055-1062, 1461-1478). *)
Definition write_sens (r t : nat) (o : sens_out) (s : sens_bufs) : result sens_bufs :=
  let! a := b_col r t (fun _ => Some (so_sigma2 o)) (sb_sigma2 s) in
  let! b := b_col r t (fun _ => Some (so_nu2 o)) (sb_nu2 s) in
  let! c := b_col r t (fun i => Some (so_psi_sigma2 o i)) (sb_psi_sigma2 s) in
  let! d := b_col r t (fun i => Some (so_psi_nu2 o i)) (sb_psi_nu2 s) in
  let! e := b_col r t (fun i => Some (so_rr o i)) (sb_rr s) in
  Ok {| sb_sigma2 := a; sb_nu2 := b; sb_psi_sigma2 := c; sb_psi_nu2 := d; sb_rr := e |}.
Definition fit_sensitivity (no : nuis_out) (r t : nat) : act unit :=
  match c_sens C with
  | None => ret tt
  | Some est =>
      s <- lift (fun w => let m := w_obj w in
         match m_sens m with
         | None => Err TypeError
         | Some s => write_sens r t (est r t no (oget (b_at (hget (w_heap w) (m_all_coef m)) [t; r]))) s
         end) ;;
      assign (with_sens (Some s))
  end.

(** [_validate_sensitivity_elements] (1439-1459) for one treatment: if the
    estimate is not positive in some repetition, all repetitions get the mean of
    the squared Riesz representer, and the squares themselves as [psi_nu2]. *)
Definition validate_treat (n_rep t : nat) (s : sens_bufs) : sens_bufs :=
  if existsb (fun r => match b_at (sb_nu2 s) [0%nat; r; t] with Some x => rleb x 0 | None => false end) (seq 0 n_rep) then
    {| sb_sigma2 := sb_sigma2 s;
       sb_nu2 := mk_buf (b_shape (sb_nu2 s)) (fun i => match i with
          | [0%nat; r; t'] => if Nat.eqb t' t then Some (meanf n (fun k => (col_of (sb_rr s) r t k) ^ 2)) else b_at (sb_nu2 s) i
          | _ => b_at (sb_nu2 s) i end);
       sb_psi_sigma2 := sb_psi_sigma2 s;
       sb_psi_nu2 := mk_buf (b_shape (sb_psi_nu2 s)) (fun i => match i with
          | [k; r; t'] => if Nat.eqb t' t then Some ((col_of (sb_rr s) r t k) ^ 2) else b_at (sb_psi_nu2 s) i
          | _ => b_at (sb_psi_nu2 s) i end);
       sb_rr := sb_rr s |}
  else s.
Definition validate_sens (n_rep : nat) (s : sens_bufs) : sens_bufs :=
  fold_left (fun s t => validate_treat n_rep t s) (seq 0 n_treat) s.

(** [_compute_sensitivity_bias] (utils/_sensitivity.py:4-7) after the transposition
    to (1 or n_obs, n_coefs, n_rep) (double_ml.py:563-570). *)
Definition sens_dict (n_rep : nat) (s : sens_bufs) : sens_in :=
  let g := fun (b : buf) i t r => oget (b_at b [i; r; t]) in
  let mb := fun t r => sqrt (g (sb_sigma2 s) 0%nat t r * g (sb_nu2 s) 0%nat t r) in
  {| si_max_bias := Val (mk3 1 n_treat n_rep (fun _ => mb));
     si_psi_max_bias := Val (mk3 n n_treat n_rep (fun i t r =>
        (g (sb_sigma2 s) 0%nat t r * g (sb_psi_nu2 s) i t r + g (sb_nu2 s) 0%nat t r * g (sb_psi_sigma2 s) i t r) / (2 * mb t r)));
     si_sigma2 := Val (mk3 1 n_treat n_rep (fun _ => g (sb_sigma2 s) 0%nat));
     si_nu2 := Val (mk3 1 n_treat n_rep (fun _ => g (sb_nu2 s) 0%nat)) |}.

(** The dictionary built by [construct_framework] (537-599). *)
Definition framework_dict (w : world P) : fw_dict :=
  let m := w_obj w in
  let h := w_heap w in
  let nr := m_n_rep m in
  {| k_thetas := Val (b_nd (m_coef m)); k_ses := Val (b_nd (m_se m));
     k_all_thetas := Val (b_nd (hget h (m_all_coef m))); k_all_ses := Val (b_nd (hget h (m_all_se m)));
     k_vs := Val (b_nd (hget h (m_vs m)));
     k_scaled_psi := Val (mk3 n n_treat nr (fun i t r => col_of (m_psi m) r t i / meanf n (col_of (m_psi_deriv m) r t)));
     k_is_cluster := Val (is_some (c_cluster C));
     k_cluster := match c_cluster C with
                  | None => Absent
                  | Some cv => Val {| ci_smpls := m_smpls m; ci_smpls_cluster := m_smpls_cluster m; ci_vars := Some cv;
                                      ci_n_folds_per_cluster := Some (m_nfpc m) |}
                  end;
     k_sens := match c_sens C with
               | None => Absent
               | Some _ => match m_sens m with Some s => Val (sens_dict nr s) | None => Wrong end
               end;
     k_names := Val (map Some (c_dcols C)) |}.
Definition construct_framework : act unit :=
  base <- lift (fun w => mk_framework (Some (framework_dict w))) ;;
  w <- lift (fun w => Ok w) ;;
  let m := w_obj w in
  k <- fw_alloc {| fo_base := base; fo_all_thetas := m_all_coef m; fo_all_ses := m_all_se m; fo_vs := m_vs m |} ;;
  assign (with_fw (Some k)).

(** [fit] (473-535). *)
Definition fit_step (store : bool) (ext : ext_arg) (r t : nat) : act unit :=
  no <- fit_nuisance store ext r t ;;
  solve_score r t ;;;
  fit_sensitivity no r t.
Definition finish_fit : act unit :=
  w <- lift (fun w => Ok w) ;;
  let m := w_obj w in
  let agg := aggregate_coefs_and_ses (b_nd (hget (w_heap w) (m_all_coef m))) (b_nd (hget (w_heap w) (m_all_se m)))
                                     (b_nd (hget (w_heap w) (m_vs m))) in
  assign (with_coef (nd_b (fst agg)) (nd_b (snd agg))) ;;;
  (match c_sens C with
   | None => ret tt
   | Some _ => s <- lift (fun w => match m_sens (w_obj w) with Some s => Ok s | None => Err TypeError end) ;;
               assign (fun m => with_sens (Some (validate_sens (m_n_rep m) s)) m)
   end) ;;;
  construct_framework.
Definition fit (n_jobs store : pyval) (ext : ext_arg) (store_models : pyval) : act unit :=
  check_fit n_jobs store ext store_models ;;;
  let st := match store with PBool b => b | _ => false end in
  initialize_fit st ;;;
  w <- lift (fun w => Ok w) ;;
  for_ (seq 0 (m_n_rep (w_obj w))) (fun r => for_ (seq 0 n_treat) (fun t => fit_step st ext r t)) ;;;
  finish_fit.

(** ** Methods delegated to the framework (600-676, 1480-1621) *)
Definition with_framework {A} (k : fwobj -> nat -> act A) : act A :=
  w <- lift (fun w => Ok w) ;;
  match m_fw (w_obj w) with
  | None => raise ValueError
  | Some i => match nth_error (w_fws w) i with Some o => k o i | None => raise RuntimeError end
  end.
(** The framework's method acts on the shared framework object. *)
Definition fw_method {A} (meth : meth A) : act A :=
  with_framework (fun o i w =>
    let '(f', res) := meth (fw_view (w_heap w) o) in
    ({| w_heap := w_heap w;
        w_fws := set_nth i {| fo_base := f'; fo_all_thetas := fo_all_thetas o; fo_all_ses := fo_all_ses o; fo_vs := fo_vs o |} (w_fws w);
        w_obj := w_obj w |}, res)).
Definition obj_bootstrap (weights : nat -> nat -> nat -> R) (method n_rep_boot : pyval) : act unit :=
  fw_method (bootstrap_m weights method n_rep_boot).
Definition obj_sensitivity (ppf : R -> R) (minimize : (R -> R) -> R) (cf_y cf_d rho level null : pyval) : act unit :=
  fw_method (sensitivity_analysis_m ppf minimize cf_y cf_d rho level null).
Definition obj_confint (ppf : R -> R) (joint level : pyval) : act nd :=
  fw_method (m_lift (fun f => confint ppf f joint level)).
Definition obj_p_adjust (cdf : R -> R) (argsort : list R -> list nat) (mt : list R -> result (list R)) (method : pyval) (is_rw : bool) : act nd :=
  fw_method (m_lift (fun f => let! p := p_adjust cdf argsort mt f method is_rw in Ok (fst p))).
(** [summary] (427-443): empty when all estimates are nan. *)
Definition obj_summary (ppf cdf : R -> R) : act (option (list (R * R * R * R) * nd)) :=
  w <- lift (fun w => Ok w) ;;
  let m := w_obj w in
  if forallb (fun t => match b_at (m_coef m) [t] with None => true | _ => false end) (seq 0 n_treat) then ret None
  else
    ci <- obj_confint ppf (PBool false) (PFloat (95 / 100)) ;;
    ret (Some (map (fun t => let c := oget (b_at (m_coef m) [t]) in let s := oget (b_at (m_se m) [t]) in
                             (c, s, model_t_stat c s, model_pval cdf c s)) (seq 0 n_treat), ci)).

(** [evaluate_learners] (1134-1204); [metric pred target] is the user's callable
    (None: the value is not finite).  A list of learners that is not a subset of
    the names raises. *)
Definition evaluate_learners (learners : option (list string)) (metric : (nat -> option R) -> (nat -> option R) -> option R)
  : act (list (string * list (list R))) :=
  let ls := match learners with None => c_learners C | Some l => l end in
  lift (fun w => let m := w_obj w in
    require (forallb (fun l => smem l (c_learners C)) ls) ValueError (
    match m_targets m, m_preds m with
    | Some tg, Some pr =>
        map_res (fun l =>
          let! vals := map_res (fun r => map_res (fun t =>
             match metric (fun i => b_at (pr l) [i; r; t]) (fun i => b_at (tg l) [i; r; t]) with
             | Some v => Ok v | None => Err ValueError end) (seq 0 n_treat)) (seq 0 (m_n_rep m)) in
          Ok (l, vals)) ls
    | _, _ => Err ValueError
    end)).

(** ** Histories of calls; every call may raise and be caught by the user. *)
Inductive op :=
| OFit (n_jobs store : pyval) (ext : ext_arg) (store_models : pyval)
| ODraw (g : rng) (perm : nat -> nat -> list nat -> list nat)
| OSet (s : pysplit) (sc : option (list (list cfold)))
| OParams (learner treat : string) (v : param_arg)
| OBoot (weights : nat -> nat -> nat -> R) (method n_rep_boot : pyval)
| OSens (ppf : R -> R) (minimize : (R -> R) -> R) (cf_y cf_d rho level null : pyval).
Definition run_op (o : op) : act unit :=
  match o with
  | OFit nj st ext sm => fit nj st ext sm
  | ODraw g perm => draw_sample_splitting g perm
  | OSet s sc => set_sample_splitting s sc
  | OParams l t v => set_ml_nuisance_params l t v
  | OBoot wt m nb => obj_bootstrap wt m nb
  | OSens ppf mi a b c d e => obj_sensitivity ppf mi a b c d e
  end.
Fixpoint run (ops : list op) (w : world P) : world P :=
  match ops with [] => w | o :: r => run r (fst (run_op o w)) end.
End Object.
Arguments op : clear implicits.
Arguments param_arg : clear implicits.

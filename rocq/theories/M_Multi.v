(** Model of the wrappers around several sub-models: doubleml/irm/apos.py and
    doubleml/irm/qte.py. *)
From Verif Require Export M_Estimation M_Framework M_Splitting.
Local Open Scope R_scope.
Local Open Scope res_scope.

(** Sensitivity elements of a fitted one-parameter model per repetition:
    sigma2, nu2 and their influence components (double_ml.py:_sensitivity_elements). *)
Record sens4 := { s4_sigma2 : nat -> R; s4_nu2 : nat -> R; s4_psi_sigma2 : nat -> nat -> R; s4_psi_nu2 : nat -> nat -> R }.

Section Wrapper.
(** [K]: what distinguishes the sub-models (treatment level; or quantile and
    treatment).  [fit_sub t k s]: result of fitting sub-model [k] on split [s] as
    the [t]-th random event; it stands for DoubleMLAPO.fit / DoubleMLPQ.fit on an
    object whose splitting is [s].  [draw t]: the split drawn as [t]-th event. *)
Context {K : Type}.
Variable fit_sub : nat -> K -> list (list fold) -> result (framework * sens4).
Variable draw : nat -> list (list fold).
Variable keys : list K.
(** How the sub-models' frameworks are put together by [fit]. *)
Variable combine : list framework -> result framework.

Record sub := { sb_key : K; sb_smpls : list (list fold); sb_res : option (framework * sens4) }.
(** [wr_models = None]: the attribute does not exist yet (draw_sample_splitting=False). *)
Record wrapper := { wr_smpls : option (list (list fold)); wr_models : option (list sub); wr_fw : option framework; wr_tick : nat }.

(** [_initialize_models] (apos.py:882-905, qte.py:607-641): new sub-models, each
    with its splitting set to the wrapper's. *)
Definition init_models (s : list (list fold)) : list sub := map (fun k => {| sb_key := k; sb_smpls := s; sb_res := None |}) keys.

(** [draw_sample_splitting]: apos.py:628-644 does not touch the sub-models,
    qte.py:445-463 rebuilds them. *)
Definition apos_draw (w : wrapper) : wrapper :=
  {| wr_smpls := Some (draw (wr_tick w)); wr_models := wr_models w; wr_fw := wr_fw w; wr_tick := S (wr_tick w) |}.
Definition qte_draw (w : wrapper) : wrapper :=
  {| wr_smpls := Some (draw (wr_tick w)); wr_models := Some (init_models (draw (wr_tick w))); wr_fw := wr_fw w; wr_tick := S (wr_tick w) |}.
(** [set_sample_splitting] (apos.py:646-702, qte.py:465-530) after the check of
    the argument; a rejected argument raises before any assignment. *)
Definition wr_set (r : result (list (list fold))) (w : wrapper) : wrapper * result unit :=
  match r with
  | Err e => (w, Err e)
  | Ok s => ({| wr_smpls := Some s; wr_models := Some (init_models s); wr_fw := wr_fw w; wr_tick := wr_tick w |}, Ok tt)
  end.
(** Constructors (apos.py:89-95, qte.py:148-153). *)
Definition wr_empty : wrapper := {| wr_smpls := None; wr_models := None; wr_fw := None; wr_tick := 0 |}.
Definition apos_new (draw_now : bool) : wrapper :=
  if draw_now then let w := apos_draw wr_empty in
    {| wr_smpls := wr_smpls w; wr_models := Some (init_models (draw 0)); wr_fw := None; wr_tick := wr_tick w |}
  else wr_empty.
Definition qte_new (draw_now : bool) : wrapper := if draw_now then qte_draw wr_empty else wr_empty.

(** Fitting the sub-models one after the other (n_jobs_models=None); one that
    raises keeps its former results, earlier ones have already been refitted. *)
Fixpoint fit_subs (t : nat) (l : list sub) : list sub * result unit :=
  match l with
  | [] => ([], Ok tt)
  | m :: r =>
      match fit_sub t (sb_key m) (sb_smpls m) with
      | Err e => (m :: r, Err e)
      | Ok f => let (r', o) := fit_subs (S t) r in
                ({| sb_key := sb_key m; sb_smpls := sb_smpls m; sb_res := Some f |} :: r', o)
      end
  end.
(** The frameworks of a list of sub-models, [None] if one is not fitted. *)
Definition sub_frameworks (l : list sub) : option (list framework) :=
  all_some (map (fun m => match sb_res m with Some (f, _) => Some f | None => None end) l).
(** [fit] (apos.py:386-409, qte.py:396-420). *)
Definition wr_fit (w : wrapper) : wrapper * result unit :=
  match wr_models w with
  | None => (w, Err AttributeError)
  | Some l =>
      let (l', o) := fit_subs (wr_tick w) l in
      let w' := {| wr_smpls := wr_smpls w; wr_models := Some l'; wr_fw := wr_fw w; wr_tick := wr_tick w + length l |} in
      match o with
      | Err e => (w', Err e)
      | Ok _ =>
          match sub_frameworks l' with
          | None => (w', Err TypeError)
          | Some fs =>
              match combine fs with
              | Err e => (w', Err e)
              | Ok f => ({| wr_smpls := wr_smpls w; wr_models := Some l'; wr_fw := Some f; wr_tick := wr_tick w + length l |}, Ok tt)
              end
          end
      end
  end.

(** Calls of a user. *)
Inductive wop := WDraw | WSet (r : result (list (list fold))) | WFit.
Definition wstep (dr : wrapper -> wrapper) (w : wrapper) (o : wop) : wrapper :=
  match o with WDraw => dr w | WSet r => fst (wr_set r w) | WFit => fst (wr_fit w) end.
Definition apos_run := fold_left (wstep apos_draw).
Definition qte_run := fold_left (wstep qte_draw).
End Wrapper.

(** APOS: [concat] of the levels' frameworks (apos.py:407).  QTE: per quantile
    treated minus control, then [concat] (qte.py:409-418); the list alternates
    control and treated. *)
Definition apos_combine (fs : list framework) : result framework := fw_concat (map OpFw fs).
Fixpoint qte_differences (fs : list framework) : result (list framework) :=
  match fs with
  | f0 :: f1 :: r => let! d := fw_sub f1 (OpFw f0) in let! ds := qte_differences r in Ok (d :: ds)
  | _ => Ok []
  end.
Definition qte_combine (fs : list framework) : result framework :=
  let! ds := qte_differences fs in fw_concat (map OpFw ds).

(** ** Causal contrasts (apos.py:704-763) *)
(** [list.index]. *)
Fixpoint zindex (x : Z) (l : list Z) : nat :=
  match l with [] => 0%nat | y :: r => if Z.eqb x y then 0%nat else S (zindex x r) end.
(** The loop over the reference levels with [skip_index] (737-757); yields pairs
    (index of the level, index of the reference). *)
Fixpoint contrast_loop (n : nat) (levels : list Z) (refs : list Z) (skip : list nat) : list (nat * nat) :=
  match refs with
  | [] => []
  | r :: rest =>
      let j := zindex r levels in
      let skip' := j :: skip in
      map (fun i => (i, j)) (filter (fun i => negb (nmem i skip')) (seq 0 n)) ++ contrast_loop n levels rest skip'
  end.
(** [_compute_causal_contrast_sensitivity_dict] (apos.py:779-809); arrays of
    shape (1, 1, n_rep) and (n_obs, 1, n_rep). *)
Definition contrast_sens (n_obs n_rep : nat) (a b : sens4) : sens_in :=
  let s2 := fun r => (s4_sigma2 a r + s4_sigma2 b r) / 2 in
  let n2 := fun r => s4_nu2 a r + s4_nu2 b r in
  let ps2 := fun i r => (s4_psi_sigma2 a i r + s4_psi_sigma2 b i r) / 2 in
  let pn2 := fun i r => s4_psi_nu2 a i r + s4_psi_nu2 b i r in
  let mb := fun r => sqrt (s2 r * n2 r) in
  {| si_max_bias := Val (mk3 1 1 n_rep (fun _ _ r => mb r));
     si_psi_max_bias := Val (mk3 n_obs 1 n_rep (fun i _ r => (s2 r * pn2 i r + n2 r * ps2 i r) / (2 * mb r)));
     si_sigma2 := Val (mk3 1 1 n_rep (fun _ _ r => s2 r)); si_nu2 := Val (mk3 1 1 n_rep (fun _ _ r => n2 r)) |}.
(** [_check_and_set_sensitivity_elements] on an existing framework
    (double_ml_framework.py:948-982): no shape check. *)
Definition set_sens (f : framework) (s : sens_in) : result framework :=
  let! se := check_sens {| k_thetas := Absent; k_ses := Absent; k_all_thetas := Absent; k_all_ses := Absent; k_vs := Absent;
     k_scaled_psi := Absent; k_is_cluster := Absent; k_cluster := Absent; k_sens := Val s; k_names := Absent |} in
  Ok {| fw_n_obs := fw_n_obs f; fw_n_thetas := fw_n_thetas f; fw_n_rep := fw_n_rep f; fw_thetas := fw_thetas f; fw_ses := fw_ses f;
        fw_all_thetas := fw_all_thetas f; fw_all_ses := fw_all_ses f; fw_vs := fw_vs f; fw_scaled_psi := fw_scaled_psi f;
        fw_cluster := fw_cluster f; fw_sens := se; fw_names := fw_names f; fw_boot := fw_boot f; fw_sens_params := fw_sens_params f |}.
(** [treatment_names] setter (double_ml_framework.py:221-224). *)
Definition set_names (f : framework) (l : list string) : result framework :=
  let! nm := check_names (fw_n_thetas f) (Val (map Some l)) in
  Ok {| fw_n_obs := fw_n_obs f; fw_n_thetas := fw_n_thetas f; fw_n_rep := fw_n_rep f; fw_thetas := fw_thetas f; fw_ses := fw_ses f;
        fw_all_thetas := fw_all_thetas f; fw_all_ses := fw_all_ses f; fw_vs := fw_vs f; fw_scaled_psi := fw_scaled_psi f;
        fw_cluster := fw_cluster f; fw_sens := fw_sens f; fw_names := nm; fw_boot := fw_boot f; fw_sens_params := fw_sens_params f |}.
(** One contrast: [model.framework - ref_model.framework] with the sensitivity
    elements replaced (749-755).  Unfitted sub-models have framework None:
    TypeError. *)
Definition one_contrast (models : list (option (framework * sens4))) (p : nat * nat) : result framework :=
  match nth (fst p) models None, nth (snd p) models None with
  | Some (f, a), Some (g, b) => let! d := fw_sub f (OpFw g) in set_sens d (contrast_sens (fw_n_obs f) (fw_n_rep f) a b)
  | _, _ => Err TypeError
  end.
(** The argument: a single level or an iterable of levels. *)
Inductive refs_arg := RefOne (z : Z) | RefList (l : list Z).
Definition refs_list (r : refs_arg) : list Z := match r with RefOne z => [z] | RefList l => l end.
(** [f"{level} vs {ref}"]; [show] is Python's formatting of a level. *)
Definition contrast_name (show : Z -> string) (levels : list Z) (p : nat * nat) : string :=
  (show (nth (fst p) levels 0%Z) ++ " vs " ++ show (nth (snd p) levels 0%Z))%string.
(** [causal_contrast].  [fw]: the wrapper's framework; levels are numbers,
    represented by integers. *)
Definition causal_contrast (show : Z -> string) (levels : list Z) (fw : option framework)
    (models : list (option (framework * sens4))) (arg : refs_arg) : result framework :=
  match fw with
  | None => Err ValueError
  | Some _ =>
      require (negb (Nat.eqb (length levels) 1)) ValueError (
      let refs := refs_list arg in
      require (forallb (fun r => zmem r levels) refs) ValueError (
      let pairs := contrast_loop (length models) levels refs [] in
      let! fs := map_res (one_contrast models) pairs in
      let! acc := fw_concat (map OpFw fs) in
      set_names acc (map (contrast_name show levels) pairs)))
  end.

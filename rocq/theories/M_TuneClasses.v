(** Hyperparameter tuning of the remaining model classes: [_nuisance_tuning] of
    APO, IIVM, DID, DIDCS, PLIV, SSM, LPQ and CVaR.

    Simplifications.
    - [search lrn name k data] is the fitted search object of the call for
      nuisance function [name] on the k-th training set; it uses the learner,
      the grid and the scoring method under the key [lrn].
    - The returned dictionary of search objects is a list. *)
From Verif Require Export M_Tune M_Nuis.
Local Open Scope R_scope.
Local Open Scope string_scope.
Local Open Scope res_scope.

Section Classes.
Context {P S : Type}.
Variable search : string -> string -> nat -> list (row * R) -> result S.
Variable best : S -> P.
Variable spred : S -> row -> R.
Variable n : nat.
Let run (lrn name : string) := dml_tune (search lrn) name.
Let whole (smpls : list fold) : list (list nat) := map fst smpls.
Let part (smpls : list fold) (b : nat -> bool) : list (list nat) := map fst (cond_smpls n b smpls).
Let is_ (v : vec) (r : R) : nat -> bool := fun i => reqb (v i) r.
Let both (a b : nat -> bool) : nat -> bool := fun i => a i && b i.

(** DoubleMLAPO (irm/apo.py:360-425); [lvl]: the treated indicator. *)
Definition apo_tuning (x : nat -> row) (y d lvl : vec) (smpls : list fold) : result (tune_out P (list (list S))) :=
  let! g0 := run "ml_g" "ml_g_d_lvl0" (fun i => d i :: x i) y (part smpls (is_ lvl 0)) in
  let! g1 := run "ml_g" "ml_g_d_lvl1" x y (part smpls (is_ lvl 1)) in
  let! m := run "ml_m" "ml_m" x lvl (whole smpls) in
  Ok {| to_params := [("ml_g_d_lvl0", map best g0); ("ml_g_d_lvl1", map best g1); ("ml_m", map best m)]; to_res := [g0; g1; m] |}.

(** DoubleMLIIVM (irm/iivm.py:438-549).  Without always takers (never takers)
    the entry of ml_r0 (ml_r1) is a list of None, which no fit reads; it is left
    out here. *)
Definition iivm_tuning (at_ nt : bool) (x : nat -> row) (y z d : vec) (smpls : list fold) : result (tune_out P (list (list S))) :=
  let! g0 := run "ml_g" "ml_g0" x y (part smpls (is_ z 0)) in
  let! g1 := run "ml_g" "ml_g1" x y (part smpls (is_ z 1)) in
  let! m := run "ml_m" "ml_m" x z (whole smpls) in
  let! r0 := if at_ then let! r := run "ml_r" "ml_r0" x d (part smpls (is_ z 0)) in Ok [("ml_r0", r)] else Ok [] in
  let! r1 := if nt then let! r := run "ml_r" "ml_r1" x d (part smpls (is_ z 1)) in Ok [("ml_r1", r)] else Ok [] in
  let rs := (r0 ++ r1)%list in
  Ok {| to_params := ([("ml_g0", map best g0); ("ml_g1", map best g1); ("ml_m", map best m)] ++ map (fun p => (fst p, map best (snd p))) rs)%list;
        to_res := ([g0; g1; m] ++ map snd rs)%list |}.

(** DoubleMLDID (did/did.py:370-434). *)
Definition did_tuning (obs : bool) (x : nat -> row) (y d : vec) (smpls : list fold) : result (tune_out P (list (list S))) :=
  let! g0 := run "ml_g" "ml_g0" x y (part smpls (is_ d 0)) in
  let! g1 := run "ml_g" "ml_g1" x y (part smpls (is_ d 1)) in
  if obs then
    let! m := run "ml_m" "ml_m" x d (whole smpls) in
    Ok {| to_params := [("ml_g0", map best g0); ("ml_g1", map best g1); ("ml_m", map best m)]; to_res := [g0; g1; m] |}
  else Ok {| to_params := [("ml_g0", map best g0); ("ml_g1", map best g1)]; to_res := [g0; g1] |}.

(** DoubleMLDIDCS (did/did_cs.py:544-666). *)
Definition cs_tuning (obs : bool) (x : nat -> row) (y d t : vec) (smpls : list fold) : result (tune_out P (list (list S))) :=
  let! g00 := run "ml_g" "ml_g_d0_t0" x y (part smpls (both (is_ d 0) (is_ t 0))) in
  let! g01 := run "ml_g" "ml_g_d0_t1" x y (part smpls (both (is_ d 0) (is_ t 1))) in
  let! g10 := run "ml_g" "ml_g_d1_t0" x y (part smpls (both (is_ d 1) (is_ t 0))) in
  let! g11 := run "ml_g" "ml_g_d1_t1" x y (part smpls (both (is_ d 1) (is_ t 1))) in
  let! m := if obs then let! r := run "ml_m" "ml_m" x d (whole smpls) in Ok [("ml_m", r)] else Ok [] in
  Ok {| to_params := ([("ml_g_d0_t0", map best g00); ("ml_g_d0_t1", map best g01); ("ml_g_d1_t0", map best g10); ("ml_g_d1_t1", map best g11)] ++ map (fun p => (fst p, map best (snd p))) m)%list;
        to_res := ([g00; g01; g10; g11] ++ map snd m)%list |}.

(** DoubleMLSSM (irm/ssm.py:426-511); [zrow]: the instruments, for the
    nonignorable score.  Both scores tune ml_m and ml_g on the covariates. *)
Definition ssm_tuning (zrow : option (nat -> row)) (x : nat -> row) (y d s : vec) (smpls : list fold) : result (tune_out P (list (list S))) :=
  let dx := fun i => match zrow with Some z => (x i ++ [d i] ++ z i)%list | None => (x i ++ [d i])%list end in
  let! g0 := run "ml_g" "ml_g_d0" x y (part smpls (both (is_ d 0) (is_ s 1))) in
  let! g1 := run "ml_g" "ml_g_d1" x y (part smpls (both (is_ d 1) (is_ s 1))) in
  let! pi := run "ml_pi" "ml_pi" dx s (whole smpls) in
  let! m := run "ml_m" "ml_m" x d (whole smpls) in
  Ok {| to_params := [("ml_g_d0", map best g0); ("ml_g_d1", map best g1); ("ml_pi", map best pi); ("ml_m", map best m)]; to_res := [g0; g1; pi; m] |}.

(** DoubleMLPLIV with one instrument (plm/pliv.py:515-629); the preliminary
    estimate divides by the mean of (d - r_hat) (z - m_hat). *)
Definition initial_theta_z (y d z : vec) (l_hat m_hat r_hat : nat -> option R) : R :=
  let res := fun (v : vec) (h : nat -> option R) i => option_map (fun a => v i - a) (h i) in
  let prod := fun (a b : option R) => match a, b with Some u, Some v => Some (u * v) | _, _ => None end in
  let psi_a := fun i => option_map Ropp (prod (res d r_hat i) (res z m_hat i)) in
  let psi_b := fun i => prod (res z m_hat i) (res y l_hat i) in
  - nanmean n psi_b / nanmean n psi_a.
Definition pliv_tuning (iv : bool) (cast_y cast_z cast_d : R -> R) (x : nat -> row) (y d z : vec) (smpls : list fold) : result (tune_out P (list (list S))) :=
  let! lr := run "ml_l" "ml_l" x y (whole smpls) in
  let! mr := run "ml_m" "ml_m" x z (whole smpls) in
  let! rr := run "ml_r" "ml_r" x d (whole smpls) in
  let ps := [("ml_l", map best lr); ("ml_m", map best mr); ("ml_r", map best rr)] in
  if iv then
    let theta := initial_theta_z y d z (train_hat spred cast_y x smpls lr) (train_hat spred cast_z x smpls mr) (train_hat spred cast_d x smpls rr) in
    let! gr := run "ml_g" "ml_g" x (fun i => y i - theta * d i) (whole smpls) in
    Ok {| to_params := (ps ++ [("ml_g", map best gr)])%list; to_res := [lr; mr; rr; gr] |}
  else Ok {| to_params := ps; to_res := [lr; mr; rr] |}.
(** … with several instruments (515-586). *)
Definition pliv_several_tuning (x : nat -> row) (y d : vec) (zs : list (string * vec)) (smpls : list fold) : result (tune_out P (list (list S))) :=
  let! lr := run "ml_l" "ml_l" x y (whole smpls) in
  let! ms := map_res (fun p => let! r := run "ml_m" ("ml_m_" ++ fst p) x (snd p) (whole smpls) in Ok ("ml_m_" ++ fst p, r)) zs in
  let! rr := run "ml_r" "ml_r" x d (whole smpls) in
  Ok {| to_params := ([("ml_l", map best lr); ("ml_r", map best rr)] ++ map (fun p => (fst p, map best (snd p))) ms)%list; to_res := ([lr; rr] ++ map snd ms)%list |}.
(** … partialZ (631-661). *)
Definition pliv_z_tuning (x zrow : nat -> row) (d : vec) (smpls : list fold) : result (tune_out P (list (list S))) :=
  let! rr := run "ml_r" "ml_r" (fun i => (x i ++ zrow i)%list) d (whole smpls) in
  Ok {| to_params := [("ml_r", map best rr)]; to_res := [rr] |}.
(** … partialXZ (663-740): ml_r is tuned for the fitted values of the tuned ml_m
    of the same fold. *)
Definition pliv_xz_tuning (x zrow : nat -> row) (y d : vec) (smpls : list fold) : result (tune_out P (list (list S))) :=
  let xz := fun i => (x i ++ zrow i)%list in
  let! lr := run "ml_l" "ml_l" x y (whole smpls) in
  let! mr := run "ml_m" "ml_m" xz d (whole smpls) in
  let! rr := map_res (fun p => search "ml_r" "ml_r" (fst p) (map (fun i => (x i, spred (snd (snd p)) (xz i))) (fst (fst (snd p))))) (combine (seq 0 (length smpls)) (combine smpls mr)) in
  Ok {| to_params := [("ml_l", map best lr); ("ml_m", map best mr); ("ml_r", map best rr)]; to_res := [lr; mr; rr] |}.

(** DoubleMLLPQ (irm/lpq.py:556-657) and DoubleMLCVAR (irm/cvar.py:328-379):
    targets built from the quantile of all treated rows. *)
Definition crude_quantile (q treatment : R) (y d : vec) : R := quantile (map y (filter (fun j => reqb (d j) treatment) (seq 0 n))) q.
Definition lpq_tuning (q treatment : R) (x : nat -> row) (y z d : vec) (smpls : list fold) : result (tune_out P (list (list S))) :=
  let du := fun i => if reqb (d i) treatment && rleb (y i) (crude_quantile q treatment y d) then 1 else 0 in
  let! mz := run "ml_m_z" "ml_m_z" x z (whole smpls) in
  let! m0 := run "ml_m_d_z0" "ml_m_d_z0" x d (part smpls (is_ z 0)) in
  let! m1 := run "ml_m_d_z1" "ml_m_d_z1" x d (part smpls (is_ z 1)) in
  let! g0 := run "ml_g_du_z0" "ml_g_du_z0" x du (part smpls (is_ z 0)) in
  let! g1 := run "ml_g_du_z1" "ml_g_du_z1" x du (part smpls (is_ z 1)) in
  Ok {| to_params := [("ml_m_z", map best mz); ("ml_m_d_z0", map best m0); ("ml_m_d_z1", map best m1); ("ml_g_du_z0", map best g0); ("ml_g_du_z1", map best g1)]; to_res := [mz; m0; m1; g0; g1] |}.
Definition cvar_tuning (q treatment : R) (x : nat -> row) (y d : vec) (smpls : list fold) : result (tune_out P (list (list S))) :=
  let qa := crude_quantile q treatment y d in
  let goal := fun i => Rmax qa ((y i - q * qa) / (1 - q)) in
  let! g := run "ml_g" "ml_g" x goal (part smpls (is_ d treatment)) in
  let! m := run "ml_m" "ml_m" x d (whole smpls) in
  Ok {| to_params := [("ml_g", map best g); ("ml_m", map best m)]; to_res := [g; m] |}.
End Classes.

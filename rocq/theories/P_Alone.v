(** C103: each of several treatments is estimated as if it were the only one. *)
From Verif Require Import L_AloneWitness.
From Coq Require Import Lia Lra.
Local Open Scope R_scope.
Local Open Scope string_scope.

(** Partially linear model. *)
Theorem C103_plr : forall (E P : Type) (L : learner E row P) f g rd rd' fr s s' t c ml_l ml_m ml_g ml_g' nf nf' nr nr' draw draw' C C' w0 w0' w w' nj nj' store store' ext ext' smod smod' w1 w1',
  let n := M_Data.frows fr in let dcols := M_Data.r_d (M_Data.dd_roles s) in
  S_Data.reachable fr s -> unclustered s -> sound_randomness rd -> (0 < n)%nat -> S_Data.reachable fr s' -> unclustered s' -> sound_randomness rd' ->
  plr_init L rd fr s ml_l ml_m ml_g nf nr (PStr "partialling out") draw = Ok (C, w0) -> later C w0 w -> reliable L f g rd w ->
  plr_init L rd' fr s' ml_l ml_m ml_g' nf' nr' (PStr "partialling out") draw' = Ok (C', w0') -> later C' w0' w' -> reliable L f g rd' w' ->
  nth_error dcols t = Some c -> alone s w c s' w' -> (forall k, In k dcols -> labels_seen L g (ly_classifier ml_m) w n (col fr k) everyone) ->
  fit C nj store ext smod w = (w1, Ok tt) -> fit C' nj' store' ext' smod' w' = (w1', Ok tt) ->
  exists mc F F' sm, runs_on mc "ml_m" ml_m (ly_classifier ml_m) /\ fit_done w w1 F sm (length dcols) /\ fit_done w' w1' F' sm 1 /\
    ((forall r, (r < length sm)%nat -> alone_at F F' t r) -> alone_overall F F' t) /\
    forall r fs, nth_error sm r = Some fs -> matched w w' ext ext' c "ml_l" c "ml_l" r -> matched w w' ext ext' c "ml_m" c "ml_m" r ->
      exists m, used_prediction L f g mc w n ext r t c "ml_m" "ml_m" (covariates fr s c) (col fr c) whole_train fs m /\
        (sumf n (fun i => (col fr c i - m i) ^ 2) <> 0 -> alone_at F F' t r).
Proof. exact plr_alone. Qed.
Print Assumptions C103_plr.

(** Partially linear IV model with one instrument. *)
Theorem C103_pliv : forall (E P : Type) (L : learner E row P) f g rd rd' fr s s' t c zc proj proj' ml_l ml_m ml_r ml_g ml_g' nf nf' nr nr' draw draw' C C' w0 w0' w w' nj nj' store store' ext ext' smod smod' w1 w1',
  let n := M_Data.frows fr in let dcols := M_Data.r_d (M_Data.dd_roles s) in
  S_Data.reachable fr s -> unclustered s -> sound_randomness rd -> (0 < n)%nat -> S_Data.reachable fr s' -> unclustered s' -> sound_randomness rd' ->
  M_Data.r_z (M_Data.dd_roles s) = Some [zc] -> M_Data.r_z (M_Data.dd_roles s') = Some [zc] ->
  pliv_init L rd fr s proj ml_l ml_m ml_r ml_g nf nr (PStr "partialling out") draw = Ok (C, w0) -> later C w0 w -> reliable L f g rd w ->
  pliv_init L rd' fr s' proj' ml_l ml_m ml_r ml_g' nf' nr' (PStr "partialling out") draw' = Ok (C', w0') -> later C' w0' w' -> reliable L f g rd' w' ->
  nth_error dcols t = Some c -> alone s w c s' w' ->
  fit C nj store ext smod w = (w1, Ok tt) -> fit C' nj' store' ext' smod' w' = (w1', Ok tt) ->
  exists mc F F' sm, runs_on mc "ml_m" ml_m false /\ runs_on mc "ml_r" ml_r false /\ fit_done w w1 F sm (length dcols) /\ fit_done w' w1' F' sm 1 /\
    ((forall r, (r < length sm)%nat -> alone_at F F' t r) -> alone_overall F F' t) /\
    forall r fs, nth_error sm r = Some fs -> matched w w' ext ext' c "ml_l" c "ml_l" r -> matched w w' ext ext' c "ml_m" c "ml_m" r -> matched w w' ext ext' c "ml_r" c "ml_r" r ->
      exists m q, used_prediction L f g mc w n ext r t c "ml_m" "ml_m" (covariates fr s c) (col fr zc) whole_train fs m /\ used_prediction L f g mc w n ext r t c "ml_r" "ml_r" (covariates fr s c) (col fr c) whole_train fs q /\
        (sumf n (fun i => (col fr zc i - m i) * (col fr c i - q i)) <> 0 -> alone_at F F' t r).
Proof. exact pliv_alone. Qed.
Print Assumptions C103_pliv.

(** Two fitted objects: treatments d and e; then e alone, with d as a covariate. *)
Example C103_case_two_treatments : alone_case.
Proof. exact alone_holds. Qed.

(** Properties of the losses of the nuisance functions: C87. *)
From Verif Require Import L_LossEnd L_LossMore L_LossWitness.
Local Open Scope R_scope.
Local Open Scope string_scope.

(** ** C87: reported losses compare the predictions in use with what they predict *)
(** Partially linear regression, partialling out. *)
Theorem C87_partially_linear : forall (E P : Type) (L : learner E row P) f g rd fr s ml_l ml_m ml_g nf nr draw C w0 w nj store ext smod w',
  S_Data.reachable fr s -> proper_clusters s -> sound_randomness rd ->
  plr_init L rd fr s ml_l ml_m ml_g nf nr (PStr "partialling out") draw = Ok (C, w0) -> later C w0 w ->
  exists mc, mc_order mc = rd_order rd /\ runs_on mc "ml_l" ml_l false /\ runs_on mc "ml_m" ml_m (ly_classifier ml_m) /\
  let n := M_Data.frows fr in let dcols := M_Data.r_d (M_Data.dd_roles s) in let y := outcome fr s in
  (sound_learning L f g mc w ->
  (forall c, In c dcols -> labels_everywhere L g mc w n "ml_m" (col fr c) everyone) -> (ly_classifier ml_m = true -> forall c, In c dcols -> labels_01 n (col fr c)) ->
  fit C nj store ext smod w = (w', Ok tt) ->
  forall sm r t fs c, m_smpls (w_obj w) = Some sm -> nth_error sm r = Some fs -> nth_error dcols t = Some c -> let x := covariates fr s c in let d := col fr c in exists l m,
    used_prediction L f g mc w n ext r t c "ml_l" "ml_l" x y whole_train fs l /\ loss_reported w' r t ext c "ml_l" (ly_classifier ml_l) n l y everyone /\
    used_prediction L f g mc w n ext r t c "ml_m" "ml_m" x d whole_train fs m /\ loss_reported w' r t ext c "ml_m" (ly_classifier ml_m) n m d everyone).
Proof. exact @plr_loss. Qed.
Print Assumptions C87_partially_linear.

(** Score "IV-type": "ml_l" is evaluated only if "ml_g" is estimated, which is
    compared with the residual outcome. *)
Theorem C87_partially_linear_iv : forall (E P : Type) (L : learner E row P) f g rd fr s ml_l ml_m ml_g nf nr draw C w0 w nj store ext smod w',
  S_Data.reachable fr s -> proper_clusters s -> sound_randomness rd ->
  plr_init L rd fr s ml_l ml_m ml_g nf nr (PStr "IV-type") draw = Ok (C, w0) -> later C w0 w ->
  exists mc, mc_order mc = rd_order rd /\ runs_on mc "ml_l" ml_l false /\ runs_on mc "ml_m" ml_m (ly_classifier ml_m) /\ mc_learner mc "ml_g" = match ml_g with Some l => ly_obj l | None => ln_clone L (ly_obj ml_l) end /\
  let n := M_Data.frows fr in let dcols := M_Data.r_d (M_Data.dd_roles s) in let y := outcome fr s in
  (sound_learning L f g mc w ->
  (forall c, In c dcols -> labels_everywhere L g mc w n "ml_m" (col fr c) everyone) -> (ly_classifier ml_m = true -> forall c, In c dcols -> labels_01 n (col fr c)) ->
  fit C nj store ext smod w = (w', Ok tt) ->
  forall sm r t fs c, m_smpls (w_obj w) = Some sm -> nth_error sm r = Some fs -> nth_error dcols t = Some c -> let x := covariates fr s c in let d := col fr c in exists m,
    used_prediction L f g mc w n ext r t c "ml_m" "ml_m" x d whole_train fs m /\ loss_reported w' r t ext c "ml_m" (ly_classifier ml_m) n m d everyone /\
    ((exists e, supplied ext c "ml_g" r e) -> loss_entry w' r t "ml_g" None /\ loss_entry w' r t "ml_l" None) /\
    ((forall e, ~ supplied ext c "ml_g" r e) -> exists l th gg,
      used_prediction L f g mc w n ext r t c "ml_l" "ml_l" x y whole_train fs l /\ loss_reported w' r t ext c "ml_l" (ly_classifier ml_l) n l y everyone /\
      (sumf n (fun i => (d i - m i) ^ 2) <> 0 -> th = sumf n (fun i => (d i - m i) * (y i - l i)) / sumf n (fun i => (d i - m i) ^ 2)) /\
      used_prediction L f g mc w n ext r t c "ml_g" "ml_g" x (fun i => y i - th * d i) whole_train fs gg /\
      loss_over w' r t "ml_g" (match ml_g with Some l => ly_classifier l | None => ly_classifier ml_l end) n gg (fun i => y i - th * d i) everyone)).
Proof. exact @plr_iv_loss. Qed.
Print Assumptions C87_partially_linear_iv.

(** Partially linear IV with one instrument. *)
Theorem C87_instrumental : forall (E P : Type) (L : learner E row P) f g rd fr s proj zc ml_l ml_m ml_r ml_g nf nr draw C w0 w nj store ext smod w',
  S_Data.reachable fr s -> proper_clusters s -> sound_randomness rd -> M_Data.r_z (M_Data.dd_roles s) = Some [zc] ->
  pliv_init L rd fr s proj ml_l ml_m ml_r ml_g nf nr (PStr "partialling out") draw = Ok (C, w0) -> later C w0 w ->
  exists mc, mc_order mc = rd_order rd /\ runs_on mc "ml_l" ml_l false /\ runs_on mc "ml_m" ml_m false /\ runs_on mc "ml_r" ml_r false /\
  let n := M_Data.frows fr in let dcols := M_Data.r_d (M_Data.dd_roles s) in let y := outcome fr s in let z := col fr zc in
  (sound_learning L f g mc w -> fit C nj store ext smod w = (w', Ok tt) ->
  forall sm r t fs c, m_smpls (w_obj w) = Some sm -> nth_error sm r = Some fs -> nth_error dcols t = Some c -> let x := covariates fr s c in let d := col fr c in exists l m q,
    used_prediction L f g mc w n ext r t c "ml_l" "ml_l" x y whole_train fs l /\ loss_reported w' r t ext c "ml_l" (ly_classifier ml_l) n l y everyone /\
    used_prediction L f g mc w n ext r t c "ml_m" "ml_m" x z whole_train fs m /\ loss_reported w' r t ext c "ml_m" (ly_classifier ml_m) n m z everyone /\
    used_prediction L f g mc w n ext r t c "ml_r" "ml_r" x d whole_train fs q /\ loss_reported w' r t ext c "ml_r" (ly_classifier ml_r) n q d everyone).
Proof. exact @pliv_loss. Qed.
Print Assumptions C87_instrumental.

(** Score "IV-type": "ml_g" is compared with the residual outcome. *)
Theorem C87_instrumental_iv : forall (E P : Type) (L : learner E row P) f g rd fr s proj zc ml_l ml_m ml_r ml_g nf nr draw C w0 w nj store ext smod w',
  S_Data.reachable fr s -> proper_clusters s -> sound_randomness rd -> M_Data.r_z (M_Data.dd_roles s) = Some [zc] ->
  pliv_init L rd fr s proj ml_l ml_m ml_r ml_g nf nr (PStr "IV-type") draw = Ok (C, w0) -> later C w0 w ->
  exists lg mc, ml_g = Some lg /\ mc_order mc = rd_order rd /\ runs_on mc "ml_l" ml_l false /\ runs_on mc "ml_m" ml_m false /\ runs_on mc "ml_r" ml_r false /\ runs_on mc "ml_g" lg false /\
  let n := M_Data.frows fr in let dcols := M_Data.r_d (M_Data.dd_roles s) in let y := outcome fr s in let z := col fr zc in
  (sound_learning L f g mc w -> fit C nj store ext smod w = (w', Ok tt) ->
  forall sm r t fs c, m_smpls (w_obj w) = Some sm -> nth_error sm r = Some fs -> nth_error dcols t = Some c -> let x := covariates fr s c in let d := col fr c in exists l m q gg th,
    used_prediction L f g mc w n ext r t c "ml_l" "ml_l" x y whole_train fs l /\ loss_reported w' r t ext c "ml_l" (ly_classifier ml_l) n l y everyone /\
    used_prediction L f g mc w n ext r t c "ml_m" "ml_m" x z whole_train fs m /\ loss_reported w' r t ext c "ml_m" (ly_classifier ml_m) n m z everyone /\
    used_prediction L f g mc w n ext r t c "ml_r" "ml_r" x d whole_train fs q /\ loss_reported w' r t ext c "ml_r" (ly_classifier ml_r) n q d everyone /\
    (sumf n (fun i => (z i - m i) * (d i - q i)) <> 0 -> th = sumf n (fun i => (z i - m i) * (y i - l i)) / sumf n (fun i => (z i - m i) * (d i - q i))) /\
    used_prediction L f g mc w n ext r t c "ml_g" "ml_g" x (fun i => y i - th * d i) whole_train fs gg /\ loss_reported w' r t ext c "ml_g" (ly_classifier lg) n gg (fun i => y i - th * d i) everyone).
Proof. exact @pliv_iv_loss. Qed.
Print Assumptions C87_instrumental_iv.

(** Several instruments: one function per instrument, each compared with its own. *)
Theorem C87_several_instruments : forall (E P : Type) (L : learner E row P) f g rd fr s zcs proj ml_l ml_m ml_r ml_g nf nr draw C w0 w nj store ext smod w',
  S_Data.reachable fr s -> proper_clusters s -> sound_randomness rd -> M_Data.r_z (M_Data.dd_roles s) = Some zcs -> (2 <= length zcs)%nat ->
  pliv_init L rd fr s proj ml_l ml_m ml_r ml_g nf nr (PStr "partialling out") draw = Ok (C, w0) -> later C w0 w ->
  exists mc, mc_order mc = rd_order rd /\ runs_on mc "ml_l" ml_l false /\ runs_on mc "ml_m" ml_m false /\ runs_on mc "ml_r" ml_r false /\
  let n := M_Data.frows fr in let dcols := M_Data.r_d (M_Data.dd_roles s) in let y := outcome fr s in
  (sound_learning L f g mc w -> fit C nj store ext smod w = (w', Ok tt) ->
  forall sm r t fs c, m_smpls (w_obj w) = Some sm -> nth_error sm r = Some fs -> nth_error dcols t = Some c -> let x := covariates fr s c in let d := col fr c in exists l q (m : string -> vec),
    used_prediction L f g mc w n ext r t c "ml_l" "ml_l" x y whole_train fs l /\ loss_reported w' r t ext c "ml_l" (ly_classifier ml_l) n l y everyone /\
    used_prediction L f g mc w n ext r t c "ml_r" "ml_r" x d whole_train fs q /\ loss_reported w' r t ext c "ml_r" (ly_classifier ml_r) n q d everyone /\
    forall z, In z zcs -> used_prediction L f g mc w n ext r t c ("ml_m_" ++ z)%string "ml_m" x (col fr z) whole_train fs (m z) /\ loss_reported w' r t ext c ("ml_m_" ++ z)%string (ly_classifier ml_m) n (m z) (col fr z) everyone).
Proof. exact @pliv_several_loss. Qed.
Print Assumptions C87_several_instruments.

(** Instruments partialled out: predictions supplied for "ml_r" are not used. *)
Theorem C87_instruments_partialled : forall (E P : Type) (L : learner E row P) f g rd fr s proj dummy ml_r nf nr score draw C w0 w nj store ext smod w',
  S_Data.reachable fr s -> proper_clusters s -> sound_randomness rd ->
  pliv_partial_z L rd fr s proj dummy ml_r nf nr score draw = Ok (C, w0) -> later C w0 w ->
  exists mc, mc_order mc = rd_order rd /\ runs_on mc "ml_r" ml_r false /\
  let n := M_Data.frows fr in let dcols := M_Data.r_d (M_Data.dd_roles s) in let zrow := feats fr (M_Data.optl (M_Data.r_z (M_Data.dd_roles s))) in
  (sound_learning L f g mc w -> fit C nj store ext smod w = (w', Ok tt) ->
  forall sm r t fs c, m_smpls (w_obj w) = Some sm -> nth_error sm r = Some fs -> nth_error dcols t = Some c -> let x := covariates fr s c in let d := col fr c in exists q,
    cross_fitted L f g (setup_of mc n r t (fun l => nth r (m_params (w_obj w) l c) None) (fun _ => None)) "ml_r" "ml_r" (fun i => x i ++ zrow i)%list d whole_train fs q /\
    loss_over w' r t "ml_r" (ly_classifier ml_r) n q d everyone).
Proof. exact @pliv_z_loss. Qed.
Print Assumptions C87_instruments_partialled.

(** Covariates and instruments partialled out: "ml_r" is fitted to predictions
    of "ml_m", which differ from fold to fold; its loss is always nan. *)
Theorem C87_projected_instruments : forall (E P : Type) (L : learner E row P) f g rd fr s proj ml_l ml_m ml_r nf nr score draw C w0 w nj store ext smod w',
  S_Data.reachable fr s -> proper_clusters s -> sound_randomness rd ->
  pliv_partial_xz L rd fr s proj ml_l ml_m ml_r nf nr score draw = Ok (C, w0) -> later C w0 w ->
  exists mc, mc_order mc = rd_order rd /\ runs_on mc "ml_l" ml_l false /\ runs_on mc "ml_m" ml_m false /\ runs_on mc "ml_r" ml_r false /\
  let n := M_Data.frows fr in let dcols := M_Data.r_d (M_Data.dd_roles s) in let y := outcome fr s in let zrow := feats fr (M_Data.optl (M_Data.r_z (M_Data.dd_roles s))) in
  (sound_learning L f g mc w -> fit C nj store ext smod w = (w', Ok tt) ->
  forall sm r t fs c, m_smpls (w_obj w) = Some sm -> nth_error sm r = Some fs -> nth_error dcols t = Some c -> let x := covariates fr s c in let d := col fr c in
    let su := setup_of mc n r t (fun l => nth r (m_params (w_obj w) l c) None) (fun _ => None) in exists l m mt,
    cross_fitted L f g su "ml_l" "ml_l" x y whole_train fs l /\ loss_over w' r t "ml_l" (ly_classifier ml_l) n l y everyone /\
    projected L f su x (fun i => x i ++ zrow i)%list d fs m mt /\ loss_over w' r t "ml_m" (ly_classifier ml_m) n m d everyone /\ loss_entry w' r t "ml_r" None).
Proof. exact @pliv_xz_loss. Qed.
Print Assumptions C87_projected_instruments.

(** Interactive regression: outcome regressions on their treatment group, the
    propensity after trimming on all rows. *)
Theorem C87_interactive : forall (E P : Type) (L : learner E row P) f g rd fr s ml_g ml_m nf nr sc wa norm rule thr draw C w0 w nj store ext smod w',
  S_Data.reachable fr s -> proper_clusters s -> sound_randomness rd ->
  irm_init L rd fr s ml_g ml_m nf nr (PStr sc) wa norm rule thr draw = Ok (C, w0) -> later C w0 w ->
  exists c th mc, binary_treatment fr s c /\ thr = PFloat th /\ mc_order mc = rd_order rd /\ runs_on mc "ml_g" ml_g (ly_classifier ml_g) /\ runs_on mc "ml_m" ml_m true /\
  let n := M_Data.frows fr in let y := outcome fr s in let d := col fr c in let x := covariates fr s c in
  (sound_learning L f g mc w ->
  labels_everywhere L g mc w n "ml_g" y (fun j => d j = 0) -> labels_everywhere L g mc w n "ml_g" y (fun j => d j = 1) -> labels_everywhere L g mc w n "ml_m" d everyone ->
  (ly_classifier ml_g = true -> labels_01 n y) -> labels_01 n d ->
  fit C nj store ext smod w = (w', Ok tt) ->
  forall sm r fs, m_smpls (w_obj w) = Some sm -> nth_error sm r = Some fs -> exists g0 g1 m0 m,
    used_prediction L f g mc w n ext r 0 c "ml_g0" "ml_g" x y (group_rows n (fun j => d j = 0)) fs g0 /\ loss_reported w' r 0 ext c "ml_g0" (ly_classifier ml_g) n g0 y (fun j => d j = 0) /\
    used_prediction L f g mc w n ext r 0 c "ml_g1" "ml_g" x y (group_rows n (fun j => d j = 1)) fs g1 /\ loss_reported w' r 0 ext c "ml_g1" (ly_classifier ml_g) n g1 y (fun j => d j = 1) /\
    used_prediction L f g mc w n ext r 0 c "ml_m" "ml_m" x d whole_train fs m0 /\ (forall i, (i < n)%nat -> m i = Rmin (Rmax (m0 i) th) (1 - th)) /\ loss_reported w' r 0 ext c "ml_m" (ly_classifier ml_m) n m d everyone).
Proof. exact @irm_loss. Qed.
Print Assumptions C87_interactive.

(** Average potential outcome: losses also of predictions that were supplied. *)
Theorem C87_potential_outcome : forall (E P : Type) (L : learner E row P) f g rd fr s ml_g ml_m level nf nr score wa norm rule thr draw C w0 w nj store ext smod w',
  S_Data.reachable fr s -> proper_clusters s -> sound_randomness rd ->
  apo_init L rd fr s ml_g ml_m level nf nr score wa norm rule thr draw = Ok (C, w0) -> later C w0 w ->
  exists c th mc, M_Data.r_d (M_Data.dd_roles s) = [c] /\ thr = PFloat th /\ mc_order mc = rd_order rd /\ runs_on mc "ml_g" ml_g (ly_classifier ml_g) /\ runs_on mc "ml_m" ml_m true /\
  let n := M_Data.frows fr in let y := outcome fr s in let x := covariates fr s c in let a := at_level level (col fr c) in
  (sound_learning L f g mc w ->
  labels_everywhere L g mc w n "ml_g" y (fun j => a j = 0) -> labels_everywhere L g mc w n "ml_g" y (fun j => a j = 1) -> labels_everywhere L g mc w n "ml_m" a everyone ->
  (ly_classifier ml_g = true -> labels_01 n y) -> labels_01 n a ->
  fit C nj store ext smod w = (w', Ok tt) ->
  forall sm r fs, m_smpls (w_obj w) = Some sm -> nth_error sm r = Some fs -> exists g0 g1 m0 m,
    used_prediction L f g mc w n ext r 0 c "ml_g_d_lvl0" "ml_g" (fun i => col fr c i :: x i) y (group_rows n (fun j => a j = 0)) fs g0 /\ loss_over w' r 0 "ml_g_d_lvl0" (ly_classifier ml_g) n g0 y (fun j => a j = 0) /\
    used_prediction L f g mc w n ext r 0 c "ml_g_d_lvl1" "ml_g" x y (group_rows n (fun j => a j = 1)) fs g1 /\ loss_over w' r 0 "ml_g_d_lvl1" (ly_classifier ml_g) n g1 y (fun j => a j = 1) /\
    used_prediction L f g mc w n ext r 0 c "ml_m" "ml_m" x a whole_train fs m0 /\ (forall i, (i < n)%nat -> m i = Rmin (Rmax (m0 i) th) (1 - th)) /\ loss_over w' r 0 "ml_m" (ly_classifier ml_m) n m a everyone).
Proof. exact @apo_loss. Qed.
Print Assumptions C87_potential_outcome.

(** Interactive IV: functions switched off are constants compared with themselves. *)
Theorem C87_local_effect : forall (E P : Type) (L : learner E row P) f g rd fr s ml_g ml_m ml_r nf nr score sg norm rule thr draw C w0 w nj store ext smod w',
  S_Data.reachable fr s -> proper_clusters s -> sound_randomness rd ->
  iivm_init L rd fr s ml_g ml_m ml_r nf nr score sg norm rule thr draw = Ok (C, w0) -> later C w0 w ->
  exists c zc th mc always never, binary_treatment fr s c /\ M_Data.r_z (M_Data.dd_roles s) = Some [zc] /\ thr = PFloat th /\ mc_order mc = rd_order rd /\ runs_on mc "ml_g" ml_g (ly_classifier ml_g) /\ runs_on mc "ml_m" ml_m true /\ runs_on mc "ml_r" ml_r true /\ subgroups_are sg always never /\
  let n := M_Data.frows fr in let y := outcome fr s in let d := col fr c in let z := col fr zc in let x := covariates fr s c in
  (sound_learning L f g mc w ->
  labels_everywhere L g mc w n "ml_g" y (fun j => z j = 0) -> labels_everywhere L g mc w n "ml_g" y (fun j => z j = 1) -> labels_everywhere L g mc w n "ml_m" z everyone ->
  (always = true -> labels_everywhere L g mc w n "ml_r" d (fun j => z j = 0)) -> (never = true -> labels_everywhere L g mc w n "ml_r" d (fun j => z j = 1)) ->
  (ly_classifier ml_g = true -> labels_01 n y) -> labels_01 n z -> labels_01 n d ->
  fit C nj store ext smod w = (w', Ok tt) ->
  forall sm r fs, m_smpls (w_obj w) = Some sm -> nth_error sm r = Some fs -> exists g0 g1 m0 m,
    used_prediction L f g mc w n ext r 0 c "ml_g0" "ml_g" x y (group_rows n (fun j => z j = 0)) fs g0 /\ loss_reported w' r 0 ext c "ml_g0" (ly_classifier ml_g) n g0 y (fun j => z j = 0) /\
    used_prediction L f g mc w n ext r 0 c "ml_g1" "ml_g" x y (group_rows n (fun j => z j = 1)) fs g1 /\ loss_reported w' r 0 ext c "ml_g1" (ly_classifier ml_g) n g1 y (fun j => z j = 1) /\
    used_prediction L f g mc w n ext r 0 c "ml_m" "ml_m" x z whole_train fs m0 /\ (forall i, (i < n)%nat -> m i = Rmin (Rmax (m0 i) th) (1 - th)) /\ loss_reported w' r 0 ext c "ml_m" (ly_classifier ml_m) n m z everyone /\
    (always = true -> exists r0, used_prediction L f g mc w n ext r 0 c "ml_r0" "ml_r" x d (group_rows n (fun j => z j = 0)) fs r0 /\ loss_reported w' r 0 ext c "ml_r0" (ly_classifier ml_r) n r0 d (fun j => z j = 0)) /\
    (never = true -> exists r1, used_prediction L f g mc w n ext r 0 c "ml_r1" "ml_r" x d (group_rows n (fun j => z j = 1)) fs r1 /\ loss_reported w' r 0 ext c "ml_r1" (ly_classifier ml_r) n r1 d (fun j => z j = 1)) /\
    (always = false -> (forall e, ~ supplied ext c "ml_r0" r e) -> loss_over w' r 0 "ml_r0" (ly_classifier ml_r) n (fun _ => 0) (fun _ => 0) (fun j => z j = 0)) /\
    (never = false -> (forall e, ~ supplied ext c "ml_r1" r e) -> loss_over w' r 0 "ml_r1" (ly_classifier ml_r) n (fun _ => 1) (fun _ => 1) (fun j => z j = 1))).
Proof. exact @iivm_loss. Qed.
Print Assumptions C87_local_effect.

(** Difference in differences. *)
Theorem C87_differences_observational : forall (E P : Type) (L : learner E row P) f g rd fr s ml_g ml_m nf nr norm rule thr draw C w0 w nj store ext smod w',
  S_Data.reachable fr s -> proper_clusters s -> sound_randomness rd ->
  did_init L rd fr s ml_g ml_m nf nr (PStr "observational") norm rule thr draw = Ok (C, w0) -> later C w0 w ->
  exists c th lm mc, binary_treatment fr s c /\ thr = PFloat th /\ mc_order mc = rd_order rd /\ runs_on mc "ml_g" ml_g (ly_classifier ml_g) /\ ml_m = Some lm /\ runs_on mc "ml_m" lm true /\
  let n := M_Data.frows fr in let y := outcome fr s in let d := col fr c in let x := covariates fr s c in
  (sound_learning L f g mc w ->
  labels_everywhere L g mc w n "ml_g" y (fun j => d j = 0) -> labels_everywhere L g mc w n "ml_g" y (fun j => d j = 1) -> labels_everywhere L g mc w n "ml_m" d everyone ->
  (ly_classifier ml_g = true -> labels_01 n y) -> labels_01 n d ->
  fit C nj store ext smod w = (w', Ok tt) ->
  forall sm r fs, m_smpls (w_obj w) = Some sm -> nth_error sm r = Some fs -> exists g0 g1 m0 m,
    used_prediction L f g mc w n ext r 0 c "ml_g0" "ml_g" x y (group_rows n (fun j => d j = 0)) fs g0 /\ loss_reported w' r 0 ext c "ml_g0" (ly_classifier ml_g) n g0 y (fun j => d j = 0) /\
    used_prediction L f g mc w n ext r 0 c "ml_g1" "ml_g" x y (group_rows n (fun j => d j = 1)) fs g1 /\ loss_reported w' r 0 ext c "ml_g1" (ly_classifier ml_g) n g1 y (fun j => d j = 1) /\
    used_prediction L f g mc w n ext r 0 c "ml_m" "ml_m" x d whole_train fs m0 /\ (forall i, (i < n)%nat -> m i = Rmin (Rmax (m0 i) th) (1 - th)) /\ loss_reported w' r 0 ext c "ml_m" (ly_classifier lm) n m d everyone).
Proof. exact @did_obs_loss. Qed.
Print Assumptions C87_differences_observational.

Theorem C87_differences_experimental : forall (E P : Type) (L : learner E row P) f g rd fr s ml_g ml_m nf nr norm rule thr draw C w0 w nj store ext smod w',
  S_Data.reachable fr s -> proper_clusters s -> sound_randomness rd ->
  did_init L rd fr s ml_g ml_m nf nr (PStr "experimental") norm rule thr draw = Ok (C, w0) -> later C w0 w ->
  exists c mc, binary_treatment fr s c /\ mc_order mc = rd_order rd /\ runs_on mc "ml_g" ml_g (ly_classifier ml_g) /\ 
  let n := M_Data.frows fr in let y := outcome fr s in let d := col fr c in let x := covariates fr s c in
  (sound_learning L f g mc w ->
  labels_everywhere L g mc w n "ml_g" y (fun j => d j = 0) -> labels_everywhere L g mc w n "ml_g" y (fun j => d j = 1) -> 
  (ly_classifier ml_g = true -> labels_01 n y) -> 
  fit C nj store ext smod w = (w', Ok tt) ->
  forall sm r fs, m_smpls (w_obj w) = Some sm -> nth_error sm r = Some fs -> exists g0 g1 ,
    used_prediction L f g mc w n ext r 0 c "ml_g0" "ml_g" x y (group_rows n (fun j => d j = 0)) fs g0 /\ loss_reported w' r 0 ext c "ml_g0" (ly_classifier ml_g) n g0 y (fun j => d j = 0) /\
    used_prediction L f g mc w n ext r 0 c "ml_g1" "ml_g" x y (group_rows n (fun j => d j = 1)) fs g1 /\ loss_reported w' r 0 ext c "ml_g1" (ly_classifier ml_g) n g1 y (fun j => d j = 1)).
Proof. exact @did_exp_loss. Qed.
Print Assumptions C87_differences_experimental.

(** Repeated cross sections: on the rows of group and period. *)
Theorem C87_cross_sections_observational : forall (E P : Type) (L : learner E row P) f g rd fr s ml_g ml_m nf nr norm rule thr draw C w0 w nj store ext smod w',
  S_Data.reachable fr s -> proper_clusters s -> sound_randomness rd ->
  cs_init L rd fr s ml_g ml_m nf nr (PStr "observational") norm rule thr draw = Ok (C, w0) -> later C w0 w ->
  exists c tc th lm mc, binary_treatment fr s c /\ M_Data.r_t (M_Data.dd_roles s) = Some tc /\ thr = PFloat th /\ mc_order mc = rd_order rd /\ runs_on mc "ml_g" ml_g (ly_classifier ml_g) /\ ml_m = Some lm /\ runs_on mc "ml_m" lm true /\
  let n := M_Data.frows fr in let y := outcome fr s in let d := col fr c in let t := col fr tc in let x := covariates fr s c in
  (sound_learning L f g mc w ->
  (forall a b, (a = 0 \/ a = 1) -> (b = 0 \/ b = 1) -> labels_everywhere L g mc w n "ml_g" y (fun j => d j = a /\ t j = b)) -> labels_everywhere L g mc w n "ml_m" d everyone ->
  (ly_classifier ml_g = true -> labels_01 n y) -> labels_01 n d ->
  fit C nj store ext smod w = (w', Ok tt) ->
  forall sm r fs, m_smpls (w_obj w) = Some sm -> nth_error sm r = Some fs -> 
    (forall name a b, In (name, a, b) [("ml_g_d0_t0", 0, 0); ("ml_g_d0_t1", 0, 1); ("ml_g_d1_t0", 1, 0); ("ml_g_d1_t1", 1, 1)] -> exists v, used_prediction L f g mc w n ext r 0 c name "ml_g" x y (group_rows n (fun j => d j = a /\ t j = b)) fs v /\ loss_reported w' r 0 ext c name (ly_classifier ml_g) n v y (fun j => d j = a /\ t j = b)) /\
    exists m0 m, used_prediction L f g mc w n ext r 0 c "ml_m" "ml_m" x d whole_train fs m0 /\ (forall i, (i < n)%nat -> m i = Rmin (Rmax (m0 i) th) (1 - th)) /\ loss_reported w' r 0 ext c "ml_m" (ly_classifier lm) n m d everyone).
Proof. exact @cs_obs_loss. Qed.
Print Assumptions C87_cross_sections_observational.

Theorem C87_cross_sections_experimental : forall (E P : Type) (L : learner E row P) f g rd fr s ml_g ml_m nf nr norm rule thr draw C w0 w nj store ext smod w',
  S_Data.reachable fr s -> proper_clusters s -> sound_randomness rd ->
  cs_init L rd fr s ml_g ml_m nf nr (PStr "experimental") norm rule thr draw = Ok (C, w0) -> later C w0 w ->
  exists c tc mc, binary_treatment fr s c /\ M_Data.r_t (M_Data.dd_roles s) = Some tc /\ mc_order mc = rd_order rd /\ runs_on mc "ml_g" ml_g (ly_classifier ml_g) /\ 
  let n := M_Data.frows fr in let y := outcome fr s in let d := col fr c in let t := col fr tc in let x := covariates fr s c in
  (sound_learning L f g mc w ->
  (forall a b, (a = 0 \/ a = 1) -> (b = 0 \/ b = 1) -> labels_everywhere L g mc w n "ml_g" y (fun j => d j = a /\ t j = b)) -> 
  (ly_classifier ml_g = true -> labels_01 n y) -> 
  fit C nj store ext smod w = (w', Ok tt) ->
  forall sm r fs, m_smpls (w_obj w) = Some sm -> nth_error sm r = Some fs -> 
    (forall name a b, In (name, a, b) [("ml_g_d0_t0", 0, 0); ("ml_g_d0_t1", 0, 1); ("ml_g_d1_t0", 1, 0); ("ml_g_d1_t1", 1, 1)] -> exists v, used_prediction L f g mc w n ext r 0 c name "ml_g" x y (group_rows n (fun j => d j = a /\ t j = b)) fs v /\ loss_reported w' r 0 ext c name (ly_classifier ml_g) n v y (fun j => d j = a /\ t j = b))).
Proof. exact @cs_exp_loss. Qed.
Print Assumptions C87_cross_sections_experimental.

(** Sample selection: the outcome regressions are fitted to selected rows with
    one treatment, but evaluated on all rows. *)
Theorem C87_selection : forall (E P : Type) (L : learner E row P) f g rd fr s tts ml_g ml_pi ml_m nf nr norm rule thr draw C w0 w nj store ext smod w',
  S_Data.reachable fr s -> proper_clusters s -> sound_randomness rd ->
  ssm_init L rd fr s tts ml_g ml_pi ml_m nf nr (PStr "missing-at-random") norm rule thr draw = Ok (C, w0) -> later C w0 w ->
  exists sel th mc, M_Data.r_s (M_Data.dd_roles s) = Some sel /\ thr = PFloat th /\ mc_order mc = rd_order rd /\ clone_of L mc "ml_g" ml_g (ly_classifier ml_g) /\ clone_of L mc "ml_pi" ml_pi true /\ clone_of L mc "ml_m" ml_m true /\
  let n := M_Data.frows fr in let dcols := M_Data.r_d (M_Data.dd_roles s) in let y := outcome fr s in let a := col fr sel in
  (sound_learning L f g mc w -> labels_everywhere L g mc w n "ml_pi" a everyone ->
  (forall c, In c dcols -> labels_everywhere L g mc w n "ml_m" (col fr c) everyone /\ labels_everywhere L g mc w n "ml_g" y (fun j => col fr c j = 1 /\ a j = 1) /\ labels_everywhere L g mc w n "ml_g" y (fun j => col fr c j = 0 /\ a j = 1) /\ labels_01 n (col fr c)) ->
  (ly_classifier ml_g = true -> labels_01 n y) -> labels_01 n a ->
  fit C nj store ext smod w = (w', Ok tt) ->
  forall sm r t fs c, m_smpls (w_obj w) = Some sm -> nth_error sm r = Some fs -> nth_error dcols t = Some c -> let x := covariates fr s c in let d := col fr c in
    let su := setup_of mc n r t (fun l => nth r (m_params (w_obj w) l c) None) (fun _ => None) in exists pi m0 m g1 g0,
    cross_fitted L f g su "ml_pi" "ml_pi" (fun i => x i ++ [d i])%list a whole_train fs pi /\ loss_over w' r t "ml_pi" (ly_classifier ml_pi) n pi a everyone /\
    cross_fitted L f g su "ml_m" "ml_m" x d whole_train fs m0 /\ (forall i, (i < n)%nat -> m i = Rmin (Rmax (m0 i) th) (1 - th)) /\ loss_over w' r t "ml_m" (ly_classifier ml_m) n m d everyone /\
    cross_fitted L f g su "ml_g_d1" "ml_g" x y (group_rows n (fun j => d j = 1 /\ a j = 1)) fs g1 /\ loss_over w' r t "ml_g_d1" (ly_classifier ml_g) n g1 y everyone /\
    cross_fitted L f g su "ml_g_d0" "ml_g" x y (group_rows n (fun j => d j = 0 /\ a j = 1)) fs g0 /\ loss_over w' r t "ml_g_d0" (ly_classifier ml_g) n g0 y everyone).
Proof. exact @ssm_loss. Qed.
Print Assumptions C87_selection.

(** Nonignorable nonresponse: nested cross-fitting, all rows. *)
Theorem C87_selection_nonignorable : forall (E P : Type) (L : learner E row P) f g rd fr s tts ml_g ml_pi ml_m nf nr norm rule thr draw C w0 w nj store ext smod w',
  S_Data.reachable fr s -> proper_clusters s -> sound_randomness rd ->
  ssm_init L rd fr s tts ml_g ml_pi ml_m nf nr (PStr "nonignorable") norm rule thr draw = Ok (C, w0) -> later C w0 w ->
  exists sel th mc, M_Data.r_s (M_Data.dd_roles s) = Some sel /\ thr = PFloat th /\ mc_order mc = rd_order rd /\ clone_of L mc "ml_g" ml_g (ly_classifier ml_g) /\ clone_of L mc "ml_pi" ml_pi true /\ clone_of L mc "ml_m" ml_m true /\
  let n := M_Data.frows fr in let dcols := M_Data.r_d (M_Data.dd_roles s) in let y := outcome fr s in let a := col fr sel in let zrow := feats fr (M_Data.optl (M_Data.r_z (M_Data.dd_roles s))) in
  (sound_learning L f g mc w -> classifier_ok L g -> fit C nj store ext smod w = (w', Ok tt) ->
  forall sm r t fs c, m_smpls (w_obj w) = Some sm -> nth_error sm r = Some fs -> nth_error dcols t = Some c -> let x := covariates fr s c in let d := col fr c in exists pi m0 m g1 g0,
    nested_selection L f g (setup_of mc n r t (fun l => nth r (m_params (w_obj w) l c) None) (fun _ => None)) (tts r t) x zrow y d a fs pi m0 g1 g0 /\
    loss_over w' r t "ml_pi" (ly_classifier ml_pi) n pi a everyone /\ (forall i, (i < n)%nat -> m i = Rmin (Rmax (m0 i) th) (1 - th)) /\ loss_over w' r t "ml_m" (ly_classifier ml_m) n m d everyone /\
    loss_over w' r t "ml_g_d1" (ly_classifier ml_g) n g1 y everyone /\ loss_over w' r t "ml_g_d0" (ly_classifier ml_g) n g0 y everyone).
Proof. exact @ssm_non_loss. Qed.
Print Assumptions C87_selection_nonignorable.

Example C87_case : irm_loss_case.
Proof. exact irm_loss_ex. Qed.
Example C87_case_classes : (plr_case rd2 "partialling out" /\ plr_case rd2 "IV-type") /\ pliv_case rz1 "partialling out" /\ apo_case /\ iivm_case /\
  did_case "observational" /\ did_case "experimental" /\ cs_case "observational" /\ cs_case "experimental" /\ ssm_case.
Proof. exact (conj (conj (proj2 (plr_cases _ (or_introl eq_refl))) (proj2 (plr_cases _ (or_intror eq_refl)))) (conj (pliv_cases _ (or_introl eq_refl)) (conj apo_cases (conj iivm_cases (conj (did_cases _ (or_introl eq_refl)) (conj (did_cases _ (or_intror eq_refl)) (conj (cs_cases _ (or_introl eq_refl)) (conj (cs_cases _ (or_intror eq_refl)) ssm_cases)))))))). Qed.
Example C87_case_variants : pliv_case rz1 "IV-type" /\ pliv_case rz2 "partialling out" /\ pliv_z_case /\ pliv_xz_case /\ (ssm_non_case /\ classifier_ok q_learner q_proba).
Proof. exact (conj (pliv_cases _ (or_intror eq_refl)) (conj pliv_several_cases (conj pliv_z_cases (conj pliv_xz_cases (conj ssm_non_cases q_classifier))))). Qed.

(** C99: estimates of the model classes on simulated data are the true parameter plus terms that vanish with the
    noise and with the errors of the predictions used. *)
From Verif Require Import L_DatasetsFitWitness.
From Coq Require Import Lia Lra.
Local Open Scope R_scope.
Local Open Scope string_scope.

(** Partially linear data, partialling out with any learners or supplied predictions. *)
Theorem C99_plr : forall (E P : Type) (L : learner E row P) (f : E -> row -> R) (g : E -> row -> list R) rd n k alpha a0 a1 s1 b0 b1 s2 ret x v zeta fr s ml_l ml_m ml_g nf nr draw C w0 w nj store ext smod w',
  (0 < n)%nat -> make_plr n k alpha a0 a1 s1 b0 b1 s2 ret x v zeta = Ok (OutData fr s) -> sound_randomness rd ->
  plr_init L rd fr s ml_l ml_m ml_g nf nr (PStr "partialling out") draw = Ok (C, w0) -> later C w0 w ->
  let v' := times_v (kw s1 1) v in let u := times_v (kw s2 1) zeta in
  let m0 := plr_m (kw a0 1) (kw a1 0.25) x in let l0 := plr_l alpha (kw a0 1) (kw a1 0.25) (kw b0 1) (kw b1 0.25) x in
  exists mc, mc_order mc = rd_order rd /\ runs_on mc "ml_l" ml_l false /\ runs_on mc "ml_m" ml_m (ly_classifier ml_m) /\
  (sound_learning L f g mc w -> labels_everywhere L g mc w n "ml_l" (col fr "y") everyone -> labels_everywhere L g mc w n "ml_m" (col fr "d") everyone ->
  fit C nj store ext smod w = (w', Ok tt) ->
  exists F sm, fit_done w w' F sm 1 /\ forall r fs, nth_error sm r = Some fs -> exists l m,
  used_prediction L f g mc w n ext r 0 "d" "ml_l" "ml_l" (covariates fr s "d") (col fr "y") whole_train fs l /\
  used_prediction L f g mc w n ext r 0 "d" "ml_m" "ml_m" (covariates fr s "d") (col fr "d") whole_train fs m /\
  (sumf n (fun i => (v' i + (m0 i - m i)) * (v' i + (m0 i - m i))) <> 0 ->
  at_ (fw_all_thetas F) [0%nat; r] = alpha + partial_error n alpha v' v' u (minus_v m0 m) (minus_v m0 m) (minus_v l0 l))).
Proof. exact @plr_estimate. Qed.
Print Assumptions C99_plr.

(** The true nuisance functions are supplied: only the noise remains. *)
Theorem C99_plr_true_nuisances : forall (E P : Type) (L : learner E row P) (f : E -> row -> R) (g : E -> row -> list R) rd n k alpha a0 a1 s1 b0 b1 s2 ret x v zeta fr s ml_l ml_m ml_g nf nr draw C w0 w nj store ext smod w',
  (0 < n)%nat -> make_plr n k alpha a0 a1 s1 b0 b1 s2 ret x v zeta = Ok (OutData fr s) -> sound_randomness rd ->
  plr_init L rd fr s ml_l ml_m ml_g nf nr (PStr "partialling out") draw = Ok (C, w0) -> later C w0 w ->
  let m0 := plr_m (kw a0 1) (kw a1 0.25) x in let l0 := plr_l alpha (kw a0 1) (kw a1 0.25) (kw b0 1) (kw b1 0.25) x in
  exists mc, mc_order mc = rd_order rd /\ runs_on mc "ml_l" ml_l false /\ runs_on mc "ml_m" ml_m (ly_classifier ml_m) /\
  (sound_learning L f g mc w -> labels_everywhere L g mc w n "ml_l" (col fr "y") everyone -> labels_everywhere L g mc w n "ml_m" (col fr "d") everyone ->
  fit C nj store ext smod w = (w', Ok tt) ->
  exists F sm, fit_done w w' F sm 1 /\ forall r fs l m, nth_error sm r = Some fs ->
  supplied ext "d" "ml_l" r l -> supplied ext "d" "ml_m" r m -> (forall i, (i < n)%nat -> l i = l0 i /\ m i = m0 i) ->
  kw s1 1 <> 0 -> sumf n (fun i => v i ^ 2) <> 0 ->
  at_ (fw_all_thetas F) [0%nat; r] = alpha + kw s2 1 / kw s1 1 * (sumf n (fun i => v i * zeta i) / sumf n (fun i => v i ^ 2))).
Proof. exact @plr_truth. Qed.
Print Assumptions C99_plr_true_nuisances.

(** The partially linear data of Turrell. *)
Theorem C99_turrell : forall (E P : Type) (L : learner E row P) (f : E -> row -> R) (g : E -> row -> list R) rd n k theta nu gamma ret x v u fr s ml_l ml_m ml_g nf nr draw C w0 w nj store ext smod w',
  (0 < n)%nat -> make_turrell n k theta nu gamma ret x v u = Ok (OutData fr s) -> sound_randomness rd ->
  plr_init L rd fr s ml_l ml_m ml_g nf nr (PStr "partialling out") draw = Ok (C, w0) -> later C w0 w ->
  let m0 := turrell_m k (kw nu 0) (kw gamma 1) x in let l0 := turrell_l k theta (kw nu 0) (kw gamma 1) x in
  exists mc, mc_order mc = rd_order rd /\ runs_on mc "ml_l" ml_l false /\ runs_on mc "ml_m" ml_m (ly_classifier ml_m) /\
  (sound_learning L f g mc w -> labels_everywhere L g mc w n "ml_l" (col fr "y") everyone -> labels_everywhere L g mc w n "ml_m" (col fr "d") everyone ->
  fit C nj store ext smod w = (w', Ok tt) ->
  exists F sm, fit_done w w' F sm 1 /\ forall r fs, nth_error sm r = Some fs -> exists l m,
  used_prediction L f g mc w n ext r 0 "d" "ml_l" "ml_l" (covariates fr s "d") (col fr "y") whole_train fs l /\
  used_prediction L f g mc w n ext r 0 "d" "ml_m" "ml_m" (covariates fr s "d") (col fr "d") whole_train fs m /\
  (sumf n (fun i => (v i + (m0 i - m i)) * (v i + (m0 i - m i))) <> 0 ->
  at_ (fw_all_thetas F) [0%nat; r] = theta + partial_error n theta v v u (minus_v m0 m) (minus_v m0 m) (minus_v l0 l))).
Proof. exact @turrell_estimate. Qed.
Print Assumptions C99_turrell.

(** Partially linear IV data with one instrument. *)
Theorem C99_pliv : forall (E P : Type) (L : learner E row P) (f : E -> row -> R) (g : E -> row -> list R) rd n alpha k ret x eps u xi fr s ml_l ml_m ml_r ml_g nf nr draw C w0 w nj store ext smod w' proj,
  (0 < n)%nat -> make_pliv n alpha k 1 ret x eps u xi = Ok (OutData fr s) -> sound_randomness rd ->
  pliv_init L rd fr s proj ml_l ml_m ml_r ml_g nf nr (PStr "partialling out") draw = Ok (C, w0) -> later C w0 w ->
  let z i := xi i 0%nat in let q i := xi i 0%nat + u i in
  let xb := inner k x (fun j => / INR (S j) ^ 2) in
  let m0 i := x i 0%nat in let q0 i := xb i + x i 0%nat in let l0 i := alpha * q0 i + xb i in
  exists mc, mc_order mc = rd_order rd /\ runs_on mc "ml_l" ml_l false /\ runs_on mc "ml_m" ml_m false /\ runs_on mc "ml_r" ml_r false /\
  (sound_learning L f g mc w -> labels_everywhere L g mc w n "ml_l" (col fr "y") everyone -> labels_everywhere L g mc w n "ml_m" (col fr "Z1") everyone -> labels_everywhere L g mc w n "ml_r" (col fr "d") everyone ->
  fit C nj store ext smod w = (w', Ok tt) ->
  exists F sm, fit_done w w' F sm 1 /\ forall r fs, nth_error sm r = Some fs -> exists l m p,
  used_prediction L f g mc w n ext r 0 "d" "ml_l" "ml_l" (covariates fr s "d") (col fr "y") whole_train fs l /\
  used_prediction L f g mc w n ext r 0 "d" "ml_m" "ml_m" (covariates fr s "d") (col fr "Z1") whole_train fs m /\
  used_prediction L f g mc w n ext r 0 "d" "ml_r" "ml_r" (covariates fr s "d") (col fr "d") whole_train fs p /\
  (sumf n (fun i => (z i + (m0 i - m i)) * (q i + (q0 i - p i))) <> 0 ->
  at_ (fw_all_thetas F) [0%nat; r] = alpha + partial_error n alpha z q eps (minus_v m0 m) (minus_v q0 p) (minus_v l0 l))).
Proof. exact @pliv_estimate. Qed.
Print Assumptions C99_pliv.

(** Interactive data, average effect. *)
Theorem C99_irm : forall (E P : Type) (L : learner E row P) (f : E -> row -> R) (g : E -> row -> list R) rd n k theta r2_d r2_y ret x v zeta fr s ml_g ml_m nf nr nm rule thr draw C w0 w nj store ext smod w',
  (0 < n)%nat -> (0 < k)%nat -> 0 <= r2_d < 1 -> 0 <= r2_y < 1 -> make_irm n k theta r2_d r2_y ret x v zeta = Ok (OutData fr s) -> sound_randomness rd ->
  irm_init L rd fr s ml_g ml_m nf nr (PStr "ATE") WNone (PBool nm) rule (PFloat thr) draw = Ok (C, w0) -> later C w0 w ->
  exists cy mc, 0 <= cy /\ mc_order mc = rd_order rd /\ runs_on mc "ml_g" ml_g (ly_classifier ml_g) /\ runs_on mc "ml_m" ml_m true /\
  let d := col fr "d" in let y := col fr "y" in let xb := inner k x (fun j => / INR (S j) ^ 2) in
  (sound_learning L f g mc w ->
  labels_everywhere L g mc w n "ml_g" y (fun j => d j = 0) -> labels_everywhere L g mc w n "ml_g" y (fun j => d j = 1) -> labels_everywhere L g mc w n "ml_m" d everyone ->
  fit C nj store ext smod w = (w', Ok tt) ->
  exists F sm, fit_done w w' F sm 1 /\ forall r fs, nth_error sm r = Some fs -> (r < m_n_rep (w_obj w0))%nat -> exists g0 g1 p m,
  used_prediction L f g mc w n ext r 0 "d" "ml_g0" "ml_g" (covariates fr s "d") y (group_rows n (fun j => d j = 0)) fs g0 /\
  used_prediction L f g mc w n ext r 0 "d" "ml_g1" "ml_g" (covariates fr s "d") y (group_rows n (fun j => d j = 1)) fs g1 /\
  used_prediction L f g mc w n ext r 0 "d" "ml_m" "ml_m" (covariates fr s "d") d whole_train fs p /\ clipped n true thr p m /\
  let ma := ps_adjust n m d nm in
  (off_bounds n ma -> at_ (fw_all_thetas F) [0%nat; r] =
  theta + cy * meanf n xb + interactive_error n d ma zeta (fun i => 0 - g0 i) (fun i => theta + cy * xb i - g1 i))).
Proof. exact @irm_estimate. Qed.
Print Assumptions C99_irm.

(** Its error term vanishes without noise and with the true outcome regressions, for any propensities. *)
Theorem C99_irm_exact : forall n d ma zeta e0 e1,
  (0 < n)%nat -> (forall i, (i < n)%nat -> zeta i = 0) ->
  (forall i, (i < n)%nat -> e0 i = 0 /\ e1 i = 0) -> off_bounds n ma -> interactive_error n d ma zeta e0 e1 = 0.
Proof. exact @interactive_exact. Qed.
Print Assumptions C99_irm_exact.

(** Panel data for differences in differences, whose true effect is zero. *)
Theorem C99_did : forall (E P : Type) (L : learner E row P) (f : E -> row -> R) (g : E -> row -> list R) rd n dgp xi lambda_t ret x eps0 eps1 u nu u_t fr s ml_g ml_m nf nr nm rule thr draw C w0 w nj store ext smod w',
  (0 < n)%nat -> (forall j, (j < 4)%nat -> varied n x j) -> make_did n dgp false xi lambda_t ret x eps0 eps1 u nu u_t = Ok (OutData fr s) -> sound_randomness rd ->
  did_init L rd fr s ml_g ml_m nf nr (PStr "observational") (PBool nm) rule (PFloat thr) draw = Ok (C, w0) -> later C w0 w ->
  exists z w_reg w_ps mc, (forall j, (j < 4)%nat -> standardised n x z j) /\ dgp_features dgp x z = Some (w_reg, w_ps) /\
  mc_order mc = rd_order rd /\ runs_on mc "ml_g" ml_g (ly_classifier ml_g) /\ (exists l, ml_m = Some l /\ runs_on mc "ml_m" l true) /\
  let d := col fr "d" in let y := col fr "y" in
  (sound_learning L f g mc w ->
  labels_everywhere L g mc w n "ml_g" y (fun j => d j = 0) -> labels_everywhere L g mc w n "ml_g" y (fun j => d j = 1) -> labels_everywhere L g mc w n "ml_m" d everyone ->
  fit C nj store ext smod w = (w', Ok tt) ->
  exists F sm, fit_done w w' F sm 1 /\ forall r fs, nth_error sm r = Some fs -> exists g0 q m p,
  used_prediction L f g mc w n ext r 0 "d" "ml_g0" "ml_g" (covariates fr s "d") y (group_rows n (fun j => d j = 0)) fs g0 /\
  used_prediction L f g mc w n ext r 0 "d" "ml_m" "ml_m" (covariates fr s "d") d whole_train fs q /\ clipped n true thr q m /\ share_of fs d p /\
  let odds := fun i => (1 - d i) * (m i / (1 - m i)) in let a := share_weight n nm d p in
  (share_ok n nm d p -> share_ok n nm odds p -> sumf n a <> 0 ->
  at_ (fw_all_thetas F) [0%nat; r] =
  sumf n (fun i => (a i - share_weight n nm odds p i) * ((regression w_reg i - g0 i) + (eps1 i (arm_of (d i)) - eps0 i))) / sumf n a)).
Proof. exact @did_estimate. Qed.
Print Assumptions C99_did.

Example C99_case : forall alpha, simulated_fit alpha.
Proof. exact simulated_fits. Qed.

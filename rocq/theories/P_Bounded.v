(** C107: trimming bounds the estimates, whatever the propensity learner predicts. *)
From Verif Require Import S_Bounded L_Bounded L_BoundedTreated L_BoundedWitness.
From Coq Require Import Lia Lra.
Local Open Scope R_scope.
Local Open Scope string_scope.

(** Average treatment effect, propensities not normalised. *)
Theorem C107_interactive {E P : Type} (L : learner E row P) (f : E -> row -> R) (g : E -> row -> list R) (mc : machinery E P) n dcol bo thr w_ x y d strata w nj store ext smod w' B : let C := irm_ctx L mc n dcol false false bo true thr w_ x y d strata in
  (0 < n)%nat -> 0 < thr < 1 / 2 -> binary n d -> (forall r, w_ r = unit_weights) -> soundly_reached C w -> sound_learning L f g mc w ->
  labels_everywhere L g mc w n "ml_g" y (fun j => d j = 0) -> labels_everywhere L g mc w n "ml_g" y (fun j => d j = 1) -> labels_everywhere L g mc w n "ml_m" d everyone ->
  fit C nj store ext smod w = (w', Ok tt) -> within n B y ->
  (forall r fs v, used_prediction L f g mc w n ext r 0 dcol "ml_g0" "ml_g" x y (group_rows n (fun j => d j = 0)) fs v -> within n B v) ->
  (forall r fs v, used_prediction L f g mc w n ext r 0 dcol "ml_g1" "ml_g" x y (group_rows n (fun j => d j = 1)) fs v -> within n B v) ->
  exists F sm, fit_done w w' F sm 1 /\ forall r, (r < length sm)%nat -> bounded_estimate F n 0 r (2 * B + 2 * B / thr).
Proof. exact (irm_bounded L f g mc n dcol bo thr w_ x y d strata w nj store ext smod w' B). Qed.
Print Assumptions C107_interactive.

(** With normalised propensities the bound does not depend on the threshold. *)
Theorem C107_interactive_normalised {E P : Type} (L : learner E row P) (f : E -> row -> R) (g : E -> row -> list R) (mc : machinery E P) n dcol bo thr w_ x y d strata w nj store ext smod w' B : let C := irm_ctx L mc n dcol false true bo true thr w_ x y d strata in
  (0 < n)%nat -> 0 < thr < 1 / 2 -> binary n d -> (forall r, w_ r = unit_weights) -> soundly_reached C w -> sound_learning L f g mc w ->
  labels_everywhere L g mc w n "ml_g" y (fun j => d j = 0) -> labels_everywhere L g mc w n "ml_g" y (fun j => d j = 1) -> labels_everywhere L g mc w n "ml_m" d everyone ->
  fit C nj store ext smod w = (w', Ok tt) -> within n B y ->
  (forall r fs v, used_prediction L f g mc w n ext r 0 dcol "ml_g0" "ml_g" x y (group_rows n (fun j => d j = 0)) fs v -> within n B v) ->
  (forall r fs v, used_prediction L f g mc w n ext r 0 dcol "ml_g1" "ml_g" x y (group_rows n (fun j => d j = 1)) fs v -> within n B v) ->
  exists F sm, fit_done w w' F sm 1 /\ forall r fs, nth_error sm r = Some fs -> exists m0 m, used_prediction L f g mc w n ext r 0 dcol "ml_m" "ml_m" x d whole_train fs m0 /\ clipped n true thr m0 m /\
    (off_bounds n (ps_adjust n m d true) -> - (6 * B) <= at_ (fw_all_thetas F) [0%nat; r] <= 6 * B).
Proof. exact (irm_normalised_bounded L f g mc n dcol bo thr w_ x y d strata w nj store ext smod w' B). Qed.
Print Assumptions C107_interactive_normalised.

(** Effect on the treated: the bound also depends on the number of controls per
    treated observation. *)
Theorem C107_effect_on_treated {E P : Type} (L : learner E row P) (f : E -> row -> R) (g : E -> row -> list R) (mc : machinery E P) n dcol bo thr w_ x y d strata w nj store ext smod w' B : let C := irm_ctx L mc n dcol true false bo true thr w_ x y d strata in
  (0 < n)%nat -> 0 < thr < 1 / 2 -> binary n d -> 0 < sumf n d -> (forall r, w_ r = unit_weights) -> soundly_reached C w -> sound_learning L f g mc w ->
  labels_everywhere L g mc w n "ml_g" y (fun j => d j = 0) -> labels_everywhere L g mc w n "ml_g" y (fun j => d j = 1) -> labels_everywhere L g mc w n "ml_m" d everyone ->
  fit C nj store ext smod w = (w', Ok tt) -> within n B y ->
  (forall r fs v, used_prediction L f g mc w n ext r 0 dcol "ml_g0" "ml_g" x y (group_rows n (fun j => d j = 0)) fs v -> within n B v) ->
  exists F sm, fit_done w w' F sm 1 /\ forall r, (r < length sm)%nat ->
    let K := 2 * B + 2 * B * ((1 - thr) / thr) * ((INR n - sumf n d) / sumf n d) in
    - K <= at_ (fw_all_thetas F) [0%nat; r] <= K.
Proof. exact (atte_bounded L f g mc n dcol bo thr w_ x y d strata w nj store ext smod w' B). Qed.
Print Assumptions C107_effect_on_treated.

(** Average potential outcome. *)
Theorem C107_potential_outcome {E P : Type} (L : learner E row P) (f : E -> row -> R) (g : E -> row -> list R) (mc : machinery E P) n dcol bo thr x y d lvl strata w nj store ext smod w' B : let C := apo_ctx L mc n dcol false bo true thr (weights_of WNone) x y d lvl strata in
  (0 < n)%nat -> 0 < thr < 1 / 2 -> binary n lvl -> soundly_reached C w -> sound_learning L f g mc w ->
  labels_everywhere L g mc w n "ml_g" y (fun j => lvl j = 0) -> labels_everywhere L g mc w n "ml_g" y (fun j => lvl j = 1) -> labels_everywhere L g mc w n "ml_m" lvl everyone ->
  fit C nj store ext smod w = (w', Ok tt) -> within n B y ->
  (forall r fs v, used_prediction L f g mc w n ext r 0 dcol "ml_g_d_lvl1" "ml_g" x y (group_rows n (fun j => lvl j = 1)) fs v -> within n B v) ->
  exists F sm, fit_done w w' F sm 1 /\ forall r, (r < length sm)%nat -> bounded_estimate F n 0 r (B + 2 * B / thr).
Proof. exact (apo_bounded L f g mc n dcol bo thr x y d lvl strata w nj store ext smod w' B). Qed.
Print Assumptions C107_potential_outcome.

(** Sample selection models divide by the predicted probability of selection, which
    is not trimmed. *)
Theorem C107_selection_refuted : selection_unbounded.
Proof. exact unbounded. Qed.
Print Assumptions C107_selection_refuted.

(** Propensities predicted to be 1/1000, threshold 1/100. *)
Example C107_case_low_propensities : forall atte norm, bounded_case atte norm.
Proof. exact bounded_holds. Qed.

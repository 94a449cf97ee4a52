(** The estimate of the interactive model where its divisions are defined. *)
From Verif Require Import L_NuisCases.
From Coq Require Import Lia Lra.
Local Open Scope R_scope.
Local Open Scope string_scope.

Lemma irm_fit_defined : forall (E P : Type) (L : learner E row P) f g (mc : machinery E P) n dcol norm bo tr thr w_ x y d strata w nj store ext smod w',
  let C := irm_ctx L mc n dcol false norm bo tr thr w_ x y d strata in
  (0 < n)%nat -> (forall r, w_ r = unit_weights) -> soundly_reached C w -> sound_learning L f g mc w ->
  labels_everywhere L g mc w n "ml_g" y (fun j => d j = 0) -> labels_everywhere L g mc w n "ml_g" y (fun j => d j = 1) -> labels_everywhere L g mc w n "ml_m" d everyone ->
  fit C nj store ext smod w = (w', Ok tt) ->
  exists F sm, current_fw w' F /\ fw_wf F /\ fw_aggregated F /\ m_smpls (w_obj w) = Some sm /\ fw_n_rep F = length sm /\ fw_n_thetas F = 1%nat /\
    forall r fs, nth_error sm r = Some fs -> exists g0 g1 m0 m,
      used_prediction L f g mc w n ext r 0 dcol "ml_g0" "ml_g" x y (group_rows n (fun j => d j = 0)) fs g0 /\
      used_prediction L f g mc w n ext r 0 dcol "ml_g1" "ml_g" x y (group_rows n (fun j => d j = 1)) fs g1 /\
      used_prediction L f g mc w n ext r 0 dcol "ml_m" "ml_m" x d whole_train fs m0 /\
      (forall i, (i < n)%nat -> m i = if tr then Rmin (Rmax (m0 i) thr) (1 - thr) else m0 i) /\
      let s := dr_signal y d g0 g1 (ps_adjust n m d norm) in
      (forall i, (i < n)%nat -> ps_adjust n m d norm i <> 0 /\ ps_adjust n m d norm i <> 1) ->
      at_ (fw_all_thetas F) [0%nat; r] = meanf n s /\
      at_ (fw_all_ses F) [0%nat; r] = sqrt (sumf n (fun i => (s i - meanf n s) ^ 2)) / INR n.
Proof.
  intros E P L f g mc n dcol norm bo tr thr w_ x y d strata w nj store ext smod w' C H1 H2 H3 H4 H5 H6 H7 H8.
  destruct (irm_fit L f g mc n dcol norm bo tr thr w_ x y d strata w nj store ext smod w' H1 H2 H3 H4 H5 H6 H7 H8) as (F & sm & A & B & D & G & I & J & K). exists F, sm.
  repeat (split; [assumption|]). intros r fs Hr. destruct (K r fs Hr) as (g0 & g1 & m0 & m & U0 & U1 & Um & Hm & T). exists g0, g1, m0, m.
  repeat (split; [assumption|]). intros s _. exact T.
Qed.

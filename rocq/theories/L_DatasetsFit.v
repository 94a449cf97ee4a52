(** Estimates of the model classes on simulated data: the true parameter plus terms that vanish with the
    noise and with the errors of the predictions. *)
From Verif Require Export L_DatasetsModels L_DatasetsMore L_DatasetsOracle L_InitFit.
From Coq Require Import Lia Lra.
Local Open Scope R_scope.
Local Open Scope string_scope.

Lemma object_of ret n arrays cols r f s : returned ret asks_data n arrays cols r (OutData f s) ->
  holds n cols f /\ S_Data.reachable f s /\ M_Data.dd_roles s = r.
Proof.
  intros (A & F & D & [H|[H|H]]).
  - specialize (A H). discriminate.
  - destruct (F H) as (f' & Q & _). discriminate.
  - destruct (D H) as (f' & s' & Q & Ho & Co & Ro). injection Q as <- <-. split; [exact Ho|]. split; [now apply S_Data.R_new|exact Ro].
Qed.
Lemma col_holds n cols f c v : holds n cols f -> In (c, v) cols -> forall i, (i < n)%nat -> col f c i = v i.
Proof. intros (_ & _ & _ & H) I i Hi. unfold col. now rewrite (H c v I i Hi). Qed.
Lemma in_named_app p k x l c v : In (c, v) l -> In (c, v) (named p k x ++ l)%list.
Proof. intro H. apply in_or_app. now right. Qed.

(** The estimates of partially linear data. *)
Lemma partial_formula n (alpha : R) (y d z l m q l0 m0 q0 v w u : vec) :
  (forall i, (i < n)%nat -> z i = m0 i + v i /\ d i = q0 i + w i /\ y i = alpha * (d i - q0 i) + l0 i + u i) ->
  sumf n (fun i => (v i + (m0 i - m i)) * (w i + (q0 i - q i))) <> 0 ->
  sumf n (fun i => (z i - m i) * (d i - q i)) <> 0 /\
  sumf n (fun i => (z i - m i) * (y i - l i)) / sumf n (fun i => (z i - m i) * (d i - q i)) =
  alpha + partial_error n alpha v w u (minus_v m0 m) (minus_v q0 q) (minus_v l0 l).
Proof.
  intros Q N. unfold partial_error, minus_v. assert (E : sumf n (fun i => (z i - m i) * (d i - q i)) = sumf n (fun i => (v i + (m0 i - m i)) * (w i + (q0 i - q i)))).
  { apply sumf_ext. intros i Hi. destruct (Q i Hi) as (-> & -> & _). ring. }
  rewrite E. split; [exact N|].
  assert (E2 : sumf n (fun i => (z i - m i) * (y i - l i)) = alpha * sumf n (fun i => (v i + (m0 i - m i)) * (w i + (q0 i - q i))) + sumf n (fun i => (v i + (m0 i - m i)) * (u i + (l0 i - l i) - alpha * (q0 i - q i)))).
  { rewrite <- sumf_scal, <- sumf_plus. apply sumf_ext. intros i Hi. destruct (Q i Hi) as (-> & -> & ->). ring. }
  rewrite E2. field. exact N.
Qed.
Lemma partial_exact n (alpha : R) (v w u dm dw dl : vec) : (forall i, (i < n)%nat -> dm i = 0 /\ dw i = 0 /\ dl i = 0) ->
  partial_error n alpha v w u dm dw dl = sumf n (fun i => v i * u i) / sumf n (fun i => v i * w i).
Proof. intro H. unfold partial_error. f_equal; apply sumf_ext; intros i Hi; destruct (H i Hi) as (E1 & E2 & E3); rewrite ?E1, ?E2, ?E3; ring. Qed.

Section Partially.
  Context {E P : Type} (L : learner E row P) (f : E -> row -> R) (g : E -> row -> list R).
  Lemma plm_estimate rd fr s n y d alpha l0 m0 v u ml_l ml_m ml_g nf nr draw C w0 w nj store ext smod w' :
    (0 < n)%nat -> M_Data.frows fr = n -> S_Data.reachable fr s -> M_Data.dd_roles s = M_Data.mk_roles "y" ["d"] (M_Data.r_x (M_Data.dd_roles s)) None None None None ->
    (forall i, (i < n)%nat -> col fr "y" i = y i) -> (forall i, (i < n)%nat -> col fr "d" i = d i) ->
    (forall i, (i < n)%nat -> d i = m0 i + v i /\ y i = alpha * (d i - m0 i) + l0 i + u i) -> sound_randomness rd ->
    plr_init L rd fr s ml_l ml_m ml_g nf nr (PStr "partialling out") draw = Ok (C, w0) -> later C w0 w ->
    exists mc, mc_order mc = rd_order rd /\ runs_on mc "ml_l" ml_l false /\ runs_on mc "ml_m" ml_m (ly_classifier ml_m) /\
    (sound_learning L f g mc w -> labels_everywhere L g mc w n "ml_l" (col fr "y") everyone -> labels_everywhere L g mc w n "ml_m" (col fr "d") everyone ->
     fit C nj store ext smod w = (w', Ok tt) ->
     exists F sm, fit_done w w' F sm 1 /\ forall r fs, nth_error sm r = Some fs -> exists l m,
       used_prediction L f g mc w n ext r 0 "d" "ml_l" "ml_l" (covariates fr s "d") (col fr "y") whole_train fs l /\
       used_prediction L f g mc w n ext r 0 "d" "ml_m" "ml_m" (covariates fr s "d") (col fr "d") whole_train fs m /\
       (sumf n (fun i => (v i + (m0 i - m i)) * (v i + (m0 i - m i))) <> 0 ->
        at_ (fw_all_thetas F) [0%nat; r] = alpha + partial_error n alpha v v u (minus_v m0 m) (minus_v m0 m) (minus_v l0 l))).
  Proof.
    intros Hn Fr Re Ro Hy Hd Q SR IN LT. subst n.
    destruct (plr_end E P L f g rd fr s ml_l ml_m ml_g nf nr draw C w0 w nj store ext smod w' Re ltac:(unfold unclustered; rewrite Ro; reflexivity) SR Hn IN LT) as (mc & Mo & R1 & R2 & H).
    exists mc. split; [exact Mo|]. split; [exact R1|]. split; [exact R2|]. cbv zeta in H.
    assert (Oy : outcome fr s = col fr "y") by (unfold outcome; rewrite Ro; reflexivity). assert (Od : M_Data.r_d (M_Data.dd_roles s) = ["d"]) by (rewrite Ro; reflexivity).
    rewrite Oy, Od in H. intros SL Ll Lm Fi. destruct (H SL Ll ltac:(intros c [<-|[]]; exact Lm) Fi) as (F & sm & H1 & H2 & H3 & H4 & H5 & H6 & K).
    exists F, sm. split; [unfold fit_done; repeat (split; [assumption|]); exact H6|]. intros r fs Hr. destruct (K r 0%nat fs "d" Hr eq_refl) as (l & m & U1 & U2 & T).
    exists l, m. split; [exact U1|]. split; [exact U2|]. intro N.
    destruct (partial_formula (M_Data.frows fr) alpha (col fr "y") (col fr "d") (col fr "d") l m m l0 m0 m0 v v u) as (N' & Fo); [|exact N|].
    - intros i Hi. rewrite (Hy i Hi), (Hd i Hi). destruct (Q i Hi) as (E1 & E2). auto.
    - rewrite <- Fo. rewrite (sumf_ext _ (fun i => (col fr "d" i - m i) * (col fr "d" i - m i)) (fun i => (col fr "d" i - m i) ^ 2)) in * by (intros; ring). destruct (T N') as (T1 & _). exact T1.
  Qed.
End Partially.

Section Plr.
  Context {E P : Type} (L : learner E row P) (f : E -> row -> R) (g : E -> row -> list R).
  Lemma plr_estimate rd n k alpha a0 a1 s1 b0 b1 s2 ret x v zeta fr s ml_l ml_m ml_g nf nr draw C w0 w nj store ext smod w' :
    (0 < n)%nat -> make_plr n k alpha a0 a1 s1 b0 b1 s2 ret x v zeta = Ok (OutData fr s) -> sound_randomness rd ->
    plr_init L rd fr s ml_l ml_m ml_g nf nr (PStr "partialling out") draw = Ok (C, w0) -> later C w0 w ->
    let v' := times_v (kw s1 1) v in let u := times_v (kw s2 1) zeta in
    let m0 := plr_m (kw a0 1) (kw a1 0.25) x in let l0 := plr_l alpha (kw a0 1) (kw a1 0.25) (kw b0 1) (kw b1 0.25) x in
    exists mc, mc_order mc = rd_order rd /\ runs_on mc "ml_l" ml_l false /\ runs_on mc "ml_m" ml_m (ly_classifier ml_m) /\
    (sound_learning L f g mc w -> labels_everywhere L g mc w n "ml_l" (col fr "y") everyone -> labels_everywhere L g mc w n "ml_m" (col fr "d") everyone ->
     fit C nj store ext smod w = (w', Ok tt) ->
     exists F sm, fit_done w w' F sm 1 /\ forall r fs, nth_error sm r = Some fs -> exists l m,
       used_prediction L f g mc w n ext r 0 "d" "ml_l" "ml_l" (covariates fr s "d") (col fr "y") whole_train fs l /\
       used_prediction L f g mc w n ext r 0 "d" "ml_m" "ml_m" (covariates fr s "d") (col fr "d") whole_train fs m /\
       (sumf n (fun i => (v' i + (m0 i - m i)) * (v' i + (m0 i - m i))) <> 0 ->
        at_ (fw_all_thetas F) [0%nat; r] = alpha + partial_error n alpha v' v' u (minus_v m0 m) (minus_v m0 m) (minus_v l0 l))).
  Proof.
    intros Hn Mk SR IN LT v' u m0 l0. destruct (plr_simulated _ _ _ _ _ _ _ _ _ _ _ _ _ _ Mk) as (y & d & Rt & M). destruct (object_of _ _ _ _ _ _ _ Rt) as (Ho & Re & Ro).
    apply (plm_estimate L f g rd fr s n y d alpha l0 m0 v' u ml_l ml_m ml_g nf nr draw C w0 w nj store ext smod w' Hn (proj1 Ho) Re); auto.
    - rewrite Ro. reflexivity.
    - apply (col_holds n _ fr "y" y Ho). apply in_named_app. left. reflexivity.
    - apply (col_holds n _ fr "d" d Ho). apply in_named_app. right. left. reflexivity.
    - intros i Hi. destruct (M i Hi) as (D & Y). unfold l0, plr_l, m0, plr_m, v', u, times_v. rewrite Y, D. split; ring.
  Qed.
  Lemma turrell_estimate rd n k theta nu gamma ret x v u fr s ml_l ml_m ml_g nf nr draw C w0 w nj store ext smod w' :
    (0 < n)%nat -> make_turrell n k theta nu gamma ret x v u = Ok (OutData fr s) -> sound_randomness rd ->
    plr_init L rd fr s ml_l ml_m ml_g nf nr (PStr "partialling out") draw = Ok (C, w0) -> later C w0 w ->
    let m0 := turrell_m k (kw nu 0) (kw gamma 1) x in let l0 := turrell_l k theta (kw nu 0) (kw gamma 1) x in
    exists mc, mc_order mc = rd_order rd /\ runs_on mc "ml_l" ml_l false /\ runs_on mc "ml_m" ml_m (ly_classifier ml_m) /\
    (sound_learning L f g mc w -> labels_everywhere L g mc w n "ml_l" (col fr "y") everyone -> labels_everywhere L g mc w n "ml_m" (col fr "d") everyone ->
     fit C nj store ext smod w = (w', Ok tt) ->
     exists F sm, fit_done w w' F sm 1 /\ forall r fs, nth_error sm r = Some fs -> exists l m,
       used_prediction L f g mc w n ext r 0 "d" "ml_l" "ml_l" (covariates fr s "d") (col fr "y") whole_train fs l /\
       used_prediction L f g mc w n ext r 0 "d" "ml_m" "ml_m" (covariates fr s "d") (col fr "d") whole_train fs m /\
       (sumf n (fun i => (v i + (m0 i - m i)) * (v i + (m0 i - m i))) <> 0 ->
        at_ (fw_all_thetas F) [0%nat; r] = theta + partial_error n theta v v u (minus_v m0 m) (minus_v m0 m) (minus_v l0 l))).
  Proof.
    intros Hn Mk SR IN LT m0 l0. destruct (turrell_simulated _ _ _ _ _ _ _ _ _ _ Mk) as (y & d & Rt & M). destruct (object_of _ _ _ _ _ _ _ Rt) as (Ho & Re & Ro).
    apply (plm_estimate L f g rd fr s n y d theta l0 m0 v u ml_l ml_m ml_g nf nr draw C w0 w nj store ext smod w' Hn (proj1 Ho) Re); auto.
    - rewrite Ro. reflexivity.
    - apply (col_holds n _ fr "y" y Ho). apply in_named_app. left. reflexivity.
    - apply (col_holds n _ fr "d" d Ho). apply in_named_app. right. left. reflexivity.
    - intros i Hi. destruct (M i Hi) as (D & Y). cbv zeta in D, Y. unfold l0, turrell_l, m0, turrell_m. rewrite Y, D. split; ring.
  Qed.
End Plr.

Section More.
  Context {E P : Type} (L : learner E row P) (f : E -> row -> R) (g : E -> row -> list R).
  (** The true nuisance functions are supplied. *)
  Lemma plr_truth rd n k alpha a0 a1 s1 b0 b1 s2 ret x v zeta fr s ml_l ml_m ml_g nf nr draw C w0 w nj store ext smod w' :
    (0 < n)%nat -> make_plr n k alpha a0 a1 s1 b0 b1 s2 ret x v zeta = Ok (OutData fr s) -> sound_randomness rd ->
    plr_init L rd fr s ml_l ml_m ml_g nf nr (PStr "partialling out") draw = Ok (C, w0) -> later C w0 w ->
    let m0 := plr_m (kw a0 1) (kw a1 0.25) x in let l0 := plr_l alpha (kw a0 1) (kw a1 0.25) (kw b0 1) (kw b1 0.25) x in
    exists mc, mc_order mc = rd_order rd /\ runs_on mc "ml_l" ml_l false /\ runs_on mc "ml_m" ml_m (ly_classifier ml_m) /\
    (sound_learning L f g mc w -> labels_everywhere L g mc w n "ml_l" (col fr "y") everyone -> labels_everywhere L g mc w n "ml_m" (col fr "d") everyone ->
     fit C nj store ext smod w = (w', Ok tt) ->
     exists F sm, fit_done w w' F sm 1 /\ forall r fs l m, nth_error sm r = Some fs ->
       supplied ext "d" "ml_l" r l -> supplied ext "d" "ml_m" r m -> (forall i, (i < n)%nat -> l i = l0 i /\ m i = m0 i) ->
       kw s1 1 <> 0 -> sumf n (fun i => v i ^ 2) <> 0 ->
       at_ (fw_all_thetas F) [0%nat; r] = alpha + kw s2 1 / kw s1 1 * (sumf n (fun i => v i * zeta i) / sumf n (fun i => v i ^ 2))).
  Proof.
    intros Hn Mk SR IN LT m0 l0. destruct (plr_estimate L f g rd n k alpha a0 a1 s1 b0 b1 s2 ret x v zeta fr s ml_l ml_m ml_g nf nr draw C w0 w nj store ext smod w' Hn Mk SR IN LT) as (mc & Mo & R1 & R2 & H).
    exists mc. split; [exact Mo|]. split; [exact R1|]. split; [exact R2|]. intros SL Ll Lm Fi. destruct (H SL Ll Lm Fi) as (F & sm & D & K). exists F, sm. split; [exact D|].
    intros r fs l m Hr Sl Sm T N1 N2. destruct (K r fs Hr) as (l' & m' & (U1 & _) & (U2 & _) & Q). specialize (U1 l Sl). specialize (U2 m Sm).
    fold m0 l0 in Q. set (sa := kw s1 1) in *. set (sb := kw s2 1) in *.
    assert (D0 : forall i, (i < n)%nat -> minus_v m0 m' i = 0 /\ minus_v m0 m' i = 0 /\ minus_v l0 l' i = 0) by (intros i Hi; unfold minus_v; rewrite U1, U2; destruct (T i Hi) as (-> & ->); repeat split; ring).
    assert (V : sumf n (fun i => times_v sa v i * times_v sa v i) = sa ^ 2 * sumf n (fun i => v i ^ 2)) by (rewrite <- sumf_scal; apply sumf_ext; intros; unfold times_v; ring).
    assert (U : sumf n (fun i => times_v sa v i * times_v sb zeta i) = sa * sb * sumf n (fun i => v i * zeta i)) by (rewrite <- sumf_scal; apply sumf_ext; intros; unfold times_v; ring).
    rewrite Q.
    - rewrite partial_exact by exact D0. rewrite U, V. field. auto.
    - rewrite (sumf_ext n _ (fun i => times_v sa v i * times_v sa v i)) by (intros i Hi; destruct (D0 i Hi) as (Z & _); unfold minus_v in Z; rewrite Z; ring).
      rewrite V. apply Rmult_integral_contrapositive_currified; [now apply pow_nonzero|exact N2].
  Qed.
  (** One instrument. *)
  Lemma pliv_estimate rd n alpha k ret x eps u xi fr s ml_l ml_m ml_r ml_g nf nr draw C w0 w nj store ext smod w' proj :
    (0 < n)%nat -> make_pliv n alpha k 1 ret x eps u xi = Ok (OutData fr s) -> sound_randomness rd ->
    pliv_init L rd fr s proj ml_l ml_m ml_r ml_g nf nr (PStr "partialling out") draw = Ok (C, w0) -> later C w0 w ->
    let z i := xi i 0%nat in let q i := xi i 0%nat + u i in
    let xb := inner k x (fun j => / INR (S j) ^ 2) in
    let m0 i := x i 0%nat in let q0 i := xb i + x i 0%nat in let l0 i := alpha * q0 i + xb i in
    exists mc, mc_order mc = rd_order rd /\ runs_on mc "ml_l" ml_l false /\ runs_on mc "ml_m" ml_m false /\ runs_on mc "ml_r" ml_r false /\
    (sound_learning L f g mc w -> labels_everywhere L g mc w n "ml_l" (col fr "y") everyone -> labels_everywhere L g mc w n "ml_m" (col fr "Z1") everyone -> labels_everywhere L g mc w n "ml_r" (col fr "d") everyone ->
     fit C nj store ext smod w = (w', Ok tt) ->
     exists F sm, fit_done w w' F sm 1 /\ forall r fs, nth_error sm r = Some fs -> exists l m p,
       used_prediction L f g mc w n ext r 0 "d" "ml_l" "ml_l" (covariates fr s "d") (col fr "y") whole_train fs l /\
       used_prediction L f g mc w n ext r 0 "d" "ml_m" "ml_m" (covariates fr s "d") (col fr "Z1") whole_train fs m /\
       used_prediction L f g mc w n ext r 0 "d" "ml_r" "ml_r" (covariates fr s "d") (col fr "d") whole_train fs p /\
       (sumf n (fun i => (z i + (m0 i - m i)) * (q i + (q0 i - p i))) <> 0 ->
        at_ (fw_all_thetas F) [0%nat; r] = alpha + partial_error n alpha z q eps (minus_v m0 m) (minus_v q0 p) (minus_v l0 l))).
  Proof.
    intros Hn Mk SR IN LT z q xb m0 q0 l0. destruct (pliv_simulated _ _ _ _ _ _ _ _ _ _ Mk) as (y & d & zz & Rt & M). destruct (object_of _ _ _ _ _ _ _ Rt) as (Ho & Re & Ro). pose proof (proj1 Ho) as Fr. subst n.
    destruct (pliv_end E P L f g rd fr s "Z1" proj ml_l ml_m ml_r ml_g nf nr draw C w0 w nj store ext smod w' Re ltac:(unfold unclustered; rewrite Ro; reflexivity) SR Hn ltac:(rewrite Ro; reflexivity) IN LT) as (mc & Mo & R1 & R2 & R3 & H).
    exists mc. split; [exact Mo|]. split; [exact R1|]. split; [exact R2|]. split; [exact R3|]. cbv zeta in H.
    assert (Oy : outcome fr s = col fr "y") by (unfold outcome; rewrite Ro; reflexivity). assert (Od : M_Data.r_d (M_Data.dd_roles s) = ["d"]) by (rewrite Ro; reflexivity).
    rewrite Oy, Od in H. intros SL Ll Lm Lr Fi. destruct (H SL Ll Lm ltac:(intros c [<-|[]]; exact Lr) Fi) as (F & sm & Dn & K).
    exists F, sm. split; [exact Dn|]. intros r fs Hr. destruct (K r 0%nat fs "d" Hr eq_refl) as (l & m & p & U1 & U2 & U3 & T).
    exists l, m, p. split; [exact U1|]. split; [exact U2|]. split; [exact U3|]. intro N.
    destruct (partial_formula (M_Data.frows fr) alpha (col fr "y") (col fr "d") (col fr "Z1") l m p l0 m0 q0 z q eps) as (N' & Fo); [|exact N|].
    - intros i Hi. rewrite (col_holds _ _ fr "y" y Ho), (col_holds _ _ fr "d" d Ho), (col_holds _ _ fr "Z1" (fun i => zz i 0%nat) Ho) by (auto; apply in_named_app; cbn; auto).
      destruct (M i Hi) as (Z & D & Y). rewrite (Z 0%nat) by lia. split; [reflexivity|].
      assert (D' : d i = q0 i + q i).
      { rewrite D. unfold q0, q, xb. unfold inner at 2. unfold sumf at 1. cbn [seq map Rsum INR]. rewrite (Z 0%nat) by lia. field. }
      split; [exact D'|]. rewrite Y. unfold l0. fold xb. ring.
    - rewrite <- Fo. exact (proj1 (T N')).
  Qed.
  (** Interactive data, average effect. *)
  Lemma irm_estimate rd n k theta r2_d r2_y ret x v zeta fr s ml_g ml_m nf nr nm rule thr draw C w0 w nj store ext smod w' :
    (0 < n)%nat -> (0 < k)%nat -> 0 <= r2_d < 1 -> 0 <= r2_y < 1 -> make_irm n k theta r2_d r2_y ret x v zeta = Ok (OutData fr s) -> sound_randomness rd ->
    irm_init L rd fr s ml_g ml_m nf nr (PStr "ATE") WNone (PBool nm) rule (PFloat thr) draw = Ok (C, w0) -> later C w0 w ->
    exists cy mc, 0 <= cy /\ mc_order mc = rd_order rd /\ runs_on mc "ml_g" ml_g (ly_classifier ml_g) /\ runs_on mc "ml_m" ml_m true /\
    let d := col fr "d" in let y := col fr "y" in let xb := inner k x (fun j => / INR (S j) ^ 2) in
    (sound_learning L f g mc w ->
    labels_everywhere L g mc w n "ml_g" y (fun j => d j = 0) -> labels_everywhere L g mc w n "ml_g" y (fun j => d j = 1) -> labels_everywhere L g mc w n "ml_m" d everyone ->
    fit C nj store ext smod w = (w', Ok tt) ->
    exists F sm, fit_done w w' F sm 1 /\ forall r fs, nth_error sm r = Some fs -> (r < m_n_rep (w_obj w0))%nat -> exists g0 g1 p m,
      used_prediction L f g mc w n ext r 0 "d" "ml_g0" "ml_g" (covariates fr s "d") y (group_rows n (fun j => d j = 0)) fs g0 /\
      used_prediction L f g mc w n ext r 0 "d" "ml_g1" "ml_g" (covariates fr s "d") y (group_rows n (fun j => d j = 1)) fs g1 /\
      used_prediction L f g mc w n ext r 0 "d" "ml_m" "ml_m" (covariates fr s "d") d whole_train fs p /\ clipped n true thr p m /\
      let ma := ps_adjust n m d nm in
      (off_bounds n ma -> at_ (fw_all_thetas F) [0%nat; r] =
        theta + cy * meanf n xb + interactive_error n d ma zeta (fun i => 0 - g0 i) (fun i => theta + cy * xb i - g1 i))).
  Proof.
    intros Hn Hk R1 R2 Mk SR IN LT. destruct (irm_simulated _ _ _ _ _ _ _ _ _ _ Hk R1 R2 Mk) as (y & d & Rt & M). destruct (object_of _ _ _ _ _ _ _ Rt) as (Ho & Re & Ro). pose proof (proj1 Ho) as Fr. subst n.
    destruct M as (cy & cd & M). cbv zeta in M. destruct M as (Cy & _ & _ & _ & M).
    destruct (irm_end E P L f g rd fr s ml_g ml_m nf nr WNone nm rule thr draw C w0 w nj store ext smod w' Re ltac:(unfold unclustered; rewrite Ro; reflexivity) SR Hn IN LT) as (dcol & mc & (Bd & _) & Mo & Q1 & Q2 & H).
    assert (dcol = "d") as -> by (rewrite Ro in Bd; injection Bd; auto).
    exists cy, mc. split; [exact Cy|]. split; [exact Mo|]. split; [exact Q1|]. split; [exact Q2|]. cbv zeta in *.
    assert (Oy : outcome fr s = col fr "y") by (unfold outcome; rewrite Ro; reflexivity). rewrite Oy in H.
    intros SL L0 L1 Lm Fi. destruct (H SL L0 L1 Lm Fi) as (F & sm & Dn & K). exists F, sm. split; [exact Dn|]. intros r fs Hr Hr'. destruct (K r fs Hr Hr') as (g0 & g1 & p & m & U0 & U1 & U2 & Cl & T).
    exists g0, g1, p, m. split; [exact U0|]. split; [exact U1|]. split; [exact U2|]. split; [exact Cl|]. intro Ob. destruct (T Ob) as (-> & _).
    set (n := M_Data.frows fr) in *. set (ma := ps_adjust n m (col fr "d") nm) in *. set (xb := inner k x _) in *. unfold interactive_error.
    rewrite <- meanf_scal. rewrite <- (meanf_const n theta Hn) at 1. rewrite Rplus_assoc, <- !meanf_plus. apply meanf_ext. intros i Hi. cbn [weights_of unit_weights wg wg_bar resid_weights].
    rewrite (col_holds _ _ fr "y" y Ho), (col_holds _ _ fr "d" d Ho) by (auto; apply in_named_app; cbn; auto). destruct (M i Hi) as (Di & ->). fold xb.
    destruct (Ob i Hi) as (Nz & N1). destruct (indicator_01 _ _ Di) as [->| ->]; field; auto; split; auto; intro Q; apply N1; lra.
  Qed.
  (** Panel data. *)
  Lemma did_estimate rd n dgp xi lambda_t ret x eps0 eps1 u nu u_t fr s ml_g ml_m nf nr nm rule thr draw C w0 w nj store ext smod w' :
    (0 < n)%nat -> (forall j, (j < 4)%nat -> varied n x j) -> make_did n dgp false xi lambda_t ret x eps0 eps1 u nu u_t = Ok (OutData fr s) -> sound_randomness rd ->
    did_init L rd fr s ml_g ml_m nf nr (PStr "observational") (PBool nm) rule (PFloat thr) draw = Ok (C, w0) -> later C w0 w ->
    exists z w_reg w_ps mc, (forall j, (j < 4)%nat -> standardised n x z j) /\ dgp_features dgp x z = Some (w_reg, w_ps) /\
    mc_order mc = rd_order rd /\ runs_on mc "ml_g" ml_g (ly_classifier ml_g) /\ (exists l, ml_m = Some l /\ runs_on mc "ml_m" l true) /\
    let d := col fr "d" in let y := col fr "y" in
    (sound_learning L f g mc w ->
    labels_everywhere L g mc w n "ml_g" y (fun j => d j = 0) -> labels_everywhere L g mc w n "ml_g" y (fun j => d j = 1) -> labels_everywhere L g mc w n "ml_m" d everyone ->
    fit C nj store ext smod w = (w', Ok tt) ->
    exists F sm, fit_done w w' F sm 1 /\ forall r fs, nth_error sm r = Some fs -> exists g0 q m p,
      used_prediction L f g mc w n ext r 0 "d" "ml_g0" "ml_g" (covariates fr s "d") y (group_rows n (fun j => d j = 0)) fs g0 /\
      used_prediction L f g mc w n ext r 0 "d" "ml_m" "ml_m" (covariates fr s "d") d whole_train fs q /\ clipped n true thr q m /\ share_of fs d p /\
      let odds := fun i => (1 - d i) * (m i / (1 - m i)) in let a := share_weight n nm d p in
      (share_ok n nm d p -> share_ok n nm odds p -> sumf n a <> 0 ->
       at_ (fw_all_thetas F) [0%nat; r] =
         sumf n (fun i => (a i - share_weight n nm odds p i) * ((regression w_reg i - g0 i) + (eps1 i (arm_of (d i)) - eps0 i))) / sumf n a)).
  Proof.
    intros Hn Va Mk SR IN LT. destruct (did_simulated _ _ _ _ _ _ _ _ _ _ _ _ _ Va Mk) as (z & w_reg & w_ps & d & y0 & y1 & Df & St & M & y & Rt & Y). destruct (object_of _ _ _ _ _ _ _ Rt) as (Ho & Re & Ro). pose proof (proj1 Ho) as Fr. subst n.
    destruct (did_obs_end E P L f g rd fr s ml_g ml_m nf nr nm rule thr draw C w0 w nj store ext smod w' Re ltac:(unfold unclustered; rewrite Ro; reflexivity) SR Hn IN LT) as (dcol & mc & (Bd & _) & Mo & Q1 & Q2 & H).
    assert (dcol = "d") as -> by (rewrite Ro in Bd; injection Bd; auto).
    exists z, w_reg, w_ps, mc. split; [exact St|]. split; [exact Df|]. split; [exact Mo|]. split; [exact Q1|]. split; [exact Q2|]. cbv zeta in *.
    assert (Oy : outcome fr s = col fr "y") by (unfold outcome; rewrite Ro; reflexivity). rewrite Oy in H.
    intros SL L0 L1 Lm Fi. destruct (H SL L0 L1 Lm Fi) as (F & sm & Dn & K). exists F, sm. split; [exact Dn|]. intros r fs Hr. destruct (K r fs Hr) as (g0 & q & m & p & U0 & U2 & Cl & Sh & T).
    exists g0, q, m, p. split; [exact U0|]. split; [exact U2|]. split; [exact Cl|]. split; [exact Sh|]. intros S1 S2 N. destruct (T S1 S2 N) as (-> & _). f_equal. apply sumf_ext. intros i Hi. f_equal.
    rewrite (col_holds _ _ fr "y" y Ho), (col_holds _ _ fr "d" d Ho) by (auto; apply in_named_app; cbn; auto). rewrite (Y i Hi).
    destruct (did_differences _ _ _ _ _ _ _ _ _ _ _ M i Hi) as (_ & ->). ring.
  Qed.
End More.

Lemma interactive_exact n d ma zeta e0 e1 : (0 < n)%nat -> (forall i, (i < n)%nat -> zeta i = 0) ->
  (forall i, (i < n)%nat -> e0 i = 0 /\ e1 i = 0) -> off_bounds n ma -> interactive_error n d ma zeta e0 e1 = 0.
Proof.
  intros Hn Z Q Ob. unfold interactive_error. rewrite (meanf_ext n _ (fun _ => 0)) by (intros i Hi; rewrite (Z i Hi); unfold Rdiv; ring).
  rewrite (meanf_ext n (fun i => e1 i * _ - _) (fun _ => 0)); [rewrite !meanf_const by exact Hn; ring|].
  intros i Hi. destruct (Ob i Hi) as (N0 & N1). destruct (Q i Hi) as (-> & ->); field; try split; auto; intro; apply N1; lra.
Qed.

(** Specifications for the complete quantile models: what each nuisance function
    is fitted on, and what the fit reports. *)
From Verif Require Export M_Local S_Quantile.
Local Open Scope R_scope.
Local Open Scope string_scope.

(** The rows among [src] with value [b] of [v], in the given order. *)
Definition those (v : vec) (b : R) (src : list nat) : list nat := filter (fun i => if Req_EM_T (v i) b then true else false) src.

Section Spec.
Context {E X P : Type}.
Variable L : learner E X P.
Variables (f : E -> X -> R) (g : E -> X -> list R).
(** Prediction of a 0/1 variable: the second of two class probabilities, the
    plain prediction of other learners. *)
Definition prob01 (e : E) (v : X) (p : R) : Prop :=
  (length (g e v) = 2%nat -> nth_error (g e v) 1 = Some p) /\ (length (g e v) <> 2%nat -> p = f e v).
(** [p] is the prediction at [v] of the estimator [e0] fitted on [rows] with target [y]. *)
Definition predicts01 (e0 : E) (x : nat -> X) (y : vec) (rows : list nat) (v : X) (p : R) : Prop :=
  exists e, ln_fit L e0 (map (fun j => (x j, y j)) rows) = Ok e /\ prob01 e v p.
Definition predicts (e0 : E) (x : nat -> X) (y : vec) (rows : list nat) (v : X) (p : R) : Prop :=
  exists e, ln_fit L e0 (map (fun j => (x j, y j)) rows) = Ok e /\ p = f e v.
(** Probabilities cross-fitted within [rows]: entry a, the prediction for row
    [nth a rows], comes from a clone fitted on the inner train part of the inner
    fold testing a (classifiers see the codes of the labels). *)
Definition within (e0 : E) (x : nat -> X) (y : vec) (rows : list nat) (inner : list fold) (v : vec) : Prop :=
  exists code, codes (length rows) (take rows y) code /\
    forall a i, nth_error rows a = Some i -> exists k h m, tested_in inner a k h /\
      ln_fit L (ln_clone L e0) (map (fun b => (x (nth b rows 0%nat), code b)) (fst h)) = Ok m /\ nth_error (g m (x i)) 1 = Some (v a).
(** The inner splits: of a nonempty half, in range, tested once, every label in every train part;
    [sched] the order in which they are run. *)
Record inner_split (y : vec) (rows : list nat) (inner : list fold) (sched : list nat) : Prop := {
  in_pos : (0 < length rows)%nat;
  in_part : partition_of (length rows) inner;
  in_range : train_in_range (length rows) inner;
  in_labels : labels_in_train (length rows) (take rows y) inner;
  in_sched : schedule sched (length inner) }.
End Spec.

(** The value returned by the minimiser of |score| for a bracket inside the bounds. *)
Definition minimised (o : q_oracles) (score : R -> R) (bounds : R * R) (t : R) : Prop :=
  exists b, fst bounds <= fst b /\ fst b <= snd b /\ snd b <= snd bounds /\ t = qo_solve o score b.

Section Pq.
Context {E X P : Type}.
Variables G M : learner E X P.
Variables (fG fM : E -> X -> R) (gG gM : E -> X -> list R).
Variable o : q_oracles.
Variable c : @pq_cfg E.
Variables (x : nat -> X) (y d : vec).
Definition first_half (h : fold) : list nat := fst (qo_tts o (fst h) (map d (fst h))).
Definition second_half (h : fold) : list nat := snd (qo_tts o (fst h) (map d (fst h))).
(** The preliminary estimate of fold k uses the first half of the train part
    only, with propensities cross-fitted within it. *)
Definition pq_preliminary (k : nat) (h : fold) (ipw : R) : Prop :=
  let A := first_half h in
  exists mp, within M gM (qc_m c k) x d A (qo_skf o (map d A)) mp /\
    minimised o (ipw_moment (length A) (qc_treated c) (qc_norm c) (qc_thr c) (qc_q c) (take A y) (take A d) mp) (qc_bounds c) ipw.
(** The outcome function is fitted on the second half, in the arm, the
    propensity on the whole train part. *)
Definition pq_cross (k : nat) (h : fold) (ipw : R) (i : nat) (gi mi : R) : Prop :=
  (if qc_cvar c then predicts G fG (qc_g c k) x (cvar_target (qc_q c) ipw y) (those d (level (qc_treated c)) (second_half h)) (x i) gi
   else predicts01 G fG gG (qc_g c k) x (fun j => b2r (rleb (y j) ipw)) (those d (level (qc_treated c)) (second_half h)) (x i) gi) /\
  predicts01 M fM gM (qc_m c k) x d (fst h) (x i) mi.
End Pq.

Section Lpq.
Context {E X P : Type}.
Variables G M : learner E X P.
Variables (fG fM : E -> X -> R) (gG gM : E -> X -> list R).
Variable o : q_oracles.
Variable c : @lpq_cfg E.
Variables (x : nat -> X) (y d z : vec).
Definition cells4 : vec := fun i => d i + 2 * z i.
Definition lfirst_half (h : fold) : list nat := fst (qo_tts o (fst h) (map cells4 (fst h))).
Definition lsecond_half (h : fold) : list nat := snd (qo_tts o (fst h) (map cells4 (fst h))).
(** In the arm and at most t. *)
Definition event (t : R) : vec := fun i => arm (lc_treated c) d i * b2r (rleb (y i) t).
(** Preliminary estimate: minimiser of the distance of the Wald ratio from q,
    on the first half. *)
Definition lpq_preliminary (k : nat) (h : fold) (ipw : R) : Prop :=
  let A := lfirst_half h in let n1 := length A in
  exists mp p0 p1, within M gM (lc_est c "ml_m_z" k) x z A (qo_skf o (map cells4 A)) mp /\
    (forall a i, nth_error A a = Some i -> predicts01 M fM gM (ln_clone M (lc_est c "ml_m_d_z0" k)) x d (those z 0 A) (x i) (p0 a) /\
                                           predicts01 M fM gM (ln_clone M (lc_est c "ml_m_d_z1" k)) x d (those z 1 A) (x i) (p1 a)) /\
    let mz := lpq_adjust n1 (lc_norm c) (lc_thr c) (take A z) mp in
    let share := meanf n1 (dr_signal (take A d) (take A z) p0 p1 mz) in
    minimised o (fun t => (if lc_treated c then 1 else -1) * meanf n1 (dr_signal (take A (event t)) (take A z) (fun _ => 0) (fun _ => 0) mz) / share - lc_q c)
      (lc_bounds c) ipw.
Definition lpq_cross (k : nat) (h : fold) (ipw : R) (i : nat) (mz d0 d1 g0 g1 : R) : Prop :=
  predicts01 M fM gM (lc_est c "ml_m_z" k) x z (fst h) (x i) mz /\
  predicts01 M fM gM (lc_est c "ml_m_d_z0" k) x d (those z 0 (fst h)) (x i) d0 /\
  predicts01 M fM gM (lc_est c "ml_m_d_z1" k) x d (those z 1 (fst h)) (x i) d1 /\
  predicts01 G fG gG (lc_est c "ml_g_du_z0" k) x (event ipw) (those z 0 (lsecond_half h)) (x i) g0 /\
  predicts01 G fG gG (lc_est c "ml_g_du_z1" k) x (event ipw) (those z 1 (lsecond_half h)) (x i) g1.
End Lpq.

(** scipy's brentq up to its tolerance: two points of the bracket within [tol] of
    the returned one between which the function changes sign. *)
Definition brentq_near (sv : solvers) (tol : R) : Prop :=
  forall f a b, a <= b -> f a * f b <= 0 ->
    exists a' b', a <= a' /\ a' <= b' /\ b' <= b /\ Rabs (a' - sv_brentq sv f (a, b)) <= tol /\ Rabs (b' - sv_brentq sv f (a, b)) <= tol /\ f a' * f b' <= 0.
(** A sign change of [f] within [tol] of [t]. *)
Definition crosses (f : R -> R) (tol t : R) : Prop :=
  exists a b, a <= b /\ Rabs (a - t) <= tol /\ Rabs (b - t) <= tol /\ f a * f b <= 0.
(** Data agreeing on the train part of a fold and in the features of its test part. *)
Definition agree_on_z {X} (f : fold) (x x' : nat -> X) (y y' d d' z z' : vec) : Prop :=
  agree_on f x x' y y' d d' /\ forall i, In i (fst f) -> z i = z' i.

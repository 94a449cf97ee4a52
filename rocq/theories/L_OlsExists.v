(** Least-squares coefficients and HC0 covariances exist for every design. *)
From Verif Require Import L_Sum.
From Verif Require Export S_Cate.
From Coq Require Import Lia Lra.
Local Open Scope R_scope.

Section Exists.
Variable n : nat.
Variable B : nat -> nat -> R.
Definition dotp (u v : nat -> R) : R := sumf n (fun i => u i * v i).
Definition design (j i : nat) : R := B i j.
Definition fitted (p : nat) (a : nat -> R) (i : nat) : R := sumf p (fun k => B i k * a k).

(** Coefficients by orthogonalisation, one column after the other. *)
Fixpoint ls (p : nat) (v : nat -> R) : nat -> R :=
  match p with
  | O => fun _ => 0
  | S p => let c := ls p (design p) in let e := fun i => B i p - fitted p c i in let a := ls p v in
      let g := if Req_EM_T (dotp e e) 0 then 0 else dotp e v / dotp e e in
      fun j => if Nat.eqb j p then g else a j - c j * g
  end.

Lemma dotp_ext u u' v v' : (forall i, (i < n)%nat -> u i = u' i) -> (forall i, (i < n)%nat -> v i = v' i) -> dotp u v = dotp u' v'.
Proof. intros Hu Hv. apply sumf_ext. intros i Hi. now rewrite Hu, Hv. Qed.
Lemma dotp_add u v w : dotp u (fun i => v i + w i) = dotp u v + dotp u w.
Proof. unfold dotp. rewrite <- sumf_plus. apply sumf_ext. intros; ring. Qed.
Lemma dotp_scal u c v : dotp u (fun i => c * v i) = c * dotp u v.
Proof. unfold dotp. rewrite <- sumf_scal. apply sumf_ext. intros; ring. Qed.
Lemma dotp_comm u v : dotp u v = dotp v u.
Proof. apply sumf_ext. intros; ring. Qed.
Lemma dotp_fitted p a v : dotp (fitted p a) v = sumf p (fun k => a k * dotp (design k) v).
Proof.
  unfold dotp, fitted. transitivity (sumf n (fun i => sumf p (fun k => B i k * a k * v i))); [apply sumf_ext; intros; symmetry; apply sumf_scal_r|].
  rewrite sumf_swap. apply sumf_ext. intros k Hk. rewrite <- sumf_scal. apply sumf_ext. intros i Hi. unfold design. ring.
Qed.
Lemma dotp_zero e : dotp e e = 0 -> forall i, (i < n)%nat -> e i = 0.
Proof.
  intros H i Hi. destruct (Req_EM_T (e i) 0) as [|N]; [assumption|]. exfalso. assert (0 < dotp e e); [|lra]. apply sumf_pos.
  - intros j Hj. apply Rle_0_sqr.
  - exists i. split; [exact Hi|]. apply (Rsqr_pos_lt (e i)), N.
Qed.
Lemma ls_normal p : forall v j, (j < p)%nat -> dotp (design j) (fitted p (ls p v)) = dotp (design j) v.
Proof.
  induction p as [|p IH]; intros v j Hj; [lia|].
  set (c := ls p (design p)). set (e := fun i => B i p - fitted p c i). set (a := ls p v). set (g := if Req_EM_T (dotp e e) 0 then 0 else dotp e v / dotp e e).
  assert (Ef : forall i, fitted (S p) (ls (S p) v) i = fitted p a i + g * e i).
  { intro i. unfold fitted at 1. rewrite sumf_S. cbn [ls]. fold c. fold e. fold a. fold g. cbv beta. rewrite Nat.eqb_refl. unfold e, fitted.
    rewrite (sumf_ext p _ (fun k => B i k * a k - g * (B i k * c k))); [rewrite sumf_minus, sumf_scal; ring|]. intros k Hk. cbv zeta. rewrite (proj2 (Nat.eqb_neq k p)) by lia. unfold e, g. ring. }
  assert (Oe : forall k, (k < p)%nat -> dotp (design k) e = 0).
  { intros k Hk. unfold e. rewrite (dotp_ext _ (design k) _ (fun i => design p i + (-1) * fitted p c i)) by (intros; unfold design; ring). rewrite dotp_add, dotp_scal. unfold c. rewrite IH by exact Hk. ring. }
  assert (Ge : g * dotp e e = dotp e v).
  { unfold g. destruct (Req_EM_T (dotp e e) 0) as [Z|Z]; [|field; exact Z]. rewrite Rmult_0_l. symmetry. apply sumf_zero. intros i Hi. rewrite (dotp_zero e Z i Hi). ring. }
  assert (Lo : forall k, (k < p)%nat -> dotp (design k) (fitted (S p) (ls (S p) v)) = dotp (design k) v).
  { intros k Hk. rewrite (dotp_ext _ (design k) _ (fun i => fitted p a i + g * e i)) by (intros; auto). rewrite dotp_add, dotp_scal, (Oe k Hk). unfold a. rewrite IH by exact Hk. ring. }
  destruct (Nat.eq_dec j p) as [->|N]; [|apply Lo; lia].
  assert (Dp : forall u, dotp (design p) u = dotp (fitted p c) u + dotp e u).
  { intro u. rewrite !(dotp_comm _ u), <- dotp_add. apply dotp_ext; [reflexivity|]. intros i _. unfold e, design. ring. }
  rewrite !Dp, !dotp_fitted. f_equal; [apply sumf_ext; intros k Hk; now rewrite Lo|].
  rewrite (dotp_ext _ e _ (fun i => fitted p a i + g * e i)) by (intros; auto). rewrite dotp_add, dotp_scal, Ge, dotp_comm, dotp_fitted.
  rewrite (sumf_zero p) by (intros k Hk; rewrite Oe by exact Hk; ring). ring.
Qed.

Definition delta (i k : nat) : R := if Nat.eqb k i then 1 else 0.
Lemma dotp_delta u i : (i < n)%nat -> dotp u (delta i) = u i.
Proof.
  intro Hi. unfold dotp, delta. assert (K : forall m, (i < m)%nat -> sumf m (fun k => u k * (if Nat.eqb k i then 1 else 0)) = u i); [|apply K, Hi].
  induction m as [|m IH]; [lia|]. intro Hm. rewrite sumf_S. destruct (Nat.eqb_spec m i) as [->|N].
  - rewrite sumf_zero; [ring|]. intros k Hk. rewrite (proj2 (Nat.eqb_neq k i)) by lia. ring.
  - rewrite IH by lia. ring.
Qed.
Lemma gram_row p j a : dotp (design j) (fitted p a) = sumf p (fun k => gram n B j k * a k).
Proof. rewrite dotp_comm, dotp_fitted. apply sumf_ext. intros k _. rewrite Rmult_comm. f_equal. unfold gram. apply sumf_ext. intros; unfold design; ring. Qed.
End Exists.

Definition some_ols : ols_fun := fun n p B y =>
  let b := ls n B p y in
  {| rg_params := b; rg_omega := fun j k => ls n B p (fun i => ls n B p (delta i) j * (y i - fitted B p b i) ^ 2) k |}.
Lemma ols_exists : least_squares_routine some_ols.
Proof.
  intros n p B y. set (b := ls n B p y). set (d := fun i => (y i - fitted B p b i) ^ 2). split.
  - intros j Hj. unfold resid. cbn [some_ols rg_params]. fold b. change (sumf p (fun k => B ?i k * b k)) with (fitted B p b i).
    pose proof (ls_normal n B p y j Hj) as N. fold b in N. unfold dotp, design in N. rewrite (sumf_ext n _ (fun i => B i j * y i - B i j * fitted B p b i)) by (intros; unfold fitted; ring). rewrite sumf_minus, N. ring.
  - intros j k Hj Hk. change (resid p B y (some_ols n p B y)) with (fun i => y i - fitted B p b i). cbn [some_ols rg_omega]. fold b.
    set (Om := fun a i => ls n B p (delta i) a * (y i - fitted B p b i) ^ 2).
    assert (R1 : forall a, (a < p)%nat -> sumf p (fun c => ls n B p (Om a) c * gram n B c k) = sumf n (fun i => B i k * Om a i)).
    { intros a _. pose proof (ls_normal n B p (Om a) k Hk) as N. rewrite gram_row in N. unfold dotp, design in N. rewrite <- N. apply sumf_ext. intros c _. rewrite Rmult_comm. f_equal. unfold gram. apply sumf_ext. intros; ring. }
    transitivity (sumf p (fun a => gram n B j a * sumf n (fun i => B i k * Om a i))).
    { apply sumf_ext. intros a Ha. rewrite <- R1 by exact Ha. rewrite <- sumf_scal. apply sumf_ext. intros c _. unfold Om. ring. }
    transitivity (sumf n (fun i => (B i k * d i) * sumf p (fun a => gram n B j a * ls n B p (delta i) a))).
    { transitivity (sumf p (fun a => sumf n (fun i => gram n B j a * (B i k * Om a i)))); [apply sumf_ext; intros; symmetry; apply sumf_scal|]. rewrite sumf_swap. apply sumf_ext. intros i _. rewrite <- sumf_scal. apply sumf_ext. intros a _. unfold Om, d. ring. }
    apply sumf_ext. intros i Hi. rewrite <- gram_row, (ls_normal n B p (delta i) j Hj), dotp_delta by exact Hi. unfold design, d. ring.
Qed.

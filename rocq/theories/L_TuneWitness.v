(** Concrete calls of [tune]. *)
From Verif Require Export L_TuneLeak L_BlpWitness.
From Coq Require Import Lia Lra.
Local Open Scope R_scope.
Local Open Scope string_scope.

(** A tuner whose result names the treatment and the repetition, and whose
    parameters are the first training rows. *)
Definition w_tuner (t : nat) (r : option nat) (fs : list fold) : result (tune_out R (nat * option nat)) :=
  Ok {| to_params := [("ml", map (fun f : fold => INR (hd 0%nat (fst f))) fs)]; to_res := (t, r) |}.
Definition w_args (folds set ret : bool) : tune_args :=
  {| ta_grids := KDict ["ml"]; ta_on_folds := PBool folds; ta_scoring := KNone; ta_n_folds := PInt 2; ta_mode := PStr "grid_search"; ta_n_iter := PInt 100; ta_n_jobs := PNone; ta_set := PBool set; ta_return := PBool ret |}.

Lemma two_new k nr : nr = Z.of_nat k -> (k = 1 \/ k = 2)%nat -> exists w0, new_object two_ctx (PInt 2) (PInt nr) (PBool true) g_id no_perm = Ok w0 /\ reachable two_ctx w0 /\
  m_smpls (w_obj w0) = Some (repeat [([1], [0]); ([0], [1])]%nat k) /\ m_n_rep (w_obj w0) = k /\ m_n_folds (w_obj w0) = 2%nat.
Proof.
  intros -> H. destruct (built_new two_ctx (PInt 2) (PInt (Z.of_nat k)) (PBool true) g_id no_perm (Some (repeat [([1], [0]); ([0], [1])]%nat k)) k 2 2) as (w0 & A & B & D & E & F & _).
  - destruct H as [-> | ->]; vm_compute; reflexivity.
  - exists w0. auto.
Qed.
Ltac eval_call := lazy -[INR Rplus Rmult Ropp Rinv Rdiv Rminus IZR]; reflexivity.
Lemma mixed : exists (C : ctx R) tn w w' l row res0 res1, reachable C w /\ tune C ["ml"] tn (w_args true false true) w = (w', Ok (RFolds l)) /\
  nth_error l 0 = Some row /\ nth_error row 0 = Some (Some res1) /\ tuning_of (T := nat * option nat) tn w 0 0 res0 /\ tuning_of tn w 0 1 res1 /\ res0 <> res1.
Proof.
  destruct (two_new 2 2 eq_refl (or_intror eq_refl)) as (w & N & R & _ & En & _). exists two_ctx, w_tuner, w. vm_compute in N. injection N as <-. do 5 eexists.
  split; [exact R|]. split; [eval_call|]. split; [reflexivity|]. split; [reflexivity|]. split; [do 2 eexists; repeat split|]. split; [do 2 eexists; repeat split|]. discriminate.
Qed.
(** One repetition, two treatments: the second treatment fails, the parameters
    of the first are changed. *)
Lemma failed_sets : exists (C : ctx R) tn w w', reachable C w /\ tune (T := nat * option nat) C ["ml"] tn (w_args true true true) w = (w', Err IndexError) /\
  m_params (w_obj w') "ml" "d1" <> m_params (w_obj w) "ml" "d1".
Proof.
  destruct (two_new 1 1 eq_refl (or_introl eq_refl)) as (w & N & R & _ & En & _). exists two_ctx, w_tuner, w. vm_compute in N. injection N as <-. eexists.
  split; [exact R|]. split; [eval_call|]. discriminate.
Qed.
(** One treatment and one repetition: everything works. *)
Lemma tune_fit_case : exists w w1 x w2, reachable ex_ctx w /\ NoDup (c_dcols ex_ctx) /\ c_dcols ex_ctx <> [] /\ m_n_rep (w_obj w) = 1%nat /\
  tune ex_ctx ["ml"] w_tuner (w_args true true true) w = (w1, Ok x) /\ fit ex_ctx PNone (PBool true) ExtNone (PBool false) w1 = (w2, Ok tt).
Proof.
  destruct ex_new as (w & N & R & Es & En & Ef). assert (T : exists w1 x, tune ex_ctx ["ml"] w_tuner (w_args true true true) w = (w1, Ok x)).
  { clear - N. vm_compute in N. injection N as <-. do 2 eexists. eval_call. }
  destruct T as (w1 & x & T). assert (E1 : w1 = fst (tune ex_ctx ["ml"] w_tuner (w_args true true true) w)) by now rewrite T.
  assert (R1 : reachable ex_ctx w1) by (rewrite E1; apply tune_reachable; exact R).
  assert (O := tune_keeps ex_ctx ["ml"] w_tuner (w_args true true true) w). rewrite <- E1 in O. destruct (only_fields _ _ O) as (F1 & F2 & _).
  destruct (ex_calls w1 [([1], [0]); ([0], [1])]%nat ExtNone (PBool true)) as (w2 & F); [rewrite F1, Es; reflexivity|now rewrite F2|exact R1|reflexivity|reflexivity|].
  exists w, w1, x, w2. split; [exact R|]. split; [repeat constructor; intros []|]. split; [discriminate|]. auto.
Qed.
(** Two treatments tuned on the full sample. *)
Lemma tune_full_case : exists w w1 l, reachable two_ctx w /\ tune two_ctx ["ml"] w_tuner (w_args false true true) w = (w1, Ok (RGlobal l)) /\ length l = 2%nat /\ NoDup (c_dcols two_ctx).
Proof.
  destruct (two_new 1 1 eq_refl (or_introl eq_refl)) as (w & N & R & _ & En & _). exists w. vm_compute in N. injection N as <-. do 2 eexists.
  split; [exact R|]. split; [eval_call|]. split; [reflexivity|]. repeat constructor; cbn; intuition discriminate.
Qed.
(** A redraw keeps parameters tuned for other folds. *)
Lemma redraw_keeps : exists (C : ctx R) tn w w1 x g perm w2 sm1 sm2 f1 f2 v i, reachable C w /\ tune (T := nat * option nat) C ["ml"] tn (w_args true true true) w = (w1, Ok x) /\
  draw_sample_splitting C g perm w1 = (w2, Ok tt) /\ m_smpls (w_obj w) = Some sm1 /\ m_smpls (w_obj w2) = Some sm2 /\
  nth_error (nth 0 sm1 []) 0 = Some f1 /\ nth_error (nth 0 sm2 []) 0 = Some f2 /\ In i (fst f1) /\ In i (snd f2) /\
  (exists res, tuning_of tn w 0 0 res /\ dict_get "ml" (to_params res) = Some v) /\ nth_error (m_params (w_obj w2) "ml" "d") 0 = Some (Some v) /\
  (forall res, tuning_of tn w2 0 0 res -> dict_get "ml" (to_params res) <> Some v).
Proof.
  destruct ex_new as (w & N & R & Es & En & Ef). assert (T : exists w1 x, tune ex_ctx ["ml"] w_tuner (w_args true true true) w = (w1, Ok x)).
  { clear - N. vm_compute in N. injection N as <-. do 2 eexists. eval_call. }
  destruct T as (w1 & x & T). assert (ND : NoDup (c_dcols ex_ctx)) by (repeat constructor; intros []).
  destruct (tuned_folds ex_ctx ["ml"] w_tuner (w_args true true true) w w1 x eq_refl eq_refl ND T) as (O & G). destruct (only_fields _ _ O) as (F1 & F2 & F3).
  destruct (G 0%nat "d" eq_refl) as (res0 & (sm & fs & A1 & A2 & A3) & G1 & _). rewrite Es in A1. injection A1 as <-. cbn in A2. injection A2 as <-. cbn in A3. injection A3 as <-.
  destruct (G1 "ml" (or_introl eq_refl)) as (_ & G2). destruct (G2 0%nat) as (res & v & (sm & fs & B1 & B2 & B3) & D & M & _); [lia|]. rewrite Es in B1. injection B1 as <-. cbn in B2. injection B2 as <-. cbn in B3. injection B3 as <-.
  cbn in D. injection D as <-. exists ex_ctx, w_tuner, w, w1, x, g_rev, no_perm. eexists. exists split_a, split_b. eexists. eexists. eexists. exists 1%nat. split; [exact R|]. split; [exact T|].
  split; [apply ex_draw; congruence|]. split; [exact Es|]. split; [reflexivity|]. split; [reflexivity|]. split; [reflexivity|]. split; [left; reflexivity|]. split; [left; reflexivity|].
  split; [eexists; split; [do 2 eexists; split; [exact Es|]; split; reflexivity|reflexivity]|]. split; [exact M|].
  intros res (sm & fs & C1 & C2 & C3). cbn [w_obj with_split m_smpls] in C1. injection C1 as <-. cbn in C2. injection C2 as <-. cbn in C3. injection C3 as <-. cbn. intro E. injection E as E _. lra.
Qed.

(** Searches that return the sum of the training targets. *)
Definition w_search (l : string) (k : nat) (data : list (R * R)) : result R := Ok (Rsum (map snd data)).
Definition w_best (s : R) : R := s.
Definition w_spred (s x : R) : R := 0.
Definition w_smpls : list fold := [([1], [0]); ([0], [1])]%nat.
Definition row0 (v : R) (i : nat) : R := if Nat.eqb i 0 then v else 0.
Definition k_id (v : R) : R := v.

Lemma w_agree v v' : agree_on (fst ([1], [0])%nat) INR INR (row0 v) (row0 v') (fun _ => 1) (fun _ => 1).
Proof. intros i [<-|[]]. repeat split. Qed.
Lemma iv_leaks : exists x y y' d k f a b, nth_error w_smpls k = Some f /\ agree_on (fst f) x x y y' d d /\
  plr_tuning w_search w_best w_spred 2 true k_id k_id x y d w_smpls = Ok a /\ plr_tuning w_search w_best w_spred 2 true k_id k_id x y' d w_smpls = Ok b /\ ~ same_fold_params k a b.
Proof.
  exists INR, (row0 0), (row0 2), (fun _ => 1), 0%nat. eexists. eexists. eexists. split; [reflexivity|]. split; [apply w_agree|]. split; [reflexivity|]. split; [reflexivity|].
  intros (_ & H). specialize (H "ml_g" _ _ eq_refl eq_refl). cbn in H. injection H as H. unfold w_best in H. revert H. unfold row0, k_id, w_spred, initial_theta, nanmean, train_hat, scatter, Rmean, Rsum. cbn.
  match goal with |- 0 - ?a / ?b * 1 + 0 = 0 - ?c / ?b * 1 + 0 -> _ => replace b with (-1) by field; replace a with 0 by field; replace c with (-1) by field end. lra.
Qed.
Lemma quantile_leaks : exists x y y' d k f a b, nth_error w_smpls k = Some f /\ agree_on (fst f) x x y y' d d /\
  pq_tuning w_search w_best 2 (1 / 2) 1 x y d w_smpls = Ok a /\ pq_tuning w_search w_best 2 (1 / 2) 1 x y' d w_smpls = Ok b /\ ~ same_fold_params k a b.
Proof.
  exists INR, (row0 0), (row0 (-2)), (fun _ => 1), 0%nat. eexists. eexists. eexists. split; [reflexivity|]. split; [apply w_agree|]. split; [reflexivity|]. split; [reflexivity|].
  intros (_ & H). specialize (H "ml_g" _ _ eq_refl eq_refl). revert H.
  assert (E1 : reqb 1 1 = true) by (apply reqb_spec; reflexivity). unfold cond_smpls, intersect_where, w_smpls. cbn [map fst snd seq filter nmem existsb Nat.eqb orb andb nth_error nth]. rewrite !E1.
  cbn [map fst snd seq filter nmem existsb Nat.eqb orb andb nth_error nth].
  change (row0 0 0) with 0. change (row0 0 1) with 0. change (row0 (-2) 0) with (-2). change (row0 (-2) 1) with 0. rewrite !quantile_two by lra.
  assert (L1 : rleb 0 (0 + 1 / 2 * (0 - 0)) = true) by (apply rleb_true; lra). assert (L2 : rleb 0 (-2 + 1 / 2 * (0 - -2)) = false) by (apply rleb_false; lra). rewrite L1, L2.
  unfold w_best, Rsum. cbn. intro H. injection H as H. lra.
Qed.
(** Tuning on the full sample: the parameters used for fold k come from rows
    that fold k tests. *)
Lemma full_leaks : exists x y y' d k f a b, nth_error w_smpls k = Some f /\ agree_on (fst f) x x y y' d d /\
  plr_tuning w_search w_best w_spred 2 false k_id k_id x y d [(seq 0 2, seq 0 2)] = Ok a /\ plr_tuning w_search w_best w_spred 2 false k_id k_id x y' d [(seq 0 2, seq 0 2)] = Ok b /\
  ~ same_fold_params 0 a b.
Proof.
  exists INR, (row0 0), (row0 2), (fun _ => 1), 0%nat. eexists. eexists. eexists. split; [reflexivity|]. split; [apply w_agree|]. split; [reflexivity|]. split; [reflexivity|].
  intros (_ & H). specialize (H "ml_l" _ _ eq_refl eq_refl). cbn in H. injection H as H. unfold w_best in H. revert H. unfold row0, Rsum. cbn. lra.
Qed.
(** Fold-wise tuning of the other two. *)
Lemma leak_case : exists a b c e, plr_tuning w_search w_best w_spred 2 false k_id k_id INR (row0 0) (fun _ => 1) w_smpls = Ok a /\ plr_tuning w_search w_best w_spred 2 false k_id k_id INR (row0 2) (fun _ => 1) w_smpls = Ok b /\
  irm_tuning w_search w_best 2 INR (row0 0) (fun _ => 1) w_smpls = Ok c /\ irm_tuning w_search w_best 2 INR (row0 2) (fun _ => 1) w_smpls = Ok e /\
  agree_on [1%nat] INR INR (row0 0) (row0 2) (fun _ => 1) (fun _ => 1) /\ ~ same_fold_params 1 a b.
Proof.
  do 4 eexists. split; [reflexivity|]. split; [reflexivity|]. split; [reflexivity|]. split; [reflexivity|]. split; [apply (w_agree 0 2)|].
  intros (_ & H). specialize (H "ml_l" _ _ eq_refl eq_refl). cbn in H. injection H as H. unfold w_best in H. revert H. unfold row0, Rsum. cbn. lra.
Qed.

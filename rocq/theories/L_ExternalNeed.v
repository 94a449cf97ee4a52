(** Learners that cannot be trained: a fit succeeds only if nothing had to be
    predicted by them. *)
From Verif Require Export S_External M_Dummy L_ExternalDid.
From Coq Require Import Lia Lra.
Local Open Scope R_scope.
Local Open Scope res_scope.
Local Open Scope string_scope.

Lemma par_exec_none {A} (task : nat -> result A) : (forall k v, task k <> Ok v) -> forall order slots s, par_exec order task slots = Ok s -> s = slots.
Proof. intros H order. destruct order as [|k order]; intros slots s E; cbn in E; [injection E; auto|]. destruct (task k) eqn:Et; [destruct (H k a Et)|discriminate E]. Qed.
Lemma parallel_needs {A} order n (task : nat -> result A) l : (forall k v, task k <> Ok v) -> (0 < n)%nat -> parallel order n task <> Ok l.
Proof.
  intros H Hn. unfold parallel. destruct (par_exec order task (fun _ => None)) as [s|] eqn:Es; [|discriminate]. apply (par_exec_none task H) in Es. subst s. cbn [bind]. destruct n; [lia|]. cbn. discriminate.
Qed.

Section Need.
Context {E P : Type}.
Variable L : learner E row P.
Hypothesis U : untrainable L.

Lemma cv_needs order est n x y smpls ps proba tr md r : smpls <> [] -> cv_predict L order est n x y smpls ps proba tr md <> Ok r.
Proof.
  intros Hs. assert (Hl : (0 < length smpls)%nat) by (destruct smpls; [congruence|cbn; lia]). assert (F : forall e d m, ln_fit L e d <> Ok m) by (intros e d m Q; destruct (U e d) as (z & Ez); congruence).
  assert (Man : forall ip, cv_manual L order est n x y smpls ps proba tr md ip <> Ok r).
  { intros ip H. unfold cv_manual in H. repeat inv1 H. revert E1. apply parallel_needs; [|exact Hl]. intros k v Q. inv1 Q. inv1 Q. exact (F _ _ _ Q). }
  unfold cv_predict. destruct (check_is_partition n (map zf smpls)) as [ip|]; cbn [bind]; [|discriminate]. destruct y as [v|l]; [|apply Man]. destruct (negb _); [|apply Man].
  unfold cv_fast. intro H. inv1 H. inv1 H. unfold cross_val_predict in E1. inv1 E1. revert E2. apply parallel_needs; [|exact Hl]. intros k q Q. inv1 Q. exact (F _ _ _ E2).
Qed.

Variable su : setup E P.
Lemma fit_needs name lrn x y smpls h : smpls <> [] -> fit_nuis L su name lrn x y smpls <> Ok h.
Proof. intros Hs H. unfold fit_nuis in H. inv1 H. exact (cv_needs _ _ _ _ _ _ _ _ _ _ _ Hs E0). Qed.
Lemma checked_needs name lrn x y smpls used h : used <> [] -> fit_checked L su name lrn x y used smpls <> Ok h.
Proof. intros Hs H. unfold fit_checked in H. inv1 H. exact (fit_needs _ _ _ _ _ _ Hs E0). Qed.
Lemma sub_some c smpls : smpls <> [] -> sub su c smpls <> [].
Proof. unfold sub, cond_smpls. destruct smpls; [congruence|discriminate]. Qed.
Lemma or_needs name k h : (forall h', k <> Ok h') -> or_ext su name k = Ok h -> exists v, su_ext su name = Some v.
Proof. unfold or_ext. destruct (su_ext su name) as [v|]; [intros _ _; exists v; reflexivity|intros K H; destruct (K h H)]. Qed.

Ltac need H := apply or_needs in H; [|let h' := fresh in intros h'; try apply checked_needs; try apply fit_needs; try assumption].
Ltac sub_need H := apply or_needs in H; [|let h' := fresh "h'" in let Q := fresh "Q" in intros h' Q; repeat (inv1 Q); match goal with X : fit_checked _ _ _ _ _ _ _ _ = Ok _ |- _ => revert X; apply checked_needs; apply sub_some; assumption | X : fit_nuis _ _ _ _ _ _ _ = Ok _ |- _ => revert X; apply fit_needs; apply sub_some; assumption end].
Ltac names_tac H := cbn in H; repeat (destruct H as [<-|H]; [assumption|]); destruct H.

Lemma plr_needs iv bt x y d smpls out : smpls <> [] -> plr_nuis L su iv bt x y d smpls = Ok out ->
  forall l, In l (if iv then ["ml_m"; "ml_g"] else ["ml_l"; "ml_m"]) -> exists v, su_ext su l = Some v.
Proof.
  intros Hs H. unfold plr_nuis in H. inv1 H. inv1 H. inv1 H. inv1 H. clear H. need E1. destruct iv; cbn [andb] in E0; intros l Hl.
  - need E2. names_tac Hl.
  - need E0. names_tac Hl.
Qed.
Lemma pliv_needs iv x y d z smpls out : smpls <> [] -> pliv_x_nuis L su iv x y d z smpls = Ok out ->
  forall l, In l (if iv then ["ml_l"; "ml_m"; "ml_r"; "ml_g"] else ["ml_l"; "ml_m"; "ml_r"]) -> exists v, su_ext su l = Some v.
Proof.
  intros Hs H. unfold pliv_x_nuis in H. inv1 H. inv1 H. inv1 H. inv1 H. clear H. need E0. need E1. need E2. destruct iv; intros l Hl.
  - need E3. names_tac Hl.
  - names_tac Hl.
Qed.
Lemma instruments_need x smpls (zs : list (string * vec)) ms : smpls <> [] ->
  map_res (fun p : string * vec => let name := ("ml_m_" ++ fst p)%string in
      let! h := or_ext su name (fit_checked L su name "ml_m" x (snd p) smpls smpls) in Ok (name, h)) zs = Ok ms ->
  forall p, In p zs -> exists v, su_ext su ("ml_m_" ++ fst p)%string = Some v.
Proof.
  intros Hs. revert ms. induction zs as [|z zs IH]; intros ms H p Hp; [destruct Hp|]. cbn [map_res] in H. inv1 H. inv1 E0. clear E0. need E1. inv1 H.
  destruct Hp as [<-|Hp]; [exact E1|]. exact (IH _ eq_refl p Hp).
Qed.
Lemma several_needs proj x y d zs smpls out : smpls <> [] -> pliv_xs_nuis L su proj x y d zs smpls = Ok out ->
  forall l, In l ("ml_l" :: "ml_r" :: map (fun p => "ml_m_" ++ fst p)%string zs)%list -> exists v, su_ext su l = Some v.
Proof.
  intros Hs H. unfold pliv_xs_nuis in H. inv1 H. inv1 H. inv1 H. clear H. need E0. need E2. intros l [<-|[<-|Hl]]; [assumption..|].
  apply in_map_iff in Hl as (p & <- & Hp). exact (instruments_need x smpls zs _ Hs E1 p Hp).
Qed.
Lemma irm_needs atte norm bo tr thr w x y d smpls out : smpls <> [] -> irm_nuis L su atte norm bo tr thr w x y d smpls = Ok out ->
  forall l, In l ["ml_g0"; "ml_g1"; "ml_m"] -> exists v, su_ext su l = Some v.
Proof.
  intros Hs H. unfold irm_nuis in H. inv1 H. inv1 H. inv1 H. inv1 H. clear H. sub_need E0. sub_need E1. need E2. intros l Hl. names_tac Hl.
Qed.
Lemma apo_or name c v k h : apo_ext su name c v k = Ok h -> exists h', or_ext su name k = Ok h'.
Proof. unfold apo_ext, or_ext. destruct (su_ext su name); eauto. Qed.
Lemma apo_needs norm bo tr thr w x y d lvl smpls out : smpls <> [] -> apo_nuis L su norm bo tr thr w x y d lvl smpls = Ok out ->
  forall l, In l ["ml_g_d_lvl0"; "ml_g_d_lvl1"; "ml_m"] -> exists v, su_ext su l = Some v.
Proof.
  intros Hs H. unfold apo_nuis in H. inv1 H. inv1 H. inv1 H. inv1 H. inv1 H. clear H. apply apo_or in E0 as (a & E0). apply apo_or in E1 as (b & E1). apply apo_or in E2 as (c & E2).
  sub_need E0. sub_need E1. need E2. intros l Hl. names_tac Hl.
Qed.
Lemma iivm_needs norm bo at1 nt1 tr thr x y z d smpls out : smpls <> [] -> iivm_nuis L su norm bo at1 nt1 tr thr x y z d smpls = Ok out ->
  forall l, In l (["ml_g0"; "ml_g1"; "ml_m"] ++ (if at1 then ["ml_r0"] else []) ++ (if nt1 then ["ml_r1"] else []))%list -> exists v, su_ext su l = Some v.
Proof.
  intros Hs H. unfold iivm_nuis in H. inv1 H. inv1 H. inv1 H. inv1 H. inv1 H. clear H. inv1 E0. inv1 E1. inv1 E3. inv1 E4.
  sub_need E5. sub_need E6. need E2.
  assert (A0 : at1 = true -> exists v, su_ext su "ml_r0" = Some v) by (intros ->; apply or_needs in E7; [exact E7|intros h' Q; revert Q; apply fit_needs, sub_some, Hs]).
  assert (A1 : nt1 = true -> exists v, su_ext su "ml_r1" = Some v) by (intros ->; apply or_needs in E8; [exact E8|intros h' Q; revert Q; apply fit_needs, sub_some, Hs]).
  intros l Hl. repeat (apply in_app_or in Hl as [Hl|Hl]).
  - names_tac Hl.
  - destruct at1; [|destruct Hl]. destruct Hl as [<-|[]]. exact (A0 eq_refl).
  - destruct nt1; [|destruct Hl]. destruct Hl as [<-|[]]. exact (A1 eq_refl).
Qed.
Lemma did_needs obs norm tr thr x y d smpls out : smpls <> [] -> did_nuis L su obs norm tr thr x y d smpls = Ok out ->
  forall l, In l (if obs then ["ml_g0"; "ml_g1"; "ml_m"] else ["ml_g0"; "ml_g1"]) -> exists v, su_ext su l = Some v.
Proof.
  intros Hs H. unfold did_nuis in H. inv1 H. inv1 H. inv1 H. clear H. sub_need E0. sub_need E1. destruct obs; intros l Hl.
  - inv1 E2. need E3. names_tac Hl.
  - names_tac Hl.
Qed.
Lemma cs_needs obs norm tr thr x y d t smpls out : smpls <> [] -> cs_nuis L su obs norm tr thr x y d t smpls = Ok out ->
  forall l, In l (["ml_g_d0_t0"; "ml_g_d0_t1"; "ml_g_d1_t0"; "ml_g_d1_t1"] ++ if obs then ["ml_m"] else [])%list -> exists v, su_ext su l = Some v.
Proof.
  intros Hs H. unfold cs_nuis in H. inv1 H. inv1 H. inv1 H. inv1 H. inv1 H. clear H. sub_need E0. sub_need E1. sub_need E2. sub_need E3. destruct obs; intros l Hl.
  - inv1 E4. need E5. names_tac Hl.
  - names_tac Hl.
Qed.
End Need.

(** From the nuisance estimation to the fit. *)
Lemma needs_fit {P} (C : ctx P) names w nj store ext smod w' : c_dcols C <> [] -> reachable C w -> some_folds w -> incl names (c_learners C) ->
  (forall r t fs prm e out, fs <> [] -> c_nuis C r t fs prm e = Ok out -> forall l, In l names -> exists v, e l = Some v) ->
  fit C nj store ext smod w = (w', Ok tt) -> all_supplied C w ext names.
Proof.
  intros Hd Hw Sf Hi N H r l col Hr Hc Hl. destruct (fit_reports C w nj store ext smod w' Hd Hw H) as (out & F & (sm & Es & Ls & Nr) & _).
  apply In_nth_error in Hc as (t & Ht). destruct (Nr r t col Hr Ht) as (e & M & Nu).
  assert (Hf : nth r sm [] <> []) by (apply (Sf sm); [exact Es|apply nth_In; lia]).
  destruct (N _ _ _ _ _ _ Hf Nu l Hl) as (v & Ev). exists v. specialize (M l (Hi l Hl)). rewrite Ev in M. exact M.
Qed.

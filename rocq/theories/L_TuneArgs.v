(** Which tuning calls are accepted. *)
From Verif Require Export L_TuneWitness.
From Coq Require Import Lia.

Lemma smem_in k l : smem k l = true <-> In k l.
Proof.
  unfold smem. rewrite existsb_exists. split; [intros (x & A & B); apply String.eqb_eq in B; now subst|intro H; exists k; split; [exact H|apply String.eqb_refl]].
Qed.
Lemma all_mem l l' : forallb (fun x => smem x l') l = true <-> incl l l'.
Proof. rewrite forallb_forall. unfold incl. split; intros H x Hx; apply smem_in, H, Hx. Qed.

Section Args.
Context {P T : Type}.
Variable C : ctx P.
Variable names : list string.
Variable tn : nat -> option nat -> list fold -> result (tune_out P T).

Lemma checked_iff a : check_tune names a = Ok tt <-> documented_call names a.
Proof.
  destruct a as [gr fo sc nf mo ni nj se re]. unfold check_tune, documented_call. cbn [ta_grids ta_on_folds ta_scoring ta_n_folds ta_mode ta_n_iter ta_n_jobs ta_set ta_return]. split.
  - intro H. destruct gr as [| | |l]; try discriminate H. cbn [check_keys_in] in H. destruct (forallb (fun x => smem x l) names) eqn:G; [|discriminate H]. cbn [require bind] in H.
    assert (HS : sc = KNone \/ exists l, sc = KDict l /\ incl l names).
    { destruct sc as [| | |l2]; [left; reflexivity|discriminate H|discriminate H|]. right. exists l2. split; [reflexivity|]. cbn [check_scoring] in H. destruct (forallb (fun x => smem x names) l2) eqn:G2; [now apply all_mem|discriminate H]. }
    assert (H2 : check_scoring names sc = Ok tt) by (destruct (check_scoring names sc) as [[]|]; [reflexivity|discriminate H]). rewrite H2 in H. cbn [bind] in H.
    destruct fo; try discriminate H. cbn [is_bool require] in H. destruct nf as [| k | b0 | | | |]; try discriminate H; [|destruct b0; discriminate H].
    cbn [is_int require int_val] in H. destruct (Z.leb 2 k) eqn:G3; [|discriminate H]. cbn [require] in H.
    destruct mo as [| | |s| | |]; try discriminate H. destruct (smem s ["grid_search"; "randomized_search"]%string) eqn:G4; [|discriminate H]. cbn [require] in H.
    destruct ni as [| k2 | b2 | | | |]; try discriminate H; [|destruct b2; discriminate H].
    cbn [is_int require int_val] in H. destruct (Z.leb 2 k2) eqn:G5; [|discriminate H]. cbn [require] in H.
    apply Z.leb_le in G3, G5. apply smem_in in G4.
    assert (HJ : nj = PNone \/ (exists k, nj = PInt k) \/ exists b, nj = PBool b) by (destruct nj; try discriminate H; eauto).
    assert (HB : is_bool se = true /\ is_bool re = true). { destruct nj; try discriminate H; destruct se; try discriminate H; destruct re; try discriminate H; auto. }
    destruct HB as [B1 B2]. destruct se; try discriminate B1. destruct re; try discriminate B2.
    split; [exists l; split; [reflexivity|now apply all_mem]|]. split; [exact HS|]. split; [eauto|]. split; [eauto|]. split; [|split; [exact HJ|split; [|split]; eauto]].
    destruct G4 as [<-|[<-|[]]]; auto.
  - intros ((l & -> & G) & HS & (k & -> & G3) & (k2 & -> & G5) & HM & HJ & (b1 & ->) & (b2 & ->) & (b3 & ->)).
    cbn [check_keys_in]. apply all_mem in G. rewrite G. cbn [require bind].
    assert (H2 : check_scoring names sc = Ok tt). { destruct HS as [->|(l2 & -> & G2)]; [reflexivity|]. cbn [check_scoring]. apply all_mem in G2. now rewrite G2. }
    rewrite H2. cbn [bind is_bool is_int int_val]. apply Z.leb_le in G3, G5. rewrite G3, G5.
    destruct HM as [-> | ->], HJ as [->|[(k3 & ->)|(b4 & ->)]]; reflexivity.
Qed.
Lemma check_kind a e : check_tune names a = Err e -> e = TypeError \/ e = ValueError.
Proof.
  unfold check_tune. intro H. assert (K : forall b er (k : result unit), (er = TypeError \/ er = ValueError) -> (k = Err e -> e = TypeError \/ e = ValueError) -> require b er k = Err e -> e = TypeError \/ e = ValueError).
  { intros b er k A B D. destruct b; [exact (B D)|]. cbn [require] in D. injection D as <-. exact A. }
  destruct (check_keys_in names (ta_grids a)) as [[]|er] eqn:E1; cbn [bind] in H.
  - destruct (check_scoring names (ta_scoring a)) as [[]|er] eqn:E2; cbn [bind] in H.
    + revert H. repeat (apply K; [auto|]). discriminate.
    + injection H as ->. revert E2. destruct (ta_scoring a); cbn [check_scoring]; try (intro X; injection X as <-; auto); try discriminate. apply K; [auto|discriminate].
  - injection H as ->. revert E1. destruct (ta_grids a); cbn [check_keys_in]; try (intro X; injection X as <-; auto). apply K; [auto|discriminate].
Qed.
Lemma full_total : forall ts acc (w : world P), (forall t, In t ts -> exists res, full_tuning_of C tn t res) -> exists l, for_acc ts (tune_full C tn false) acc w = (w, Ok l).
Proof.
  induction ts as [|t ts IH]; intros acc w H; [eexists; reflexivity|]. cbn [for_acc]. unfold andthen at 1.
  destruct (H t (or_introl eq_refl)) as (res & E). unfold full_tuning_of in E. unfold tune_full at 1. unfold andthen, lift, ret. rewrite E. apply IH. intros u Hu. apply H. now right.
Qed.
(** Undocumented arguments are refused without effect; documented ones are
    accepted: with a tuner that returns, the call returns. *)
Lemma tuning_call a w : (documented_call names a \/ exists e, (e = TypeError \/ e = ValueError) /\ tune C names tn a w = (w, Err e)) /\
  (forall w' x, tune C names tn a w = (w', Ok x) -> documented_call names a) /\
  (documented_call names a -> is_true (ta_on_folds a) = false -> is_true (ta_set a) = false -> (forall t, (t < length (c_dcols C))%nat -> exists res, full_tuning_of C tn t res) ->
   exists x, tune C names tn a w = (w, Ok x)).
Proof.
  assert (R : forall e, check_tune names a = Err e -> tune C names tn a w = (w, Err e)) by (intros e E; unfold tune, andthen, lift; now rewrite E). split; [|split].
  - destruct (check_tune names a) as [[]|e] eqn:E; [left; now apply checked_iff|]. right. exists e. split; [exact (check_kind a e E)|exact (R e eq_refl)].
  - intros w' x H. apply checked_iff. destruct (check_tune names a) as [[]|e] eqn:E; [reflexivity|]. rewrite (R e eq_refl) in H. discriminate H.
  - intros D F S K. apply checked_iff in D. unfold tune. unfold andthen at 1. unfold lift at 1. rewrite D. unfold andthen at 1. unfold lift at 1. rewrite F, S.
    destruct (full_total (seq 0 (length (c_dcols C))) [] w) as (l & E); [intros t Ht; apply in_seq in Ht; apply K; lia|]. unfold andthen. rewrite E. unfold ret. eexists. reflexivity.
Qed.
End Args.
Lemma w_documented : documented_call ["ml"%string] (w_args true true true) /\ ~ documented_call ["ml"%string] {| ta_grids := KDict ["ml"%string]; ta_on_folds := PBool true; ta_scoring := KNone; ta_n_folds := PInt 1; ta_mode := PStr "grid_search"; ta_n_iter := PInt 100; ta_n_jobs := PNone; ta_set := PBool true; ta_return := PBool true |}.
Proof. split; [now apply checked_iff|]. intro H. apply checked_iff in H. discriminate H. Qed.

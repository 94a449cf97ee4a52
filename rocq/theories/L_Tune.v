(** DoubleML.tune: results and parameters. *)
From Verif Require Export S_Tune L_ModelHist L_ModelWitness.
From Coq Require Import Lia.
Local Open Scope R_scope.
Local Open Scope res_scope.

Section Obj.
Context {P T : Type}.
Variable C : ctx P.
Variable names : list string.
Variable tn : nat -> option nat -> list fold -> result (tune_out P T).
Notation nt := (length (c_dcols C)).

Lemma only_refl (w : world P) : only_params w w.
Proof. unfold only_params. split; [reflexivity|]. split; [reflexivity|]. now destruct (w_obj w). Qed.
Lemma only_trans (a b c : world P) : only_params a b -> only_params b c -> only_params a c.
Proof.
  intros (A1 & A2 & A3) (B1 & B2 & B3). split; [congruence|]. split; [congruence|]. rewrite B3 at 1. rewrite A3. reflexivity.
Qed.
Lemma only_fields (a b : world P) : only_params a b -> m_smpls (w_obj b) = m_smpls (w_obj a) /\ m_n_rep (w_obj b) = m_n_rep (w_obj a) /\ m_n_folds (w_obj b) = m_n_folds (w_obj a).
Proof. intros (_ & _ & E). rewrite E. auto. Qed.

(** One assignment. *)
Lemma set_one l d v w w' : set_ml_nuisance_params C l d v w = (w', Ok tt) -> only_params w w' /\
  (forall l' t', m_params (w_obj w') l' t' = if String.eqb l' l && String.eqb t' d then
     match v with ParNone => repeat None (m_n_rep (w_obj w)) | ParDict p => repeat (Some (repeat p (m_n_folds (w_obj w)))) (m_n_rep (w_obj w)) | ParList ll => map Some ll end
     else m_params (w_obj w) l' t') /\
  match v with ParList ll => length ll = m_n_rep (w_obj w) /\ (forall x, In x ll -> length x = m_n_folds (w_obj w)) | _ => True end.
Proof.
  intro H. destruct (params_inv C l d v w) as [(ps & E & _ & _ & _ & K)|(e & E & _)]; [|congruence]. rewrite E in H. injection H as <-.
  split; [repeat split|]. cbn [w_obj with_params m_params]. destruct v as [|p|ll]; [subst ps; auto|subst ps; auto|]. destruct K as (K1 & K2 & ->). auto.
Qed.
Lemma set_any l d v w : only_params w (fst (set_ml_nuisance_params C l d v w)).
Proof. destruct (params_inv C l d v w) as [(ps & E & _)|(e & E & _)]; rewrite E; [repeat split|apply only_refl]. Qed.

(** A loop of assignments for one treatment. *)
Lemma set_loop d (f : string -> result (list (list P))) ls : forall w w',
  for_ ls (fun l => ps <- lift (fun _ => f l) ;; set_ml_nuisance_params C l d (ParList ps)) w = (w', Ok tt) ->
  only_params w w' /\
  (forall l, In l ls -> exists ps, f l = Ok ps /\ m_params (w_obj w') l d = map Some ps /\ length ps = m_n_rep (w_obj w) /\ (forall x, In x ps -> length x = m_n_folds (w_obj w))) /\
  (forall l t, (~ In l ls \/ t <> d) -> m_params (w_obj w') l t = m_params (w_obj w) l t).
Proof.
  induction ls as [|a ls IH]; intros w w' H; cbn [for_] in H.
  - injection H as <-. split; [apply only_refl|]. split; [intros l []|auto].
  - apply andthen_ok in H as (w1 & [] & H1 & H2). apply andthen_ok in H1 as (w0 & ps & H0 & H1). rewrite lift_eq in H0. injection H0 as <- E.
    apply set_one in H1 as (O1 & M1 & K1 & K2). apply IH in H2 as (O2 & I2 & N2). pose proof (only_fields _ _ O1) as (_ & F2 & F3). split; [eapply only_trans; eassumption|]. split.
    + intros l Hl. destruct (in_dec string_dec l ls) as [Hi|Hi].
      * destruct (I2 l Hi) as (qs & Q1 & Q2 & Q3 & Q4). exists qs. rewrite F2 in Q3. rewrite F3 in Q4. auto.
      * destruct Hl as [->|Hl]; [|contradiction]. exists ps. split; [exact E|]. rewrite (N2 l d (or_introl Hi)), M1, !String.eqb_refl. auto.
    + intros l t [Hn|Hn].
      * rewrite (N2 l t) by (left; intro; apply Hn; right; assumption). rewrite M1. destruct (String.eqb_spec l a) as [->|_]; [exfalso; apply Hn; left; reflexivity|reflexivity].
      * rewrite (N2 l t) by auto. rewrite M1. destruct (String.eqb_spec t d) as [->|_]; [contradiction|]. now rewrite andb_false_r.
Qed.
Lemma set_loop_full d (ls : list (string * list P)) : forall w w',
  for_ ls (fun p => match snd p with [] => raise IndexError | v :: _ => set_ml_nuisance_params C (fst p) d (ParDict v) end) w = (w', Ok tt) ->
  only_params w w' /\
  (NoDup (map fst ls) -> forall l vs, In (l, vs) ls -> exists v rest, vs = v :: rest /\ m_params (w_obj w') l d = repeat (Some (repeat v (m_n_folds (w_obj w)))) (m_n_rep (w_obj w))) /\
  (forall l t, (~ In l (map fst ls) \/ t <> d) -> m_params (w_obj w') l t = m_params (w_obj w) l t).
Proof.
  induction ls as [|[a vs] ls IH]; intros w w' H; cbn [for_] in H.
  - injection H as <-. split; [apply only_refl|]. split; [intros _ l v []|auto].
  - apply andthen_ok in H as (w1 & [] & H1 & H2). cbn [fst snd] in H1. destruct vs as [|v rest]; [discriminate|].
    apply set_one in H1 as (O1 & M1 & _). apply IH in H2 as (O2 & I2 & N2). pose proof (only_fields _ _ O1) as (_ & F2 & F3). split; [eapply only_trans; eassumption|]. split.
    + intros ND l vs [E|Hl].
      * injection E as -> <-. exists v, rest. split; [reflexivity|]. cbn in ND. inversion ND as [|? ? Hn ND']; subst. rewrite (N2 l d (or_introl Hn)), M1, !String.eqb_refl. reflexivity.
      * inversion ND as [|? ? Hn ND']; subst. destruct (I2 ND' l vs Hl) as (v' & r' & -> & Q). exists v', r'. rewrite F2, F3 in Q. auto.
    + intros l t [Hn|Hn].
      * rewrite (N2 l t) by (left; intro; apply Hn; right; assumption). rewrite M1. destruct (String.eqb_spec l a) as [->|_]; [exfalso; apply Hn; left; reflexivity|reflexivity].
      * rewrite (N2 l t) by auto. rewrite M1. destruct (String.eqb_spec t d) as [->|_]; [contradiction|]. now rewrite andb_false_r.
Qed.

(** The aliased table. *)
Definition shared {A} (row : list (option A)) (k : nat) : table A := {| tb_rows := [row]; tb_refs := repeat 0%nat k |}.
Lemma nth_error_repeat {A} (x : A) k i : nth_error (repeat x k) i = if Nat.ltb i k then Some x else None.
Proof.
  revert i. induction k as [|k IH]; intro i; [now destruct i|]. destruct i; [reflexivity|]. cbn [repeat nth_error]. rewrite IH. reflexivity.
Qed.
Lemma shared_set {A} i j (v : A) row k : table_set i j v (shared row k) = if (Nat.ltb i k && Nat.ltb j (length row))%bool then Ok (shared (set_nth j (Some v) row) k) else Err IndexError.
Proof.
  unfold table_set, shared. cbn [tb_refs tb_rows]. rewrite nth_error_repeat. destruct (Nat.ltb i k); cbn [andb]; [|reflexivity]. cbn [nth]. destruct (Nat.ltb j (length row)); reflexivity.
Qed.

Notation body t := (fun r (st : table (tune_out P T) * list (list (string * list P))) =>
          res <- lift (fun w => let! fs := smpls_rep (m_smpls (w_obj w)) r in tn t (Some r) fs) ;;
          tb' <- lift (fun _ => table_set r t res (fst st)) ;;
          ret (P := P) (tb', snd st ++ [to_params res])).
Lemma inner_ok t k : forall a row nt' ps w w' st', for_acc (seq a k) (body t) (shared row nt', ps) w = (w', Ok st') -> w' = w /\
  exists ress, length ress = k /\ (forall i res, nth_error ress i = Some res -> tuning_of tn w t (a + i) res) /\ snd st' = ps ++ map to_params ress /\
    ((0 < k)%nat -> (a + k <= nt')%nat /\ (t < length row)%nat) /\
    fst st' = shared (match rev ress with [] => row | res :: _ => set_nth t (Some res) row end) nt'.
Proof.
  induction k as [|k IH]; intros a row nt' ps w w' st' H; cbn [seq for_acc] in H.
  - injection H as <- <-. split; [reflexivity|]. exists []. cbn. split; [reflexivity|]. split; [intros [|i] res E; discriminate|]. rewrite app_nil_r. split; [reflexivity|]. split; [lia|reflexivity].
  - apply andthen_ok in H as (w1 & st1 & H1 & H2). apply andthen_ok in H1 as (w0 & res & H0 & H1). rewrite lift_eq in H0. injection H0 as <- E.
    apply andthen_ok in H1 as (w0 & tb & H0 & H1). rewrite lift_eq in H0. injection H0 as <- Et. injection H1 as <- <-. cbn [fst snd] in *.
    rewrite shared_set in Et. destruct (Nat.ltb_spec a nt') as [L1|]; [|discriminate]. destruct (Nat.ltb_spec t (length row)) as [L2|]; [|discriminate]. cbn in Et. injection Et as <-.
    apply IH in H2 as (-> & ress & R1 & R2 & R3 & R4 & R5). split; [reflexivity|]. exists (res :: ress). split; [cbn; lia|].
    assert (Hr : tuning_of tn w t a res).
    { unfold smpls_rep in E. destruct (m_smpls (w_obj w)) as [sm|] eqn:Es; [|discriminate]. destruct (nth_error sm a) as [fs|] eqn:En; [|discriminate]. cbn in E. exists sm, fs. auto. }
    split. { intros [|i] r' Ei; cbn in Ei; [injection Ei as <-; now rewrite Nat.add_0_r|]. replace (a + S i)%nat with (S a + i)%nat by lia. auto. }
    split. { rewrite R3, <- app_assoc. reflexivity. }
    split. { intros _. split; [|exact L2]. destruct k; [lia|]. destruct (R4 ltac:(lia)) as [R4' _]. lia. }
    rewrite R5. f_equal. cbn [rev]. destruct (rev ress) as [|q qs]; cbn [app]; [reflexivity|]. apply L_FwConcat.set_set_nth.
Qed.
Lemma inner_world t k : forall a st w w' x, for_acc (seq a k) (body t) st w = (w', x) -> w' = w.
Proof.
  induction k as [|k IH]; intros a st w w' x H; cbn [seq for_acc] in H; [injection H as <- _; reflexivity|].
  rewrite andthen_unf in H. rewrite andthen_unf in H. rewrite lift_eq in H. destruct (let! fs := _ in _); [|injection H as <- _; reflexivity].
  rewrite andthen_unf in H. rewrite lift_eq in H. destruct (table_set _ _ _ _); [|injection H as <- _; reflexivity]. cbn in H. apply IH in H. exact H.
Qed.

(** One treatment, fold-wise. *)
Lemma folds_ok sp t row nt' w w' tb' : tune_folds C tn sp t (shared row nt') w = (w', Ok tb') -> only_params w w' /\
  exists ress, length ress = m_n_rep (w_obj w) /\ (forall r res, nth_error ress r = Some res -> tuning_of tn w t r res) /\
    ((0 < m_n_rep (w_obj w))%nat -> (m_n_rep (w_obj w) <= nt')%nat /\ (t < length row)%nat) /\
    tb' = shared (match rev ress with [] => row | res :: _ => set_nth t (Some res) row end) nt' /\
    (sp = false -> w' = w) /\
    (sp = true -> exists p0, hd_error ress = Some p0 /\
      (forall l, In l (map fst (to_params p0)) -> exists ps, collect_params l (map to_params ress) = Ok ps /\ m_params (w_obj w') l (treat_name C t) = map Some ps /\
          (forall x, In x ps -> length x = m_n_folds (w_obj w))) /\
      (forall l d, (~ In l (map fst (to_params p0)) \/ d <> treat_name C t) -> m_params (w_obj w') l d = m_params (w_obj w) l d)).
Proof.
  unfold tune_folds. intro H. apply andthen_ok in H as (w1 & w0 & H0 & H). rewrite lift_eq in H0. injection H0 as <- <-.
  apply andthen_ok in H as (w1 & st & H0 & H). apply inner_ok in H0 as (-> & ress & R1 & R2 & R3 & R4 & R5). cbn [app] in R3.
  apply andthen_ok in H as (w1 & [] & H0 & H). injection H as <- <-. destruct sp.
  - rewrite R3 in H0. destruct ress as [|p0 ress']; [discriminate|]. cbn [map] in H0. apply set_loop in H0 as (O & I & N). split; [exact O|]. exists (p0 :: ress'). split; [exact R1|]. split; [exact R2|].
    split; [exact R4|]. split; [exact R5|]. split; [discriminate|]. intros _. exists p0. split; [reflexivity|]. split; [|exact N]. intros l Hl. destruct (I l Hl) as (ps & Q1 & Q2 & _ & Q4). exists ps. auto.
  - injection H0 as <-. split; [apply only_refl|]. exists ress. split; [exact R1|]. split; [exact R2|]. split; [exact R4|]. split; [exact R5|]. split; [reflexivity|discriminate].
Qed.
Lemma tuning_only w w' t r res : only_params w w' -> tuning_of tn w' t r res -> tuning_of tn w t r res.
Proof. intros O (sm & fs & A & B). destruct (only_fields _ _ O) as (E & _). rewrite E in A. exists sm, fs. auto. Qed.

(** All treatments, fold-wise. *)
Lemma outer_ok sp k : forall a row w w' tb', for_acc (seq a k) (tune_folds C tn sp) (shared row nt) w = (w', Ok tb') -> only_params w w' /\
  ((0 < k)%nat -> (0 < m_n_rep (w_obj w))%nat -> (m_n_rep (w_obj w) <= nt)%nat /\ (a + k <= length row)%nat) /\
  (exists row', tb' = shared row' nt /\ length row' = length row /\
     (forall t, (t < a \/ a + k <= t)%nat -> nth t row' None = nth t row None) /\
     ((0 < m_n_rep (w_obj w))%nat -> forall t, (a <= t < a + k)%nat -> exists res, nth t row' None = Some res /\ tuning_of tn w t (m_n_rep (w_obj w) - 1) res)) /\
  (sp = false -> w' = w) /\
  (sp = true -> NoDup (c_dcols C) -> (a + k <= nt)%nat ->
     (forall t, (a <= t < a + k)%nat -> exists ress p0, length ress = m_n_rep (w_obj w) /\ (forall r res, nth_error ress r = Some res -> tuning_of tn w t r res) /\ hd_error ress = Some p0 /\
        (forall l, In l (map fst (to_params p0)) -> exists ps, collect_params l (map to_params ress) = Ok ps /\ m_params (w_obj w') l (treat_name C t) = map Some ps /\
          (forall x, In x ps -> length x = m_n_folds (w_obj w))) /\
        (forall l, ~ In l (map fst (to_params p0)) -> m_params (w_obj w') l (treat_name C t) = m_params (w_obj w) l (treat_name C t))) /\
     (forall l d, (forall t, (a <= t < a + k)%nat -> d <> treat_name C t) -> m_params (w_obj w') l d = m_params (w_obj w) l d)).
Proof.
  induction k as [|k IH]; intros a row w w' tb' H; cbn [seq for_acc] in H.
  - injection H as <- <-. split; [apply only_refl|]. split; [lia|]. split; [exists row; split; [reflexivity|]; split; [reflexivity|]; split; [reflexivity|intros _ t Ht; lia]|].
    split; [reflexivity|]. intros _ _ _. split; [intros t Ht; lia|reflexivity].
  - apply andthen_ok in H as (w1 & tb & H1 & H2). apply folds_ok in H1 as (O1 & ress & R1 & R2 & R3 & -> & R5 & R6).
    apply IH in H2 as (O2 & B2 & (row' & -> & L2 & N2 & G2) & F2 & T2). destruct (only_fields _ _ O1) as (Fs & Fr & Ff). rewrite ?Fs, ?Fr, ?Ff in *.
    set (row1 := match rev ress with [] => row | res :: _ => set_nth a (Some res) row end) in *.
    assert (L1 : length row1 = length row) by (unfold row1; destruct (rev ress); [reflexivity|apply set_nth_length]).
    split; [eapply only_trans; eassumption|]. split. { intros _ Hr. destruct (R3 Hr) as [R3a R3b]. split; [exact R3a|]. destruct k; [lia|]. destruct (B2 ltac:(lia) Hr). lia. }
    split.
    { exists row'. split; [reflexivity|]. split; [lia|]. split.
      - intros t Ht. rewrite N2 by lia. unfold row1. destruct (rev ress); [reflexivity|]. apply L_Model.set_nth_other. lia.
      - intros Hr t Ht. destruct (Nat.eq_dec t a) as [->|Hne].
        + rewrite N2 by lia. unfold row1. destruct (rev ress) as [|q qs] eqn:Er.
          { exfalso. assert (length (rev ress) = 0%nat) by now rewrite Er. rewrite rev_length in *. lia. }
          destruct (R3 Hr) as [_ R3b]. rewrite L_Model.set_nth_same by exact R3b. exists q. split; [reflexivity|]. apply R2.
          assert (E : ress = rev qs ++ [q]) by (rewrite <- (rev_involutive ress), Er; reflexivity). rewrite E in R1 |- *. rewrite app_length in R1. cbn in R1.
          rewrite nth_error_app2 by lia. replace (m_n_rep (w_obj w) - 1 - length (rev qs))%nat with 0%nat by lia. reflexivity.
        + destruct (G2 Hr t ltac:(lia)) as (res & E & Ht'). exists res. split; [exact E|]. eapply tuning_only; eassumption. }
    split. { intros ->. rewrite F2, R5 by reflexivity. reflexivity. }
    intros Hs ND Hb. destruct (R6 Hs) as (p0 & Q1 & Q2 & Q3). destruct (T2 Hs ND ltac:(lia)) as (U1 & U2).
    assert (Nm : forall t, (S a <= t < S a + k)%nat -> treat_name C a <> treat_name C t).
    { intros t Ht E. unfold treat_name in E. apply (proj1 (NoDup_nth (c_dcols C) EmptyString) ND) in E; lia. }
    split.
    + intros t Ht. destruct (Nat.eq_dec t a) as [->|Hne].
      * exists ress, p0. split; [exact R1|]. split; [exact R2|]. split; [exact Q1|]. split.
        -- intros l Hl. destruct (Q2 l Hl) as (ps & P1 & P2 & P3). exists ps. split; [exact P1|]. split; [|exact P3]. rewrite (U2 l (treat_name C a) Nm). exact P2.
        -- intros l Hl. rewrite (U2 l (treat_name C a) Nm). apply Q3. left; exact Hl.
      * destruct (U1 t ltac:(lia)) as (rs & q0 & V1 & V2 & V3 & V4 & V5). exists rs, q0. split; [exact V1|]. split; [intros r res E; eapply tuning_only; [exact O1|]; auto|]. split; [exact V3|].
        split; [exact V4|]. intros l Hl. rewrite V5 by exact Hl. apply Q3. right. apply not_eq_sym, Nm. lia.
    + intros l d Hd. rewrite U2 by (intros t Ht; apply Hd; lia). apply Q3. right. apply Hd. lia.
Qed.

(** Full-sample tuning. *)
Lemma full_one sp t acc w w' acc' : tune_full C tn sp t acc w = (w', Ok acc') -> only_params w w' /\
  exists res, full_tuning_of C tn t res /\ acc' = acc ++ [res] /\ (sp = false -> w' = w) /\
    (sp = true -> (NoDup (map fst (to_params res)) -> forall l vs, In (l, vs) (to_params res) -> exists v rest, vs = v :: rest /\
        m_params (w_obj w') l (treat_name C t) = repeat (Some (repeat v (m_n_folds (w_obj w)))) (m_n_rep (w_obj w))) /\
      (forall l d, (~ In l (map fst (to_params res)) \/ d <> treat_name C t) -> m_params (w_obj w') l d = m_params (w_obj w) l d)).
Proof.
  unfold tune_full. intro H. apply andthen_ok in H as (w1 & res & H0 & H). rewrite lift_eq in H0. injection H0 as <- E. apply andthen_ok in H as (w1 & [] & H0 & H). injection H as <- <-. destruct sp.
  - apply set_loop_full in H0 as (O & I & N). split; [exact O|]. exists res. split; [exact E|]. split; [reflexivity|]. split; [discriminate|]. auto.
  - injection H0 as <-. split; [apply only_refl|]. exists res. split; [exact E|]. split; [reflexivity|]. split; [reflexivity|discriminate].
Qed.
Lemma full_all sp k : forall a acc w w' acc', for_acc (seq a k) (tune_full C tn sp) acc w = (w', Ok acc') -> only_params w w' /\
  exists l, acc' = acc ++ l /\ length l = k /\ (forall i res, nth_error l i = Some res -> full_tuning_of C tn (a + i) res) /\ (sp = false -> w' = w) /\
   (sp = true -> NoDup (c_dcols C) -> (a + k <= nt)%nat ->
     (forall i res, nth_error l i = Some res ->
        (NoDup (map fst (to_params res)) -> forall l vs, In (l, vs) (to_params res) -> exists v rest, vs = v :: rest /\
          m_params (w_obj w') l (treat_name C (a + i)) = repeat (Some (repeat v (m_n_folds (w_obj w)))) (m_n_rep (w_obj w))) /\
        (forall l, ~ In l (map fst (to_params res)) -> m_params (w_obj w') l (treat_name C (a + i)) = m_params (w_obj w) l (treat_name C (a + i)))) /\
     (forall l d, (forall t, (a <= t < a + k)%nat -> d <> treat_name C t) -> m_params (w_obj w') l d = m_params (w_obj w) l d)).
Proof.
  induction k as [|k IH]; intros a acc w w' acc' H; cbn [seq for_acc] in H.
  - injection H as <- <-. split; [apply only_refl|]. exists []. rewrite app_nil_r. split; [reflexivity|]. split; [reflexivity|]. split; [intros [|i] res E; discriminate|]. split; [reflexivity|].
    intros _ _ _. split; [intros [|i] res E; discriminate|reflexivity].
  - apply andthen_ok in H as (w1 & acc1 & H1 & H2). apply full_one in H1 as (O1 & res & R1 & -> & R2 & R3). apply IH in H2 as (O2 & l & -> & L1 & L2 & F2 & T2).
    destruct (only_fields _ _ O1) as (Fs & Fr & Ff). rewrite ?Fs, ?Fr, ?Ff in *. split; [eapply only_trans; eassumption|]. exists (res :: l). rewrite <- app_assoc. split; [reflexivity|]. split; [cbn; lia|].
    split. { intros [|i] r E; cbn in E; [injection E as <-; now rewrite Nat.add_0_r|]. replace (a + S i)%nat with (S a + i)%nat by lia. auto. }
    split. { intros ->. rewrite F2, R2 by reflexivity. reflexivity. }
    intros Hs ND Hb. destruct (R3 Hs) as (Q1 & Q2). destruct (T2 Hs ND ltac:(lia)) as (U1 & U2).
    assert (Nm : forall t, (S a <= t < S a + k)%nat -> treat_name C a <> treat_name C t).
    { intros t Ht E. unfold treat_name in E. apply (proj1 (NoDup_nth (c_dcols C) EmptyString) ND) in E; lia. }
    split.
    + intros [|i] r E; cbn in E.
      * injection E as <-. rewrite Nat.add_0_r. split.
        -- intros ND' l' vs Hl. destruct (Q1 ND' l' vs Hl) as (v & rest & P1 & P2). exists v, rest. split; [exact P1|]. rewrite (U2 l' _ Nm). exact P2.
        -- intros l' Hl. rewrite (U2 l' _ Nm). apply Q2. auto.
      * replace (a + S i)%nat with (S a + i)%nat by lia. destruct (U1 i r E) as (V1 & V2). split; [exact V1|]. intros l' Hl. rewrite V2 by exact Hl. apply Q2. right. apply not_eq_sym, Nm.
        assert (i < length l)%nat by (apply nth_error_Some; congruence). lia.
    + intros l' d Hd. rewrite U2 by (intros t Ht; apply Hd; lia). apply Q2. right. apply Hd. lia.
Qed.

(** What holds of every parameter assignment holds of a call of [tune], failing
    or not. *)
Lemma keeps_acc {A S} (Rel : world P -> world P -> Prop) (l : list A) (f : A -> S -> act P S) :
  (forall w, Rel w w) -> (forall a b c, Rel a b -> Rel b c -> Rel a c) -> (forall x s, keeps Rel (f x s)) -> forall s, keeps Rel (for_acc l f s).
Proof.
  intros Rf Tr H. induction l as [|x l IH]; intro s; cbn [for_acc]; [apply keeps_ret, Rf|]. apply keeps_bind; [exact Tr|apply H|intro; apply IH].
Qed.
Lemma tune_rel (Rel : world P -> world P -> Prop) a : (forall w, Rel w w) -> (forall a b c, Rel a b -> Rel b c -> Rel a c) ->
  (is_true (ta_set a) = true -> forall l d v, keeps Rel (set_ml_nuisance_params C l d v)) -> keeps Rel (tune C names tn a).
Proof.
  intros Rf Tr H. assert (Kl : forall A (r : world P -> result A), keeps Rel (lift r)) by (intros; apply keeps_lift, Rf). assert (Kr : forall A (x : A), keeps Rel (ret x)) by (intros; apply keeps_ret, Rf).
  assert (Ke : forall A e, keeps Rel (@raise P A e)) by (intros A e w; apply Rf).
  unfold tune. apply keeps_bind; [exact Tr|apply Kl|intros _]. apply keeps_bind; [exact Tr|apply Kl|intro w]. destruct (is_true (ta_on_folds a)).
  - apply keeps_bind; [exact Tr| |intro; apply Kr]. apply keeps_acc; [exact Rf|exact Tr|]. intros t s. unfold tune_folds. apply keeps_bind; [exact Tr|apply Kl|intro w1].
    apply keeps_bind; [exact Tr| |intro st].
    + apply keeps_acc; [exact Rf|exact Tr|]. intros r st. apply keeps_bind; [exact Tr|apply Kl|intro]. apply keeps_bind; [exact Tr|apply Kl|intro; apply Kr].
    + apply keeps_bind; [exact Tr| |intro; apply Kr]. destruct (is_true (ta_set a)); [|apply Kr]. destruct (snd st); [apply Ke|]. apply keeps_for; [exact Rf|exact Tr|]. intro x.
      apply keeps_bind; [exact Tr|apply Kl|intro ps; apply H; reflexivity].
  - apply keeps_bind; [exact Tr| |intro; apply Kr]. apply keeps_acc; [exact Rf|exact Tr|]. intros t s. unfold tune_full. apply keeps_bind; [exact Tr|apply Kl|intro res].
    apply keeps_bind; [exact Tr| |intro; apply Kr]. destruct (is_true (ta_set a)); [|apply Kr]. apply keeps_for; [exact Rf|exact Tr|]. intros [l [|v vs]]; cbn [fst snd]; [apply Ke|apply H; reflexivity].
Qed.
Lemma tune_keeps a w : only_params w (fst (tune C names tn a w)).
Proof. apply tune_rel; [apply only_refl|apply only_trans|]. intros _ l d v w0. apply set_any. Qed.
Lemma tune_sets_nothing a w : is_true (ta_set a) = false -> fst (tune C names tn a w) = w.
Proof. intro H. symmetry. apply (tune_rel (fun w w' => w = w')); [reflexivity|congruence|]. intro E. congruence. Qed.
Lemma run_snoc ops o : forall w, run C (ops ++ [o]) w = fst (run_op C o (run C ops w)).
Proof. induction ops as [|p ops IH]; intro w; cbn [run app]; [reflexivity|apply IH]. Qed.
Lemma tune_reachable a w : reachable C w -> reachable C (fst (tune C names tn a w)).
Proof.
  apply (tune_rel (fun w w' => reachable C w -> reachable C w')); [auto|auto|]. intros _ l d v w0 (nf & nr & dr & g & perm & w1 & ops & A & ->).
  exists nf, nr, dr, g, perm, w1, (ops ++ [OParams l d v]). split; [exact A|]. rewrite run_snoc. reflexivity.
Qed.

(** ** C42 *)
Lemma alias_shared n_rep : alias_table (A := tune_out P T) n_rep nt = shared (repeat None n_rep) nt.
Proof. reflexivity. Qed.
Lemma folds_call a w w' x : is_true (ta_on_folds a) = true -> tune C names tn a w = (w', Ok x) -> exists tb,
  for_acc (seq 0 nt) (tune_folds C tn (is_true (ta_set a))) (shared (repeat None (m_n_rep (w_obj w))) nt) w = (w', Ok tb) /\
  x = (if is_true (ta_return a) then RFolds (table_view tb) else RSelf).
Proof.
  intros Hf H. unfold tune in H. apply andthen_ok in H as (w0 & u & H0 & H). rewrite lift_eq in H0. injection H0 as <- _. apply andthen_ok in H as (w0 & u' & H0 & H). rewrite lift_eq in H0. injection H0 as <- <-.
  rewrite Hf in H. apply andthen_ok in H as (w0 & tb & H0 & H). injection H as <- <-. exists tb. split; [exact H0|reflexivity].
Qed.
Lemma full_call a w w' x : is_true (ta_on_folds a) = false -> tune C names tn a w = (w', Ok x) -> exists l,
  for_acc (seq 0 nt) (tune_full C tn (is_true (ta_set a))) [] w = (w', Ok l) /\ x = (if is_true (ta_return a) then RGlobal l else RSelf).
Proof.
  intros Hf H. unfold tune in H. apply andthen_ok in H as (w0 & u & H0 & H). rewrite lift_eq in H0. injection H0 as <- _. apply andthen_ok in H as (w0 & u' & H0 & H). rewrite lift_eq in H0. injection H0 as <- <-.
  rewrite Hf in H. apply andthen_ok in H as (w0 & tb & H0 & H). injection H as <- <-. exists tb. split; [exact H0|reflexivity].
Qed.
Lemma unequal_fails a w : is_true (ta_on_folds a) = true -> c_dcols C <> [] -> (0 < m_n_rep (w_obj w))%nat -> m_n_rep (w_obj w) <> nt ->
  forall w' x, tune C names tn a w <> (w', Ok x).
Proof.
  intros Hf Hd Hr Hne w' x H. destruct (folds_call _ _ _ _ Hf H) as (tb & K & _). apply outer_ok in K as (_ & B & _). rewrite repeat_length in B.
  assert (Hd' : (0 < nt)%nat) by (destruct (c_dcols C); [contradiction|cbn; lia]). destruct (B Hd' Hr). lia.
Qed.
Lemma fold_results a w w' l : is_true (ta_on_folds a) = true -> (0 < m_n_rep (w_obj w))%nat -> tune C names tn a w = (w', Ok (RFolds l)) ->
  length l = nt /\ forall i t row, nth_error l i = Some row -> (t < nt)%nat -> exists res, nth_error row t = Some (Some res) /\ tuning_of tn w t (m_n_rep (w_obj w) - 1) res.
Proof.
  intros Hf Hr H. destruct (folds_call _ _ _ _ Hf H) as (tb & K & E). destruct (is_true (ta_return a)); [|discriminate]. injection E as ->.
  apply outer_ok in K as (_ & _ & (row' & -> & L & _ & G) & _). unfold table_view, shared. cbn [tb_refs tb_rows]. rewrite map_length, repeat_length. split; [reflexivity|].
  intros i t row Hi Ht. rewrite nth_error_map, nth_error_repeat in Hi. destruct (Nat.ltb_spec i nt); [|discriminate]. cbn in Hi. injection Hi as <-.
  destruct (G Hr t ltac:(lia)) as (res & E & K). exists res. split; [|exact K]. destruct (nth_error row' t) as [o|] eqn:Eo.
  - rewrite (nth_error_nth row' t None Eo) in E. now subst.
  - apply nth_error_None in Eo. rewrite nth_overflow in E by exact Eo. discriminate.
Qed.
Lemma full_results a w w' l : is_true (ta_on_folds a) = false -> tune C names tn a w = (w', Ok (RGlobal l)) ->
  length l = nt /\ forall t res, nth_error l t = Some res -> full_tuning_of C tn t res.
Proof.
  intros Hf H. destruct (full_call _ _ _ _ Hf H) as (l' & K & E). destruct (is_true (ta_return a)); [|discriminate]. injection E as <-. apply full_all in K as (_ & l'' & -> & L & G & _). cbn [app]. auto.
Qed.

(** ** C70 *)
Lemma collect_ok l ress ps : collect_params l (map (@to_params P T) ress) = Ok ps -> length ps = length ress /\
  forall r res, nth_error ress r = Some res -> exists v, dict_get l (to_params res) = Some v /\ nth_error ps r = Some v.
Proof.
  unfold collect_params. rewrite map_res_map. intro H. apply map_res_iff in H. revert H. generalize ps. clear ps. induction ress as [|x ress IH]; intros ps H; inversion H as [|? y ? ys E F]; subst.
  - split; [reflexivity|]. intros [|r] res E; discriminate.
  - destruct (IH ys F) as (L & G). split; [cbn; congruence|]. intros [|r] res E'; cbn in E'; [|exact (G r res E')]. injection E' as <-. exists y. destruct (dict_get l (to_params x)); [injection E as <-; auto|discriminate].
Qed.
Lemma tuned_folds a w w' x : is_true (ta_on_folds a) = true -> is_true (ta_set a) = true -> NoDup (c_dcols C) -> tune C names tn a w = (w', Ok x) -> only_params w w' /\
  forall t d, nth_error (c_dcols C) t = Some d -> exists res0, tuning_of tn w t 0 res0 /\
    (forall l, In l (map fst (to_params res0)) -> length (m_params (w_obj w') l d) = m_n_rep (w_obj w) /\
       forall r, (r < m_n_rep (w_obj w))%nat -> exists res v, tuning_of tn w t r res /\ dict_get l (to_params res) = Some v /\
         nth_error (m_params (w_obj w') l d) r = Some (Some v) /\ length v = m_n_folds (w_obj w)) /\
    (forall l, ~ In l (map fst (to_params res0)) -> m_params (w_obj w') l d = m_params (w_obj w) l d).
Proof.
  intros Hf Hs ND H. destruct (folds_call _ _ _ _ Hf H) as (tb & K & _). rewrite Hs in K. apply outer_ok in K as (O & _ & _ & _ & G). split; [exact O|].
  destruct (G eq_refl ND ltac:(lia)) as (G1 & _). clear G. intros t d Hd. assert (Ht : (t < nt)%nat) by (apply nth_error_Some; congruence).
  assert (Ed : treat_name C t = d) by (apply nth_error_nth; exact Hd). destruct (G1 t ltac:(lia)) as (ress & p0 & A1 & A2 & A3 & A4 & A5). rewrite Ed in A4, A5.
  exists p0. split; [apply A2; destruct ress; [discriminate|exact A3]|]. split; [|exact A5].
  intros l Hl. destruct (A4 l Hl) as (ps & B1 & B2 & B3). apply collect_ok in B1 as (L & B1). rewrite B2, map_length, L. split; [exact A1|].
  intros r Hr. destruct (nth_error ress r) as [res|] eqn:Er; [|apply nth_error_None in Er; lia]. destruct (B1 r res Er) as (v & D1 & D2). exists res, v.
  split; [apply A2; exact Er|]. split; [exact D1|]. split; [rewrite nth_error_map, D2; reflexivity|]. apply B3. eapply nth_error_In; exact D2.
Qed.
Lemma tuned_full a w w' x : is_true (ta_on_folds a) = false -> is_true (ta_set a) = true -> NoDup (c_dcols C) -> tune C names tn a w = (w', Ok x) -> only_params w w' /\
  forall t d, nth_error (c_dcols C) t = Some d -> exists res, full_tuning_of C tn t res /\
    (NoDup (map fst (to_params res)) -> forall l vs, In (l, vs) (to_params res) -> exists v rest, vs = v :: rest /\
       m_params (w_obj w') l d = repeat (Some (repeat v (m_n_folds (w_obj w)))) (m_n_rep (w_obj w))) /\
    (forall l, ~ In l (map fst (to_params res)) -> m_params (w_obj w') l d = m_params (w_obj w) l d).
Proof.
  intros Hf Hs ND H. destruct (full_call _ _ _ _ Hf H) as (tb & K & _). rewrite Hs in K. apply full_all in K as (O & l & _ & L & B & _ & G). split; [exact O|].
  destruct (G eq_refl ND ltac:(lia)) as (G1 & _). clear G. intros t d Hd. assert (Ht : (t < nt)%nat) by (apply nth_error_Some; congruence).
  assert (Ed : treat_name C t = d) by (apply nth_error_nth; exact Hd). destruct (nth_error l t) as [res|] eqn:Er; [|apply nth_error_None in Er; lia].
  exists res. split; [exact (B t res Er)|]. specialize (G1 t res Er). cbn [plus] in G1. rewrite Ed in G1. exact G1.
Qed.
(** The next fit. *)
Lemma next_fit a w w1 x nj store ext sm w2 : reachable C w -> NoDup (c_dcols C) -> c_dcols C <> [] -> is_true (ta_on_folds a) = true -> is_true (ta_set a) = true ->
  tune C names tn a w = (w1, Ok x) -> fit C nj store ext sm w1 = (w2, Ok tt) ->
  exists out f smp, current_fw w2 f /\ reports C w1 out f /\ m_smpls (w_obj w) = Some smp /\
    forall r t d, (r < m_n_rep (w_obj w))%nat -> nth_error (c_dcols C) t = Some d -> exists pr e res0, c_nuis C r t (nth r smp []) pr e = Ok (out r t) /\ tuning_of tn w t 0 res0 /\
      forall l, In l (map fst (to_params res0)) -> exists res v, tn t (Some r) (nth r smp []) = Ok res /\ dict_get l (to_params res) = Some v /\ pr l = Some v.
Proof.
  intros R ND Hd Hf Hs H F. assert (R1 : reachable C w1). { assert (E : w1 = fst (tune C names tn a w)) by now rewrite H. rewrite E. apply tune_reachable. exact R. }
  destruct (tuned_folds _ _ _ _ Hf Hs ND H) as (O & G). destruct (only_fields _ _ O) as (Fs & Fr & _).
  destruct (fit_reports _ _ _ _ _ _ _ Hd R1 F) as (out & f & (smp & Es & _ & Nr) & Cf & Rp & _). rewrite Fs in Es. rewrite Fr in Nr. exists out, f, smp. split; [exact Cf|]. split; [exact Rp|]. split; [exact Es|].
  intros r t d Hr Ht. destruct (Nr r t d Hr Ht) as (e & _ & E). destruct (G t d Ht) as (res0 & T0 & G1 & _). exists (fun l => nth r (m_params (w_obj w1) l d) None), e, res0. split; [exact E|]. split; [exact T0|].
  intros l Hl. destruct (G1 l Hl) as (_ & G2). destruct (G2 r Hr) as (res & v & (sm' & fs & S1 & S2 & S3) & D & N & _). exists res, v. rewrite Es in S1. injection S1 as <-.
  rewrite (nth_error_nth smp r [] S2). split; [exact S3|]. split; [exact D|]. erewrite nth_error_nth; [reflexivity|exact N].
Qed.
End Obj.

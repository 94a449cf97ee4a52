(** Lemmas on wrapper objects: splits and histories. *)
From Verif Require Import S_WrapObject L_Splitting L_Resampling L_ModelInv L_InitArgs.
From Coq Require Import Lia Lra.
Local Open Scope R_scope.
Local Open Scope string_scope.

(** ** Passing a stored split on *)
Definition zf (h : fold) : zfold := (map Z.of_nat (fst h), map Z.of_nat (snd h)).
Lemma as_py sm : as_pysplit sm = SList (map (fun fs => SList (map tup fs)) (map (map zf) sm)).
Proof. unfold as_pysplit. rewrite map_map. f_equal. apply map_ext. intro fs. rewrite map_map. reflexivity. Qed.
Lemma zsorted_unique : forall l l', Sorted Z.le l -> Sorted Z.le l' -> Permutation l l' -> l = l'.
Proof.
  assert (Tr : Relations_1.Transitive Z.le) by (intros a b c; lia).
  intros l. induction l as [|x l IH]; intros l' Hs Hs' Hp.
  - apply Permutation_nil in Hp. congruence.
  - destruct l' as [|y l']; [apply Permutation_sym, Permutation_nil in Hp; discriminate|].
    pose proof (Sorted_StronglySorted Tr Hs) as S1. pose proof (Sorted_StronglySorted Tr Hs') as S2.
    apply StronglySorted_inv in S1 as (_ & F1). apply StronglySorted_inv in S2 as (_ & F2). rewrite Forall_forall in F1, F2.
    assert (x = y). { assert (I1 : In x (y :: l')) by (eapply Permutation_in; [exact Hp|left; reflexivity]). assert (I2 : In y (x :: l)) by (eapply Permutation_in; [apply Permutation_sym, Hp|left; reflexivity]).
      destruct I1 as [I1|I1]; [congruence|]. destruct I2 as [I2|I2]; [congruence|]. specialize (F1 _ I2). specialize (F2 _ I1). lia. }
    subst y. f_equal. apply IH; [inversion Hs; assumption|inversion Hs'; assumption|]. eapply Permutation_cons_inv, Hp.
Qed.
Lemma sorted_lt_nodup l : Sorted lt l -> NoDup l.
Proof.
  intro Hs. apply Sorted_StronglySorted in Hs; [|intros a b c; lia]. induction Hs as [|x l Hs IH F]; constructor; [|exact IH].
  intro I. rewrite Forall_forall in F. specialize (F _ I). lia.
Qed.
Lemma sorted_of_nat l : Sorted lt l -> Sorted Z.le (map Z.of_nat l).
Proof. intro Hs. induction Hs as [|x l Hs IH F]; cbn; constructor; [exact IH|]. destruct F; cbn; constructor. lia. Qed.
Lemma to_of_nat l : map Z.to_nat (map Z.of_nat l) = l.
Proof. rewrite map_map. rewrite <- (map_id l) at 2. apply map_ext. intro. lia. Qed.
Lemma of_to_nat l : (forall z, In z l -> (0 <= z)%Z) -> map Z.of_nat (map Z.to_nat l) = l.
Proof. intro H. rewrite map_map. rewrite <- (map_id l) at 2. apply map_ext_in. intros z I. specialize (H z I). lia. Qed.
Lemma flat_zf fs : flat_map snd (map zf fs) = map Z.of_nat (flat_map snd fs).
Proof. induction fs as [|h fs IH]; [reflexivity|]. cbn. rewrite IH, map_app. reflexivity. Qed.
Lemma nodup_of_nat l : NoDup l -> NoDup (map Z.of_nat l).
Proof. intro H. apply FinFun.Injective_map_NoDup; [intros a b; lia|exact H]. Qed.

Lemma crossed_range n sm fs h i : crossed n sm -> In fs sm -> In h fs -> In i (snd h) -> (i < n)%nat.
Proof.
  intros (_ & _ & C) F H I. destruct (C fs F) as (_ & Pm & _). assert (J : In i (flat_map snd fs)) by (apply in_flat_map; eauto).
  apply (Permutation_in _ Pm) in J. apply in_seq in J. lia.
Qed.
Lemma crossed_good n sm : crossed n sm -> good_split n (as_pysplit sm) (map (map zf) sm).
Proof.
  intros Cr. pose proof Cr as (Ne & (k & Lk) & C). split.
  - rewrite as_py. constructor; [destruct sm; [congruence|discriminate]|]. intros r Hr. apply in_map_iff in Hr as (fs & <- & F). destruct (C fs F) as (N & _). destruct fs; [congruence|discriminate].
  - right. split; [intros (l & H); discriminate|]. split; [exists k; intros r Hr; apply in_map_iff in Hr as (fs & <- & F); rewrite map_length; apply Lk, F|].
    intros r Hr. apply in_map_iff in Hr as (fs & <- & F). destruct (C fs F) as (N & Pm & H). split; [destruct fs; [congruence|discriminate]|]. split; [rewrite flat_zf; apply Permutation_map, Pm|].
    intros g Hg. apply in_map_iff in Hg as (h & <- & Hh). destruct (H h Hh) as (S1 & S2 & Ap). cbn [zf fst snd].
    split; [|split].
    + split; [apply nodup_of_nat, sorted_lt_nodup, S1|]. intros z Hz. apply in_map_iff in Hz as (i & <- & Hi). destruct (Ap i Hi). lia.
    + split; [apply nodup_of_nat, sorted_lt_nodup, S2|]. intros z Hz. apply in_map_iff in Hz as (i & <- & Hi). pose proof (crossed_range n sm fs h i Cr F Hh Hi). lia.
    + intros z Hz Hz'. apply in_map_iff in Hz as (i & <- & Hi). apply in_map_iff in Hz' as (j & E & Hj). apply Nat2Z.inj in E. subst j. destruct (Ap i Hi) as (_ & X). exact (X Hj).
Qed.
Lemma sorted_same h g : Sorted lt (fst h) -> Sorted lt (snd h) -> sorted_of (zf h) g -> nf g = h.
Proof.
  intros S1 S2 (P1 & P2 & Q1 & Q2). destruct h as (a, b), g as (a', b'). unfold nf. cbn [zf fst snd] in *.
  rewrite <- (zsorted_unique _ _ (sorted_of_nat _ S1) Q1 P1), <- (zsorted_unique _ _ (sorted_of_nat _ S2) Q2 P2), !to_of_nat. reflexivity.
Qed.
Lemma resplit n sm : crossed n sm -> exists ck, check_sample_splitting n (as_pysplit sm) = Ok ck /\ map (map nf) (ck_smpls ck) = sm /\ ck_n_rep ck = length sm.
Proof.
  intro Cr. destruct (accept_complete n _ _ (crossed_good n sm Cr)) as (ck & E & (F & L1 & _)). exists ck. split; [exact E|]. split; [|rewrite L1, map_length; reflexivity].
  destruct Cr as (_ & _ & C). clear - F C. revert F C. generalize (ck_smpls ck). induction sm as [|fs sm IH]; intros z F C; cbn [map] in F.
  - inversion F. reflexivity.
  - inversion F as [|a b l l' H1 H2 E1 E2]; subst. cbn [map]. f_equal; [|apply IH; [exact H2|intros gs G; apply C; right; exact G]].
    destruct (C fs (or_introl eq_refl)) as (_ & _ & Hf). clear - H1 Hf. revert b H1. induction fs as [|h fs IHf]; intros b H1; cbn [map] in H1.
    + inversion H1. reflexivity.
    + inversion H1 as [|a' b' l l' G1 G2 E1 E2]; subst. cbn [map]. destruct (Hf h (or_introl eq_refl)) as (S1 & S2 & _). f_equal; [apply sorted_same; assumption|]. apply IHf; [intros g G; apply Hf; right; exact G|exact G2].
Qed.
Lemma sorted_to_nat l : (forall z, In z l -> (0 <= z)%Z) -> NoDup l -> Sorted Z.le l -> Sorted lt (map Z.to_nat l).
Proof.
  intros Nn Nd Hs. induction Hs as [|x l Hs IH F]; cbn; constructor.
  - apply IH; [intros z I; apply Nn; right; exact I|inversion Nd; assumption].
  - destruct F as [|y l F]; cbn; constructor. assert (x <> y) by (inversion Nd; subst; intro; subst; apply H1; left; reflexivity). specialize (Nn x (or_introl eq_refl)). lia.
Qed.
Lemma nf_sorted n f g : rows_ok n (fst f) -> rows_ok n (snd f) -> apart (fst f) (snd f) -> sorted_of f g ->
  Sorted lt (fst (nf g)) /\ Sorted lt (snd (nf g)) /\ forall i, In i (fst (nf g)) -> (i < n)%nat /\ ~ In i (snd (nf g)).
Proof.
  intros (N1 & R1) (N2 & R2) Ap (P1 & P2 & Q1 & Q2). unfold nf. cbn [fst snd].
  assert (B1 : forall z, In z (fst g) -> In z (fst f)) by (intros z; apply Permutation_in, Permutation_sym, P1).
  assert (B2 : forall z, In z (snd g) -> In z (snd f)) by (intros z; apply Permutation_in, Permutation_sym, P2).
  split; [apply sorted_to_nat; [intros z I; apply R1, B1, I|eapply Permutation_NoDup; [exact P1|exact N1]|exact Q1]|].
  split; [apply sorted_to_nat; [intros z I; apply R2, B2, I|eapply Permutation_NoDup; [exact P2|exact N2]|exact Q2]|].
  intros i Hi. apply in_map_iff in Hi as (z & <- & Hz). pose proof (R1 z (B1 z Hz)) as Rz. split; [lia|]. intro Hj. apply in_map_iff in Hj as (z' & E & Hz'). pose proof (R2 z' (B2 z' Hz')).
  assert (z = z') by lia. subst z'. exact (Ap z (B1 z Hz) (B2 z Hz')).
Qed.
Lemma flat_nf fs gs : Forall2 sorted_of fs gs -> Permutation (flat_map snd fs) (flat_map snd gs).
Proof. intro F. induction F as [|f g fs gs (_ & P2 & _) _ IH]; [constructor|]. cbn. apply Permutation_app; assumption. Qed.
Lemma flat_nat gs : flat_map snd (map nf gs) = map Z.to_nat (flat_map snd gs).
Proof. induction gs as [|g gs IH]; [reflexivity|]. cbn. rewrite IH, map_app. reflexivity. Qed.
Lemma accepted_crossed n sp ck : check_sample_splitting n sp = Ok ck ->
  crossed n (map (map nf) (ck_smpls ck)) \/ (exists reps, good_split n sp reps /\ no_split n reps) /\ map (map nf) (ck_smpls ck) = [[(seq 0 n, seq 0 n)]].
Proof.
  intro E. destruct (accept_sound _ _ _ E) as (reps & G & F & L1 & L2). pose proof G as (W & [(_ & Ns)|(_ & (k & Lk) & Cf)]).
  - right. split; [exists reps; auto|]. destruct Ns as (tr & te & -> & P1 & P2). inversion F as [|? b ? l' H1 H2 E1 E2]; subst. inversion H2; subst. inversion H1 as [|? g ? l' (Q1 & Q2 & S1 & S2) G2 E1' E2']; subst. inversion G2; subst. cbn [map]. do 2 f_equal. destruct g as (x, y). unfold nf. cbn [fst snd] in *.
    assert (Sr : Sorted Z.le (all_rows n)) by (apply sorted_of_nat; clear; generalize 0%nat; induction n as [|m IH]; intro a; cbn; constructor; [apply IH|destruct m; cbn; constructor; lia]).
    rewrite (zsorted_unique x (all_rows n) S1 Sr) by (eapply perm_trans; [apply Permutation_sym, Q1|exact P1]). rewrite (zsorted_unique y (all_rows n) S2 Sr) by (eapply perm_trans; [apply Permutation_sym, Q2|exact P2]).
    unfold all_rows. rewrite to_of_nat. reflexivity.
  - left. split; [|split].
    + intro X. apply map_eq_nil in X. rewrite X in F. inversion F. subst. inversion W; subst. congruence.
    + exists k. intros fs Hf. apply in_map_iff in Hf as (zs & <- & Hz). rewrite map_length.
      assert (X : exists rp, In rp reps /\ Forall2 sorted_of rp zs). { clear - F Hz. induction F as [|a b l l' Hab F IH]; [contradiction|]. destruct Hz as [->|Hz]; [exists a; split; [left; reflexivity|exact Hab]|]. destruct (IH Hz) as (rp & A & B). exists rp. split; [right; exact A|exact B]. }
      destruct X as (rp & Hrp & Fz). rewrite <- (Forall2_len _ _ _ Fz). apply Lk, Hrp.
    + intros fs Hf. apply in_map_iff in Hf as (zs & <- & Hz).
      assert (X : exists rp, In rp reps /\ Forall2 sorted_of rp zs). { clear - F Hz. induction F as [|a b l l' Hab F IH]; [contradiction|]. destruct Hz as [->|Hz]; [exists a; split; [left; reflexivity|exact Hab]|]. destruct (IH Hz) as (rp & A & B). exists rp. split; [right; exact A|exact B]. }
      destruct X as (rp & Hrp & Fz). destruct (Cf rp Hrp) as (N & Pm & Hc). split; [intro X; apply map_eq_nil in X; subst zs; inversion Fz; congruence|]. split.
      * rewrite flat_nat. rewrite <- (to_of_nat (seq 0 n)). apply Permutation_map. eapply perm_trans; [apply Permutation_sym, flat_nf, Fz|exact Pm].
      * intros h Hh. apply in_map_iff in Hh as (g & <- & Hg). assert (X : exists f, In f rp /\ sorted_of f g). { clear - Fz Hg. induction Fz as [|a b l l' Hab F IH]; [contradiction|]. destruct Hg as [->|Hg]; [exists a; split; [left; reflexivity|exact Hab]|]. destruct (IH Hg) as (f & A & B). exists f. split; [right; exact A|exact B]. }
        destruct X as (f & Hf & So). destruct (Hc f Hf) as (A & B & D). exact (nf_sorted n f g A B D So).
Qed.
(** The split without splitting is refused in its stored form. *)
Lemma no_split_again n ck : (0 < n)%nat -> check_sample_splitting n (as_pysplit [[(seq 0 n, seq 0 n)]]) <> Ok ck.
Proof.
  intros Hn E. destruct (accept_sound _ _ _ E) as (reps & (W & G) & _). rewrite as_py in W, G.
  destruct G as [(Nn & _)|(_ & _ & Cf)]; [apply Nn; cbn [map]; eexists _, _; reflexivity|].
  assert (Er : reps = [[zf (seq 0 n, seq 0 n)]]).
  { cbn [map] in W. inversion W as [f H|fs H|rp N1 N2 H]; [destruct fs as [|f [|f' fs]]; discriminate|].
    destruct rp as [|[|f [|f' fs]] [|r' rp]]; try discriminate. cbn [map] in H. injection H as H1 H2. destruct f as (a, b). unfold zf. cbn [fst snd] in *. congruence. }
  subst reps. destruct (Cf _ (or_introl eq_refl)) as (_ & _ & H). destruct (H _ (or_introl eq_refl)) as (_ & _ & Ap).
  assert (I : In 0%Z (map Z.of_nat (seq 0 n))) by (apply in_map_iff; exists 0%nat; split; [reflexivity|apply in_seq; lia]). exact (Ap 0%Z I I).
Qed.

Lemma checked_reps_n n sp ck : check_sample_splitting n sp = Ok ck -> (0 < ck_n_rep ck)%nat /\ length (ck_smpls ck) = ck_n_rep ck.
Proof.
  intro H. apply accept_sound in H. destruct H as (reps & [Hw _] & F & L & _). apply Forall2_len in F. split; [|congruence].
  rewrite L. inversion Hw; subst; cbn; try lia. destruct reps; [congruence|cbn; lia].
Qed.

(** ** Histories *)
Section Generic.
Context {B A : Type}.
Variable K : wclass B.
Variable fitting : A -> wobj B -> wobj B * result unit.
Variable on : B -> list (list fold) -> Prop.
Variable refit : nat -> B -> B -> Prop.
Hypothesis Hn : (0 < wk_n K)%nat.
Hypothesis Hc : (0 < wk_count K)%nat.
Hypothesis set_on : forall nfv nrv i sp m m', wk_make K nfv nrv i = Ok m -> wk_set K sp m = Ok m' -> exists ck, check_sample_splitting (wk_n K) sp = Ok ck /\ on m' (map (map nf) (ck_smpls ck)).
Hypothesis refit_on : forall i m m' sm, refit i m m' -> on m sm -> on m' sm.
Hypothesis fitting_is : forall a b, fst (fitting a b) = b \/ exists fitter, fst (fitting a b) = fst (wrap_fit K fitter b) /\ forall i m, refit i m (fst (fitter i m)).

Inductive refits (i : nat) (m : B) : B -> Prop := rf_nil : refits i m m | rf_more m' m'' : refits i m m' -> refit i m' m'' -> refits i m m''.
Definition origin (nf nr : pyval) (sm : list (list fold)) (i : nat) (m : B) : Prop :=
  exists m0 m1, wk_make K nf nr i = Ok m0 /\ wk_set K (as_pysplit sm) m0 = Ok m1 /\ refits i m1 m.
Definition unsplit (sm : list (list fold)) : Prop := sm = [[(seq 0 (wk_n K), seq 0 (wk_n K))]].
Definition subs_inv (l : list B) (nf nr : pyval) (sm : list (list fold)) : Prop :=
  crossed (wk_n K) sm /\ int_val nr = Z.of_nat (length sm) /\ is_int nr = true /\ length l = wk_count K /\ forall i m, nth_error l i = Some m -> origin nf nr sm i m.
Definition winv (b : wobj B) : Prop :=
  (forall sm, wo_smpls b = Some sm -> (crossed (wk_n K) sm \/ unsplit sm) /\ int_val (wo_reps b) = Z.of_nat (length sm) /\ is_int (wo_reps b) = true) /\
  (forall l, wo_subs b = Some l -> exists nf nr sm, subs_inv l nf nr sm).

Lemma refits_on i m m' sm : refits i m m' -> on m sm -> on m' sm.
Proof. intros R H. induction R as [|m' m'' R IH Q]; [exact H|]. exact (refit_on _ _ _ _ Q IH). Qed.
Lemma origin_on nf nr sm i m : crossed (wk_n K) sm -> origin nf nr sm i m -> on m sm.
Proof.
  intros Cr (m0 & m1 & Mk & Q & R). apply (refits_on _ _ _ _ R). destruct (set_on _ _ _ _ _ _ Mk Q) as (ck & E & H). destruct (resplit _ _ Cr) as (ck' & E' & S1 & _).
  rewrite E in E'. injection E' as <-. rewrite S1 in H. exact H.
Qed.
Lemma subs_on l nf nr sm : subs_inv l nf nr sm -> forall m, In m l -> on m sm.
Proof. intros (Cr & _ & _ & _ & H) m I. apply In_nth_error in I as (i & I). exact (origin_on _ _ _ _ _ Cr (H i m I)). Qed.

Lemma map_res_at {X Y} (g : X -> result Y) : forall l ys, map_res g l = Ok ys -> length ys = length l /\ forall i y, nth_error ys i = Some y -> exists x, nth_error l i = Some x /\ g x = Ok y.
Proof.
  induction l as [|x l IH]; intros ys H.
  - injection H as <-. split; [reflexivity|]. intros [|i] y; discriminate.
  - cbn [map_res] in H. destruct (g x) as [y|e] eqn:G; [|discriminate]. cbn [bind] in H. destruct (map_res g l) as [l'|e] eqn:M; [|discriminate]. injection H as <-. destruct (IH l' eq_refl) as (L & N). cbn [length]. split; [congruence|].
    intros [|i] z Hz; [injection Hz as <-; exists x; auto|apply N, Hz].
Qed.
Lemma remade_ok b b' : remade K b = (b', Ok tt) -> exists sm l, wo_smpls b = Some sm /\ b' = {| wo_folds := wo_folds b; wo_reps := wo_reps b; wo_smpls := wo_smpls b; wo_subs := Some l; wo_fw := wo_fw b |} /\
  length l = wk_count K /\ forall i m, nth_error l i = Some m -> exists m0, wk_make K (wo_folds b) (wo_reps b) i = Ok m0 /\ wk_set K (as_pysplit sm) m0 = Ok m.
Proof.
  unfold remade, wrap_subs. destruct (wo_smpls b) as [sm|] eqn:Es; [|discriminate]. destruct (map_res _ _) as [l|e] eqn:M; [|discriminate]. intro H. apply pair_equal_spec in H as (<- & _).
  exists sm, l. split; [reflexivity|]. split; [reflexivity|]. apply map_res_at in M as (L & N). rewrite seq_length in L. split; [exact L|].
  intros i m Hm. destruct (N i m Hm) as (j & Hj & Q). assert (j = i). { assert (i < wk_count K)%nat by (rewrite <- L; apply nth_error_Some; congruence). rewrite (nth_error_nth' _ 0%nat) in Hj by (rewrite seq_length; lia). rewrite seq_nth in Hj by lia. injection Hj. lia. }
  subst j. destruct (wk_make K (wo_folds b) (wo_reps b) i) as [m0|e] eqn:Mk; [|discriminate]. exists m0. split; [reflexivity|exact Q].
Qed.
Lemma remade_err b b' e : remade K b = (b', Err e) -> b' = b.
Proof. unfold remade. destruct (wrap_subs K b); intro H; apply pair_equal_spec in H as (<- & ?); [discriminate|reflexivity]. Qed.

Lemma remade_inv b b' : (forall sm, wo_smpls b = Some sm -> (crossed (wk_n K) sm \/ unsplit sm) /\ int_val (wo_reps b) = Z.of_nat (length sm) /\ is_int (wo_reps b) = true) ->
  remade K b = (b', Ok tt) -> exists sm l, wo_smpls b' = Some sm /\ wo_smpls b = Some sm /\ wo_subs b' = Some l /\ subs_inv l (wo_folds b) (wo_reps b) sm /\ wo_reps b' = wo_reps b /\ wo_folds b' = wo_folds b.
Proof.
  intros H R. destruct (remade_ok b b' R) as (sm & l & Es & -> & L & N). destruct (H sm Es) as (Cr & Ir & Ii). exists sm, l. cbn [wo_smpls wo_subs wo_reps wo_folds]. split; [exact Es|]. split; [exact Es|]. split; [reflexivity|]. split; [|auto].
  destruct l as [|m l]; [cbn in L; lia|]. assert (Cr' : crossed (wk_n K) sm).
  { destruct Cr as [Cr|U]; [exact Cr|]. exfalso. unfold unsplit in U. subst sm. destruct (N 0%nat m eq_refl) as (m0 & Mk & Q). destruct (set_on _ _ _ _ _ _ Mk Q) as (ck & E & _). exact (no_split_again _ _ Hn E). }
  split; [exact Cr'|]. split; [exact Ir|]. split; [exact Ii|]. split; [exact L|]. intros i x Hx. destruct (N i x Hx) as (m0 & Q1 & Q2). exists m0, x. split; [exact Q1|]. split; [exact Q2|constructor].
Qed.

Lemma resample_ok nf nr g sm : shuffles g -> resample K nf nr g = Ok sm -> spread (wk_n K) nf nr (wk_strata K) sm /\ crossed (wk_n K) sm /\ int_val nr = Z.of_nat (length sm) /\ is_int nr = true.
Proof.
  intros Sh H. unfold resample in H. destruct (match nf with PInt _ | PBool _ => _ | _ => _ end) as [k|e] eqn:Ek; [|discriminate]. cbn [bind] in H.
  assert (Kk : k = int_val nf) by (destruct nf; try discriminate; injection Ek as <-; reflexivity). subst k.
  apply require_ok in H as (H2 & H). apply require_ok in H as (H3 & H). apply require_ok in H as (_ & H). apply Z.leb_le in H2. apply andb_prop in H3 as (H3 & H4). apply Z.leb_le in H4.
  destruct (draws _ _ _ _ _ _ Sh H) as (Ls & Fs). pose proof (draws_labels _ _ _ _ _ _ Sh H) as Lb. split; [split; [exact Ls|]|split; [|split; [lia|exact H3]]].
  - intros fs Hf. destruct (Fs fs Hf) as (F1 & F2 & F3). split; [exact F1|]. split; [exact F2|]. split.
    + intros h j i Hh Hk Hi. pose proof (Lb fs Hf h j i Hh Hk Hi) as Q. rewrite !code_counts in Q. exact Q.
    + intros h i Hh Hi Two. destruct (train_has_label (wk_n K) (value_codes (wk_strata K)) fs h i F2 (Lb fs Hf)) as (j & Hj & Ej); [lia|exact Hh|exact Hi|rewrite code_count; exact Two|].
      exists j. split; [|split; [exact Hj|apply value_codes_eq, Ej]]. destruct F2 as (_ & F2). destruct (F2 h Hh) as (_ & _ & F2'). apply F2' in Hj. tauto.
  - split; [intro X; subst sm; cbn in Ls; lia|]. split; [exists (Z.to_nat (int_val nf)); intros fs Hf; apply Fs, Hf|]. intros fs Hf. destruct (Fs fs Hf) as (F1 & (F2 & F2') & _).
    split; [intro X; subst fs; cbn in F1; lia|]. split; [exact F2|]. intros h Hh. destruct (F2' h Hh) as (S1 & S2 & Ap). split; [exact S1|]. split; [exact S2|]. intros i Hi. apply Ap, Hi.
Qed.

Lemma fit_each_refit fitter : (forall i m, refit i m (fst (fitter i m))) -> forall l i l' o, fit_each fitter i l = (l', o) ->
  length l' = length l /\ forall j m', nth_error l' j = Some m' -> exists m, nth_error l j = Some m /\ refits (i + j) m m'.
Proof.
  intro Hr. induction l as [|m l IH]; intros i l' o H.
  - apply pair_equal_spec in H as (<- & _). split; [reflexivity|]. intros [|j] m'; discriminate.
  - cbn [fit_each] in H. pose proof (Hr i m) as R0. destruct (fitter i m) as (m1, [u|e]) eqn:Ef; cbn [fst] in R0.
    + destruct (fit_each fitter (S i) l) as (rest, o') eqn:Er. apply pair_equal_spec in H as (<- & _). destruct (IH _ _ _ Er) as (L & N). cbn [length]. split; [congruence|].
      intros [|j] m' Hm; [injection Hm as <-; exists m; rewrite Nat.add_0_r; split; [reflexivity|econstructor; [constructor|exact R0]]|]. destruct (N j m' Hm) as (x & Q & R). exists x. split; [exact Q|]. replace (i + S j)%nat with (S i + j)%nat by lia. exact R.
    + apply pair_equal_spec in H as (<- & _). split; [reflexivity|]. intros [|j] m' Hm; [injection Hm as <-; exists m; rewrite Nat.add_0_r; split; [reflexivity|econstructor; [constructor|exact R0]]|]. exists m'. split; [exact Hm|constructor].
Qed.
Lemma refits_trans i a b c : refits i a b -> refits i b c -> refits i a c.
Proof. intros R1 R2. induction R2 as [|x y R2 IH Q]; [exact R1|]. econstructor; [exact IH|exact Q]. Qed.
Lemma wrap_fit_shape fitter b : let b' := fst (wrap_fit K fitter b) in wo_folds b' = wo_folds b /\ wo_reps b' = wo_reps b /\ wo_smpls b' = wo_smpls b /\
  (wo_subs b' = wo_subs b /\ wo_subs b = None \/ exists l l' o, wo_subs b = Some l /\ wo_subs b' = Some l' /\ fit_each fitter 0 l = (l', o)).
Proof.
  cbv zeta. unfold wrap_fit. destruct (wo_subs b) as [l|] eqn:Es; [|cbn [fst]; auto 6].
  destruct (fit_each fitter 0 l) as (l', o) eqn:Ef. destruct (let! _ := o in wk_combine K l')%res; cbn [fst wo_folds wo_reps wo_smpls wo_subs]; (split; [reflexivity|]; split; [reflexivity|]; split; [reflexivity|]; right; exists l, l', o; auto).
Qed.
Lemma fit_winv fitter b : (forall i m, refit i m (fst (fitter i m))) -> winv b -> winv (fst (wrap_fit K fitter b)).
Proof.
  intros Hr (I1 & I2). destruct (wrap_fit_shape fitter b) as (Ef & Er & Es & Sb). split; [rewrite Es, Er; exact I1|].
  intros l' Hl'. destruct Sb as [(Q & N)|(l & l1 & o & E1 & E2 & E3)]; [congruence|]. assert (l1 = l') by congruence. subst l1. destruct (I2 l E1) as (nf' & nr' & sm & C1 & C2 & C2' & C3 & C4). exists nf', nr', sm.
  destruct (fit_each_refit fitter Hr l 0%nat l' o E3) as (L & N). split; [exact C1|]. split; [exact C2|]. split; [exact C2'|]. split; [congruence|]. intros i m Hm. destruct (N i m Hm) as (m1 & Q1 & Q2). destruct (C4 i m1 Q1) as (a & c & D1 & D2 & D3).
  exists a, c. split; [exact D1|]. split; [exact D2|]. exact (refits_trans _ _ _ _ D3 Q2).
Qed.
Lemma new_split_inv b nfv nrv sm : winv b -> (crossed (wk_n K) sm \/ unsplit sm) -> int_val nrv = Z.of_nat (length sm) -> is_int nrv = true ->
  winv {| wo_folds := nfv; wo_reps := nrv; wo_smpls := Some sm; wo_subs := wo_subs b; wo_fw := wo_fw b |}.
Proof. intros (I1 & I2) Cr Ir Ii. split; cbn [wo_smpls wo_reps wo_subs]; [intros s0 H; injection H as <-; auto|exact I2]. Qed.
Lemma remade_winv b : winv b -> winv (fst (remade K b)).
Proof.
  intros I. destruct (remade K b) as (b', [[]|e]) eqn:R; cbn [fst].
  - destruct (remade_inv b b' (proj1 I) R) as (sm & l & E1 & E0 & E2 & E3 & E4 & E5). split; [rewrite E1, E4, <- E0; exact (proj1 I)|]. intros l' Hl. assert (l' = l) by congruence. subst l'. eexists _, _, _. exact E3.
  - apply remade_err in R. subst b'. exact I.
Qed.
Lemma call_winv c b : wgood c -> winv b -> winv (fst (wcall_do K fitting c b)).
Proof.
  intros G I. destruct c as [g|sp|a]; cbn [wcall_do].
  - unfold wrap_draw. destruct (resample K (wo_folds b) (wo_reps b) g) as [sm|e] eqn:R; [|exact I]. destruct (resample_ok _ _ _ _ G R) as (_ & Cr & Ir & Ii).
    pose proof (new_split_inv b (wo_folds b) (wo_reps b) sm I (or_introl Cr) Ir Ii) as I'. destruct (wk_remake K); [apply remade_winv, I'|exact I'].
  - unfold wrap_set. destruct (check_sample_splitting (wk_n K) sp) as [ck|e] eqn:E; [|exact I]. apply remade_winv. apply new_split_inv; [exact I| | |reflexivity].
    + destruct (accepted_crossed _ _ _ E) as [Cr|(_ & U)]; [left; exact Cr|right; exact U].
    + destruct (checked_reps_n _ _ _ E) as (_ & L). cbn [int_val]. rewrite map_length. congruence.
  - destruct (fitting_is a b) as [-> |(fitter & -> & Hr)]; [exact I|]. apply fit_winv; assumption.
Qed.
Lemma calls_winv b0 b : winv b0 -> wlater K fitting b0 b -> winv b.
Proof.
  intros I (l & G & ->). revert b0 I. induction l as [|c l IH]; intros b0 I; [exact I|]. cbn [wcalls fold_left]. apply IH; [intros x Hx; apply G; right; exact Hx|]. apply call_winv; [apply G; left; reflexivity|exact I].
Qed.
Lemma start_winv nfv nrv : winv {| wo_folds := nfv; wo_reps := nrv; wo_smpls := None; wo_subs := None; wo_fw := None |}.
Proof. split; cbn; intros; discriminate. Qed.
Lemma new_winv nfv nrv draw g b : shuffles g -> wrap_new K nfv nrv draw g = Ok b -> winv b.
Proof.
  intros Sh H. unfold wrap_new in H. destruct draw; [|injection H as <-; apply start_winv].
  destruct (wrap_draw K g _) as (b1, [[]|e]) eqn:D; [|discriminate]. pose proof (call_winv (WcDraw g) _ Sh (start_winv nfv nrv)) as I. cbn [wcall_do] in I. rewrite D in I. cbn [fst] in I.
  destruct (remade K b1) as (b2, [[]|e]) eqn:R; [|discriminate]. injection H as <-. pose proof (remade_winv b1 I) as I2. rewrite R in I2. exact I2.
Qed.

(** ** Creating the sub-models *)
Hypothesis set_ok : forall nfv nrv i m sp ck, wk_make K nfv nrv i = Ok m -> check_sample_splitting (wk_n K) sp = Ok ck -> exists m', wk_set K sp m = Ok m'.
Lemma remade_succeeds b sm : wo_smpls b = Some sm -> crossed (wk_n K) sm -> (forall i, (i < wk_count K)%nat -> exists m, wk_make K (wo_folds b) (wo_reps b) i = Ok m) -> exists b', remade K b = (b', Ok tt).
Proof.
  intros Es Cr Mk. unfold remade, wrap_subs. rewrite Es. destruct (resplit _ _ Cr) as (ck & E & _).
  assert (X : exists l, map_res (fun i => let! m := wk_make K (wo_folds b) (wo_reps b) i in wk_set K (as_pysplit sm) m)%res (seq 0 (wk_count K)) = Ok l).
  { apply map_res_ok_all. intros i Hi. apply in_seq in Hi. destruct (Mk i ltac:(lia)) as (m & Q). rewrite Q. cbn [bind]. exact (set_ok _ _ _ _ _ _ Q E). }
  destruct X as (l & ->). eexists. reflexivity.
Qed.
Lemma remade_needs b b' : remade K b = (b', Ok tt) -> forall i, (i < wk_count K)%nat -> exists m, wk_make K (wo_folds b) (wo_reps b) i = Ok m.
Proof.
  intros R i Hi. destruct (remade_ok b b' R) as (sm & l & _ & _ & L & N). destruct (nth_error l i) as [m|] eqn:E; [|apply nth_error_None in E; lia]. destruct (N i m E) as (m0 & Q & _). eauto.
Qed.
Lemma resample_args nfv nrv g : succeeds (resample K nfv nrv g) <-> split_args (wk_n K) nfv nrv (PBool true) (Some (wk_strata K)) /\ whole_numbers (wk_n K) (wk_strata K).
Proof.
  unfold resample, succeeds, split_args. split.
  - intros (sm & H). destruct (match nfv with PInt _ | PBool _ => _ | _ => _ end) as [k|e] eqn:Ek; [|discriminate]. cbn [bind] in H.
    assert (Kk : k = int_val nfv /\ is_int nfv = true) by (destruct nfv; try discriminate; injection Ek as <-; auto). destruct Kk as (-> & In1).
    apply require_ok in H as (H2 & H). apply require_ok in H as (H3 & H). apply require_ok in H as (H5 & H). apply Z.leb_le in H2. apply andb_prop in H3 as (H3 & H4). apply Z.leb_le in H4. apply whole_iff in H5.
    destruct (proj1 (resampling_defined (Z.to_nat (int_val nfv)) (Z.to_nat (int_val nrv)) (wk_n K) (Some (value_codes (wk_strata K))) g ltac:(lia)) (ex_intro _ sm H)) as (Kr & i & Hi & Hk).
    split; [|exact H5]. split; [exact In1|]. split; [lia|]. split; [exact H3|]. split; [exact H4|]. exists true. split; [reflexivity|]. intros _. split; [exact Kr|]. exists i. split; [exact Hi|]. rewrite <- code_count. exact Hk.
  - intros ((H1 & H2 & H3 & H4 & b & Q & H5) & Wh). injection Q as <-. specialize (H5 eq_refl). cbv zeta in H5. destruct H5 as (Kr & i & Hi & Hk).
    assert (Ek : (match nfv with PInt _ | PBool _ => Ok (int_val nfv) | PFloat _ => Err ValueError | _ => Err TypeError end) = Ok (int_val nfv)) by (destruct nfv; try discriminate; reflexivity).
    rewrite Ek. cbn [bind]. replace (Z.leb 2 (int_val nfv)) with true by (symmetry; apply Z.leb_le; lia). rewrite H3. replace (Z.leb 1 (int_val nrv)) with true by (symmetry; apply Z.leb_le; lia). cbn [andb require].
    apply whole_iff in Wh. rewrite Wh. cbn [require]. apply resampling_defined; [lia|]. split; [exact Kr|]. exists i. split; [exact Hi|]. rewrite code_count. exact Hk.
Qed.
Lemma drawn_new nfv nrv g sm : shuffles g -> resample K nfv nrv g = Ok sm -> (forall i, (i < wk_count K)%nat -> exists m, wk_make K nfv nrv i = Ok m) -> exists b, wrap_new K nfv nrv true g = Ok b.
Proof.
  intros Sh R Mk. destruct (resample_ok _ _ _ _ Sh R) as (_ & Cr & _ & _). unfold wrap_new, wrap_draw. cbn [wo_folds wo_reps]. rewrite R. cbn [wo_subs wo_fw].
  set (b1 := {| wo_folds := nfv; wo_reps := nrv; wo_smpls := Some sm; wo_subs := None; wo_fw := None |}).
  assert (A1 : forall sb, exists b', remade K {| wo_folds := nfv; wo_reps := nrv; wo_smpls := Some sm; wo_subs := sb; wo_fw := None |} = (b', Ok tt)) by (intro sb; apply (remade_succeeds _ sm); [reflexivity|exact Cr|exact Mk]).
  destruct (wk_remake K).
  - destruct (A1 None) as (b2 & Q). fold b1 in Q. rewrite Q. destruct (remade_ok b1 b2 Q) as (sm' & l & _ & -> & _). cbn [b1 wo_folds wo_reps wo_smpls wo_fw]. destruct (A1 (Some l)) as (b3 & Q3). rewrite Q3. eauto.
  - destruct (A1 None) as (b2 & Q). fold b1 in Q. rewrite Q. eauto.
Qed.
Lemma new_drawn nfv nrv g b : wrap_new K nfv nrv true g = Ok b -> exists sm l, resample K nfv nrv g = Ok sm /\ wo_folds b = nfv /\ wo_reps b = nrv /\ wo_smpls b = Some sm /\ wo_subs b = Some l /\ wo_fw b = None /\ length l = wk_count K /\
  (forall i m, nth_error l i = Some m -> exists m0, wk_make K nfv nrv i = Ok m0 /\ wk_set K (as_pysplit sm) m0 = Ok m).
Proof.
  unfold wrap_new, wrap_draw. cbn [wo_folds wo_reps]. destruct (resample K nfv nrv g) as [sm|e] eqn:R; [|discriminate]. cbn [wo_subs wo_fw].
  assert (X : forall b1, (if wk_remake K then remade K {| wo_folds := nfv; wo_reps := nrv; wo_smpls := Some sm; wo_subs := None; wo_fw := None |} else ({| wo_folds := nfv; wo_reps := nrv; wo_smpls := Some sm; wo_subs := None; wo_fw := None |}, Ok tt)) = (b1, Ok tt) ->
    wo_folds b1 = nfv /\ wo_reps b1 = nrv /\ wo_smpls b1 = Some sm /\ wo_fw b1 = None).
  { intros b1 H. destruct (wk_remake K); [apply remade_ok in H as (sm' & l & _ & -> & _); auto|apply pair_equal_spec in H as (<- & _); auto]. }
  destruct (if wk_remake K then _ else _) as (b1, [[]|e]) eqn:Eb; [|discriminate]. specialize (X b1 eq_refl). destruct X as (X1 & X2 & X3 & X4). destruct (remade K b1) as (b2, [[]|e]) eqn:R2; [|discriminate]. intro H. apply ok_inj in H. subst b2.
  destruct (remade_ok b1 b R2) as (sm' & l & E1 & -> & L & N). rewrite X1, X2 in N. assert (sm' = sm) by congruence. subst sm'. exists sm, l. cbn [wo_folds wo_reps wo_smpls wo_subs wo_fw]. auto 12.
Qed.
Lemma new_accepts nfv nrv g : shuffles g -> (succeeds (wrap_new K nfv nrv true g) <->
  split_args (wk_n K) nfv nrv (PBool true) (Some (wk_strata K)) /\ whole_numbers (wk_n K) (wk_strata K) /\ forall i, (i < wk_count K)%nat -> succeeds (wk_make K nfv nrv i)).
Proof.
  intro Sh. split.
  - intros (b & H). destruct (new_drawn _ _ _ _ H) as (sm & l & R & _ & _ & _ & _ & _ & L & N). destruct (proj1 (resample_args nfv nrv g) (ex_intro _ sm R)) as (S1 & S2). split; [exact S1|]. split; [exact S2|].
    intros i Hi. destruct (nth_error l i) as [m|] eqn:E; [|apply nth_error_None in E; lia]. destruct (N i m E) as (m0 & Q & _). exists m0. exact Q.
  - intros (S1 & S2 & Mk). destruct (proj2 (resample_args nfv nrv g) (conj S1 S2)) as (sm & R). exact (drawn_new _ _ _ _ Sh R Mk).
Qed.
Lemma new_split nfv nrv g b : shuffles g -> wrap_new K nfv nrv true g = Ok b -> exists sm l, wo_smpls b = Some sm /\ spread (wk_n K) nfv nrv (wk_strata K) sm /\ wo_subs b = Some l /\ length l = wk_count K /\ forall m, In m l -> on m sm.
Proof.
  intros Sh H. destruct (new_drawn _ _ _ _ H) as (sm & l & R & _ & _ & Es & El & _ & L & N). destruct (resample_ok _ _ _ _ Sh R) as (Sp & Cr & _). exists sm, l. split; [exact Es|]. split; [exact Sp|]. split; [exact El|]. split; [exact L|].
  intros m I. apply In_nth_error in I as (i & I). destruct (N i m I) as (m0 & Q1 & Q2). apply (origin_on nfv nrv sm i m Cr). exists m0, m. split; [exact Q1|]. split; [exact Q2|constructor].
Qed.

(** ** The reported split *)
Hypothesis make_any : forall nfv nrv nfv' nrv' i m, wk_make K nfv nrv i = Ok m -> is_int nfv' = true -> (1 <= int_val nfv')%Z -> is_int nrv' = true -> (1 <= int_val nrv')%Z -> exists m', wk_make K nfv' nrv' i = Ok m'.
Definition synced (b : wobj B) : Prop := forall l, wo_subs b = Some l -> exists sm, wo_smpls b = Some sm /\ forall m, In m l -> on m sm.
Lemma remade_synced b sm : winv b -> wo_smpls b = Some sm -> crossed (wk_n K) sm -> is_int (wo_folds b) = true -> (1 <= int_val (wo_folds b))%Z -> is_int (wo_reps b) = true -> (1 <= int_val (wo_reps b))%Z -> synced (fst (remade K b)).
Proof.
  intros I Es Cr F1 F2 R1 R2. destruct (remade K b) as (b', [[]|e]) eqn:R; cbn [fst].
  - destruct (remade_inv b b' (proj1 I) R) as (sm' & l & E1 & _ & E2 & E3 & _). intros l' Hl. assert (l' = l) by congruence. subst l'. exists sm'. split; [exact E1|]. exact (subs_on _ _ _ _ E3).
  - pose proof (remade_err _ _ _ R). subst b'. intros l Hl. exfalso. destruct (proj2 I l Hl) as (nf1 & nr1 & sm1 & _ & _ & _ & L & N).
    destruct (remade_succeeds b sm Es Cr) as (b2 & Q); [|congruence]. intros i Hi. destruct (nth_error l i) as [m|] eqn:E; [|apply nth_error_None in E; lia]. destruct (N i m E) as (m0 & m1 & Mk & _).
    exact (make_any _ _ _ _ _ _ Mk F1 F2 R1 R2).
Qed.
Lemma fit_synced fitter b : (forall i m, refit i m (fst (fitter i m))) -> synced b -> synced (fst (wrap_fit K fitter b)).
Proof.
  intros Hr Sy. destruct (wrap_fit_shape fitter b) as (_ & _ & Es & Sb). intros l' Hl'. destruct Sb as [(Q & N)|(l & l1 & o & E1 & E2 & E3)]; [congruence|]. assert (l1 = l') by congruence. subst l1.
  destruct (Sy l E1) as (sm & Q1 & Q2). exists sm. split; [congruence|]. intros m I. apply In_nth_error in I as (i & I). destruct (fit_each_refit fitter Hr l 0%nat l' o E3) as (_ & N). destruct (N i m I) as (m1 & I1 & R). exact (refits_on _ _ _ _ R (Q2 m1 (nth_error_In _ _ I1))).
Qed.
Lemma accepted_folds sp ck : check_sample_splitting (wk_n K) sp = Ok ck -> (1 <= ck_n_folds ck)%nat.
Proof.
  intro H. apply accept_sound in H. destruct H as (reps & [Hw G] & _ & _ & L). destruct reps as [|r reps]; [inversion Hw; congruence|]. rewrite (L r (or_introl eq_refl)).
  destruct G as [(_ & tr & te & E & _)|(_ & _ & C)]; [injection E as -> ->; cbn; lia|]. destruct (C r (or_introl eq_refl)) as (N & _). destruct r; [congruence|cbn; lia].
Qed.
Lemma call_synced c b : wgood c -> winv b -> synced b -> ~ asks_no_split (wk_n K) c -> (wk_remake K = true \/ forall g, c <> WcDraw g) -> synced (fst (wcall_do K fitting c b)).
Proof.
  intros G I Sy Nn Rm. destruct c as [g|sp|a]; cbn [wcall_do].
  - destruct Rm as [Rm|Rm]; [|exfalso; exact (Rm g eq_refl)]. unfold wrap_draw. destruct (resample K (wo_folds b) (wo_reps b) g) as [sm|e] eqn:R; [|exact Sy]. rewrite Rm. destruct (resample_ok _ _ _ _ G R) as (_ & Cr & Ir & Ii).
    destruct (proj1 (resample_args _ _ _) (ex_intro _ sm R)) as ((F1 & F2 & F3 & F4 & _) & _).
    apply (remade_synced _ sm); cbn [wo_folds wo_reps]; try assumption; [|reflexivity]. exact (new_split_inv b (wo_folds b) (wo_reps b) sm I (or_introl Cr) Ir Ii).
  - unfold wrap_set. destruct (check_sample_splitting (wk_n K) sp) as [ck|e] eqn:E; [|exact Sy]. destruct (checked_reps_n _ _ _ E) as (P1 & L). pose proof (accepted_folds sp ck E).
    destruct (accepted_crossed _ _ _ E) as [Cr|((reps & U1 & U2) & _)]; [|exfalso; apply Nn; exists sp, reps; auto].
    apply (remade_synced _ (map (map nf) (ck_smpls ck))); cbn [wo_folds wo_reps is_int int_val]; try reflexivity; try lia; [|exact Cr].
    apply new_split_inv; [exact I|left; exact Cr|cbn [int_val]; rewrite map_length; congruence|reflexivity].
  - destruct (fitting_is a b) as [-> |(fitter & -> & Hr)]; [exact Sy|]. apply fit_synced; assumption.
Qed.
Lemma calls_synced b0 l : winv b0 -> synced b0 -> (forall c, In c l -> wgood c /\ ~ asks_no_split (wk_n K) c /\ (wk_remake K = true \/ forall g, c <> WcDraw g)) -> synced (wcalls K fitting l b0).
Proof.
  revert b0. induction l as [|c l IH]; intros b0 I Sy H; [exact Sy|]. cbn [wcalls fold_left]. destruct (H c (or_introl eq_refl)) as (G & N & R). apply IH; [apply call_winv; assumption|apply call_synced; assumption|]. intros x Hx. apply H. right. exact Hx.
Qed.
Lemma new_synced nfv nrv draw g b : shuffles g -> wrap_new K nfv nrv draw g = Ok b -> synced b.
Proof.
  intros Sh H l Hl. destruct draw; [|unfold wrap_new in H; injection H as <-; discriminate]. destruct (new_split _ _ _ _ Sh H) as (sm & l' & E1 & _ & E2 & _ & E3). exists sm. split; [exact E1|]. intros m I. apply E3. congruence.
Qed.
(** Asking for no splitting: refused, but the reported split is replaced. *)
Lemma no_split_set b sp reps : good_split (wk_n K) sp reps -> no_split (wk_n K) reps ->
  exists b' e, wrap_set K sp b = (b', Err e) /\ wo_smpls b' = Some [[(seq 0 (wk_n K), seq 0 (wk_n K))]] /\ wo_reps b' = PInt 1 /\ wo_folds b' = PInt 1 /\ wo_subs b' = wo_subs b /\ wo_fw b' = wo_fw b.
Proof.
  intros G Ns. unfold wrap_set. destruct (accept_complete _ _ _ G) as (ck & E & St). rewrite E. destruct (accepted_crossed _ _ _ E) as [Cr|(_ & U)].
  - exfalso. destruct Ns as (tr & te & -> & P1 & P2). destruct St as (F & _). inversion F as [|? b1 ? l' H1 H2 E1 E2]; subst. inversion H2; subst. inversion H1 as [|? g ? l' (Q1 & Q2 & _) G2 E1' E2']; subst. inversion G2; subst. rewrite <- E2 in Cr. cbn [map] in Cr.
    destruct Cr as (_ & _ & C). destruct (C _ (or_introl eq_refl)) as (_ & _ & H). destruct (H _ (or_introl eq_refl)) as (_ & _ & Ap). cbn [nf fst snd] in *.
    assert (I0 : In 0%Z (all_rows (wk_n K))) by (apply in_map_iff; exists 0%nat; split; [reflexivity|apply in_seq; lia]).
    assert (I1 : In 0%nat (map Z.to_nat (fst g))) by (apply in_map_iff; exists 0%Z; split; [reflexivity|eapply Permutation_in; [exact Q1|eapply Permutation_in; [apply Permutation_sym, P1|exact I0]]]).
    assert (I2 : In 0%nat (map Z.to_nat (snd g))) by (apply in_map_iff; exists 0%Z; split; [reflexivity|eapply Permutation_in; [exact Q2|eapply Permutation_in; [apply Permutation_sym, P2|exact I0]]]).
    destruct (Ap _ I1) as (_ & X). exact (X I2).
  - assert (Er : ck_n_rep ck = 1%nat /\ ck_n_folds ck = 1%nat). { destruct St as (_ & L1 & L2). destruct Ns as (tr & te & -> & _). split; [exact L1|exact (L2 _ (or_introl eq_refl))]. }
    destruct Er as (-> & ->). rewrite U. set (b1 := {| wo_folds := _; wo_reps := _; wo_smpls := _; wo_subs := _; wo_fw := _ |}). destruct (remade K b1) as (b2, [[]|e]) eqn:R.
    + exfalso. destruct (remade_ok b1 b2 R) as (sm & l & E1 & _ & L & N). cbn [b1 wo_smpls] in E1. injection E1 as <-. destruct l as [|m l]; [cbn in L; lia|]. destruct (N 0%nat m eq_refl) as (m0 & Mk & Q). destruct (set_on _ _ _ _ _ _ Mk Q) as (ck' & E' & _). exact (no_split_again _ _ Hn E').
    + pose proof (remade_err _ _ _ R). subst b2. exists b1, e. auto 8.
Qed.

(** ** Fitting *)
Lemma fit_each_ok (fitter : nat -> B -> B * result unit) : forall (l : list B) i (l' : list B), fit_each fitter i l = (l', Ok tt) -> length l' = length l /\ forall j m, nth_error l j = Some m -> exists m', nth_error l' j = Some m' /\ fitter (i + j)%nat m = (m', Ok tt).
Proof.
  induction l as [|m l IH]; intros i l' H.
  - apply pair_equal_spec in H as (<- & _). split; [reflexivity|]. intros [|j] m'; discriminate.
  - cbn [fit_each] in H. destruct (fitter i m) as (m1, [[]|e]) eqn:Ef; [|apply pair_equal_spec in H as (_ & H); discriminate].
    destruct (fit_each fitter (S i) l) as (rest, o') eqn:Er. apply pair_equal_spec in H as (<- & ->). destruct (IH _ _ Er) as (L & N). cbn [length]. split; [congruence|].
    intros [|j] x Hx; [injection Hx as <-; exists m1; rewrite Nat.add_0_r; auto|]. destruct (N j x Hx) as (y & Q1 & Q2). exists y. split; [exact Q1|]. replace (i + S j)%nat with (S i + j)%nat by lia. exact Q2.
Qed.
Lemma wrap_fit_ok fitter b b' : wrap_fit K fitter b = (b', Ok tt) -> exists l l' F, wo_subs b = Some l /\ wo_subs b' = Some l' /\ wo_fw b' = Some F /\ wk_combine K l' = Ok F /\ length l' = length l /\
  forall j m, nth_error l j = Some m -> exists m', nth_error l' j = Some m' /\ fitter j m = (m', Ok tt).
Proof.
  unfold wrap_fit. destruct (wo_subs b) as [l|] eqn:Es; [|discriminate]. destruct (fit_each fitter 0 l) as (l', [[]|e]) eqn:Ef; cbn [bind]; [|discriminate]. destruct (wk_combine K l') as [F|e] eqn:Ec; [|discriminate].
  intro H. apply pair_equal_spec in H as (<- & _). destruct (fit_each_ok _ _ _ _ Ef) as (L & N). exists l, l', F. cbn [wo_subs wo_fw]. auto 8.
Qed.
Lemma fit_each_succeeds (fitter : nat -> B -> B * result unit) : forall (l : list B) i, (forall j m, nth_error l j = Some m -> exists m', fitter (i + j)%nat m = (m', Ok tt)) -> exists l', fit_each fitter i l = (l', Ok tt).
Proof.
  induction l as [|m l IH]; intros i H; [exists []; reflexivity|]. cbn [fit_each]. destruct (H 0%nat m eq_refl) as (m' & Q). rewrite Nat.add_0_r in Q. rewrite Q.
  destruct (IH (S i)) as (l' & Ql). { intros j x Hx. destruct (H (S j) x Hx) as (y & Qy). exists y. replace (S i + j)%nat with (i + S j)%nat by lia. exact Qy. } rewrite Ql. eexists. reflexivity.
Qed.

(** ** Refused calls *)
Lemma map_res_err {X Y} (h : X -> result Y) e : forall l, map_res h l = Err e -> exists x, In x l /\ h x = Err e.
Proof.
  induction l as [|x l IH]; cbn [map_res]; [discriminate|]. destruct (h x) as [y|e'] eqn:Eh; cbn [bind].
  - destruct (map_res h l) as [ys|e'] eqn:Em; cbn [bind]; [discriminate|]. intro H. injection H as ->. destruct (IH eq_refl) as (z & I & Q). exists z. split; [right; exact I|exact Q].
  - intro H. injection H as ->. exists x. split; [left; reflexivity|exact Eh].
Qed.
Lemma remade_refused b b' e sm : wo_smpls b = Some sm -> crossed (wk_n K) sm -> remade K b = (b', Err e) -> exists i, (i < wk_count K)%nat /\ wk_make K (wo_folds b) (wo_reps b) i = Err e.
Proof.
  intros Es Cr H. unfold remade, wrap_subs in H. rewrite Es in H. destruct (resplit _ _ Cr) as (ck & E & _).
  destruct (map_res _ (seq 0 (wk_count K))) as [l|e'] eqn:M; [discriminate|]. apply pair_equal_spec in H as (_ & H). injection H as ->.
  apply map_res_err in M as (i & I & M). apply in_seq in I. exists i. split; [lia|]. destruct (wk_make K (wo_folds b) (wo_reps b) i) as [m|e'] eqn:Q; cbn [bind] in M; [|congruence].
  destruct (set_ok _ _ _ _ _ _ Q E) as (m' & Z). congruence.
Qed.
Lemma new_refused nfv nrv g e : shuffles g -> wrap_new K nfv nrv true g = Err e -> resample K nfv nrv g = Err e \/ exists i, (i < wk_count K)%nat /\ wk_make K nfv nrv i = Err e.
Proof.
  intro Sh. unfold wrap_new, wrap_draw. cbn [wo_folds wo_reps]. destruct (resample K nfv nrv g) as [sm|e'] eqn:R; [|left; congruence]. destruct (resample_ok _ _ _ _ Sh R) as (_ & Cr & _). cbn [wo_subs wo_fw].
  set (b1 := {| wo_folds := nfv; wo_reps := nrv; wo_smpls := Some sm; wo_subs := None; wo_fw := None |}). intro H. right.
  assert (X : forall b2, wo_folds b2 = nfv /\ wo_reps b2 = nrv /\ wo_smpls b2 = Some sm -> (match remade K b2 with (b3, Ok _) => Ok b3 | (_, Err e) => Err e end) = Err e -> exists i, (i < wk_count K)%nat /\ wk_make K nfv nrv i = Err e).
  { intros b2 (F1 & F2 & F3) Q. destruct (remade K b2) as (b3, [u|e']) eqn:Rm; [discriminate|]. injection Q as ->. rewrite <- F1, <- F2. exact (remade_refused b2 b3 e sm F3 Cr Rm). }
  destruct (wk_remake K).
  - destruct (remade K b1) as (b2, [[]|e']) eqn:Rm.
    + destruct (remade_ok b1 b2 Rm) as (sm' & l & E1 & -> & _). eapply X; [|exact H]. cbn. auto.
    + injection H as ->. apply (remade_refused b1 b2 e sm eq_refl Cr Rm).
  - eapply X; [|exact H]. auto.
Qed.
(** An object whose sub-models are always refused never has any. *)
Lemma never_made j c b : (j < wk_count K)%nat -> (forall nfv nrv m, wk_make K nfv nrv j <> Ok m) -> wo_subs b = None -> wo_subs (fst (wcall_do K fitting c b)) = None.
Proof.
  intros Hj Nm Es. assert (X : forall b1, wo_subs b1 = None -> wo_subs (fst (remade K b1)) = None).
  { intros b1 E1. destruct (remade K b1) as (b2, [[]|e]) eqn:R; cbn [fst]; [|rewrite (remade_err _ _ _ R); exact E1]. exfalso. destruct (remade_needs b1 b2 R j Hj) as (m & Q). exact (Nm _ _ _ Q). }
  destruct c as [g|sp|a]; cbn [wcall_do].
  - unfold wrap_draw. destruct (resample K (wo_folds b) (wo_reps b) g); [|exact Es]. destruct (wk_remake K); [|exact Es]. apply X. exact Es.
  - unfold wrap_set. destruct (check_sample_splitting (wk_n K) sp); [|exact Es]. apply X. exact Es.
  - destruct (fitting_is a b) as [-> |(fitter & -> & _)]; [exact Es|]. unfold wrap_fit. rewrite Es. exact Es.
Qed.
Lemma never_made_later j b0 b : (j < wk_count K)%nat -> (forall nfv nrv m, wk_make K nfv nrv j <> Ok m) -> wo_subs b0 = None -> wlater K fitting b0 b -> wo_subs b = None.
Proof.
  intros Hj Nm Es (l & _ & ->). revert b0 Es. induction l as [|c l IH]; intros b0 Es; [exact Es|]. cbn [wcalls fold_left]. apply IH. apply (never_made j); assumption.
Qed.
End Generic.

(** Nested cross-fitting of the quantile models: what is fitted on what. *)
From Verif Require Import S_Local L_Sum L_Quantile L_QScore L_QNested L_Order L_CrossFit L_CrossProps L_Estimation L_Framework.
From Coq Require Import Lra Lia FunctionalExtensionality.
Local Open Scope R_scope.
Local Open Scope res_scope.
Local Open Scope string_scope.




Section Gen.
Context {E X P : Type}.
Variable L : learner E X P.
Variables (f : E -> X -> R) (g : E -> X -> list R).
Lemma col1_nth rows vs : col1 rows = Ok vs -> length vs = length rows /\ forall k r, nth_error rows k = Some r -> exists v, nth_error vs k = Some v /\ nth_error r 1 = Some v.
Proof.
  intro H. unfold col1 in H. destruct (L_QNested.map_res_nth_error _ _ _ H) as (A & B). split; [exact A|]. intros k r Hk. destruct (B k r Hk) as (v & V1 & V2). exists v. split; [exact V1|]. destruct (nth_error r 1); [congruence|discriminate].
Qed.
Lemma predict01_at e0 data e xs vs : row_wise L f g -> classifier_ok L g -> ln_fit L e0 data = Ok e -> predict01 L e xs = Ok vs ->
  length vs = length xs /\ forall k v, nth_error xs k = Some v -> exists p, nth_error vs k = Some p /\ prob01 f g e v p.
Proof.
  intros Hr Hc Hf H. unfold predict01 in H. destruct (Hr e xs) as (R1 & R2). rewrite R2 in H. destruct (Hc _ _ _ Hf) as (_ & _ & Hlen).
  destruct (forallb _ _) eqn:Ef in H.
  - apply col1_nth in H as (H1 & H2). rewrite map_length in H1. split; [exact H1|]. intros k v Hk. destruct (H2 k (g e v)) as (p & P1 & P2); [apply (map_nth_error (g e)); exact Hk|]. exists p. split; [exact P1|].
    split; [intro; exact P2|]. intro Hne. exfalso. apply Hne. rewrite forallb_forall in Ef. specialize (Ef (g e v)). apply Nat.eqb_eq, Ef, in_map. apply nth_error_In in Hk. exact Hk.
  - injection H as <-. rewrite R1. rewrite map_length. split; [reflexivity|]. intros k v Hk. exists (f e v). split; [apply map_nth_error, Hk|]. split; [|reflexivity].
    intro Hl. exfalso. assert (T : forallb (fun r => Nat.eqb (length r) 2) (map (g e) xs) = true).
    { apply forallb_forall. intros r Hin. apply in_map_iff in Hin as (v' & <- & _). rewrite Hlen, <- (Hlen v), Hl. reflexivity. }
    congruence.
Qed.
Lemma fit01_at e0 x y rows at_rows vs : row_wise L f g -> classifier_ok L g -> fit01 L e0 x y rows at_rows = Ok vs ->
  length vs = length at_rows /\ forall a i, nth_error at_rows a = Some i -> exists p, nth_error vs a = Some p /\ predicts01 L f g e0 x y rows (x i) p.
Proof.
  intros Hr Hc H. unfold fit01 in H. apply bind_ok in H as (e & F & H). destruct (predict01_at _ _ _ _ _ Hr Hc F H) as (A & B). rewrite map_length in A.
  split; [exact A|]. intros a i Ha. destruct (B a (x i)) as (p & P1 & P2); [apply map_nth_error, Ha|]. exists p. split; [exact P1|]. exists e. auto.
Qed.
Lemma nth_map_in {A} (h : nat -> A) rows j d0 : (j < length rows)%nat -> nth j (map h rows) d0 = h (nth j rows 0%nat).
Proof. intro H. rewrite (nth_indep _ d0 (h 0%nat)) by (rewrite map_length; exact H). apply map_nth. Qed.
Lemma within_at e0 x0 x y rows inner sched r : row_wise L f g -> classifier_ok L g -> clone_ok L -> inner_split y rows inner sched ->
  cv_predict L sched (ln_clone L e0) (length rows) (takex x0 rows x) (YVec (take rows y)) inner NoParams true false false = Ok r ->
  within L g e0 x y rows inner (fun j => match cv_preds r j with Some v => v | None => 0 end).
Proof.
  intros Hr Hc Hcl I H. destruct I as [I0 I1 I2 I3 I4].
  destruct (own_fold_proba L f g Hr Hcl _ _ _ _ _ _ _ _ _ _ I1 I4 Hc I3 I2 H) as (c & C & B). exists c. split; [exact C|]. intros a i Ha.
  assert (La : (a < length rows)%nat) by (apply nth_error_Some; congruence).
  destruct (B a La) as (k & h & p & m & v & T & Pk & F & V & N). cbn in Pk. subst p. exists k, h, m. split; [exact T|]. split.
  - cbn in F. destruct Hcl as (Hc1 & _). rewrite Hc1 in F. rewrite <- F. f_equal. unfold train_rows. apply map_ext_in. intros b Hb. f_equal. unfold takex. symmetry. apply nth_map_in.
    destruct T as (T1 & _). apply (I2 h b (nth_error_In _ _ T1) Hb).
  - rewrite V. unfold takex in N. rewrite nth_map_in in N by exact La. rewrite (nth_error_nth _ _ _ Ha) in N. exact N.
Qed.
End Gen.

(** Writing fold by fold. *)
Section Collect.
Context {A : Type}.
Variable sel : A -> list R.
Let step := fun (v : nat -> option R) (p : fold * A) => scatter (snd (fst p)) (sel (snd p)) v.
Lemma gcollect_skip i fs : forall rs (v : nat -> option R), (forall h, In h fs -> ~ In i (snd h)) -> fold_left step (combine fs rs) v i = v i.
Proof.
  induction fs as [|h fs IH]; intros rs v H; [reflexivity|]. destruct rs as [|r rs]; [reflexivity|]. cbn [combine fold_left]. rewrite IH by (intros h' Hh'; apply H; now right).
  apply scatter_skip, H. now left.
Qed.
Lemma gcollect_hit i : forall fs rs (v : nat -> option R) k h r, tested_in fs i k h -> NoDup (snd h) -> nth_error rs k = Some r -> length (sel r) = length (snd h) ->
  fold_left step (combine fs rs) v i = nth_error (sel r) (position i (snd h)).
Proof.
  induction fs as [|h0 fs IH]; intros rs v k h r (T1 & T2 & T3) Nd Hr Hl; [destruct k; discriminate|]. destruct rs as [|r0 rs]; [destruct k; discriminate|]. cbn [combine fold_left].
  destruct k as [|k]; cbn in T1, Hr.
  - injection T1 as <-. injection Hr as <-. rewrite gcollect_skip.
    + unfold step. cbn [fst snd]. rewrite scatter_spec by assumption. destruct (in_dec Nat.eq_dec i (snd h0)); [reflexivity|contradiction].
    + intros h' Hh' Hi. apply In_nth_error in Hh' as (k' & Hk'). specialize (T3 (S k') h' Hk' Hi). discriminate.
  - apply (IH rs _ k h r); try assumption. split; [exact T1|]. split; [exact T2|]. intros k' h' Hk' Hi. specialize (T3 (S k') h' Hk' Hi). congruence.
Qed.
End Collect.
Lemma position_error i l : In i l -> nth_error l (position i l) = Some i.
Proof. intro H. rewrite (nth_error_nth' l 0%nat) by (apply position_lt, H). f_equal. apply position_nth, H. Qed.
Lemma part_nodup (smpls : list fold) : forall k h, NoDup (flat_map snd smpls) -> nth_error smpls k = Some h -> NoDup (snd h).
Proof.
  induction smpls as [|h0 s IH]; intros k h Nd Hk; [destruct k; discriminate|]. cbn in Nd. destruct k as [|k]; cbn in Hk.
  - injection Hk as <-. revert Nd. induction (snd h0) as [|a l IHl]; cbn; intro Nd; [constructor|]. inversion Nd; subst. constructor; [intro; apply H1, in_or_app; now left|auto].
  - apply (IH k h); [|exact Hk]. clear - Nd. induction (snd h0); cbn in Nd; [exact Nd|]. inversion Nd; auto.
Qed.
Lemma partition_nodup n (smpls : list fold) k h : partition_of n smpls -> nth_error smpls k = Some h -> NoDup (snd h).
Proof. intros Hp. apply part_nodup. apply (Permutation_NoDup (Permutation_sym Hp)). apply seq_NoDup. Qed.

Lemma bracket_bounds score start lo hi : lo <= start <= hi -> forall fuel s delta b seen s' b' seen', 0 <= delta -> lo <= fst b /\ fst b <= snd b /\ snd b <= hi ->
  bracket_while fuel score start lo hi s delta b seen = Some (s', b', seen') -> lo <= fst b' /\ fst b' <= snd b' /\ snd b' <= hi.
Proof.
  intros Hs fuel. induction fuel as [|fuel IH]; intros s delta b seen s' b' seen' Hd Hb H; [discriminate|]. cbn [bracket_while] in H.
  destruct (negb s && rleb delta 1); [|injection H as <- <- <-; exact Hb]. apply IH in H; [exact H|lra|]. cbn [bracket_at fst snd].
  assert (0 <= delta * (hi - lo) / 2) by nra. split; [apply Rmax_r|]. split; [|apply Rmin_r].
  apply Rle_trans with start; [apply Rmax_lub; lra|apply Rmin_glb; lra].
Qed.
Lemma guess_bounds fuel score start lo hi s b seen : lo <= start <= hi -> get_bracket_guess fuel score start lo hi = Some (s, b, seen) -> lo <= fst b /\ fst b <= snd b /\ snd b <= hi.
Proof. intros Hs H. unfold get_bracket_guess in H. eapply bracket_bounds in H; [exact H|exact Hs|lra|cbn; lra]. Qed.
Lemma those_eq v b src : those v b src = filter (fun i => reqb (v i) b) src.
Proof. reflexivity. Qed.

(** ** Potential quantile and CVaR *)
Lemma collect_skip i fs : forall rs g m, (forall h, In h fs -> ~ In i (snd h)) -> fst (collect fs rs g m) i = g i /\ snd (collect fs rs g m) i = m i.
Proof.
  induction fs as [|h fs IH]; intros rs g m H; [destruct rs; auto|]. destruct rs as [|r rs]; [auto|]. cbn [collect].
  destruct (IH rs (put h (fr_g r) g) (put h (fr_m r) m)) as (-> & ->); [intros h' Hh'; apply H; now right|]. rewrite !put_skip by (apply H; now left). auto.
Qed.
Definition at_pos (v : option (list R)) (p : nat) (dflt : option R) : option R := match v with Some l => nth_error l p | None => dflt end.
Lemma put_hit h v w i : In i (snd h) -> NoDup (snd h) -> (forall l, v = Some l -> length l = length (snd h)) -> put h v w i = at_pos v (position i (snd h)) (w i).
Proof.
  intros Hi Nd Hl. destruct v as [l|]; [|reflexivity]. cbn. rewrite scatter_spec by auto. destruct (in_dec Nat.eq_dec i (snd h)); [reflexivity|contradiction].
Qed.
Lemma collect_hit i : forall fs rs g m k h r, tested_in fs i k h -> NoDup (snd h) -> nth_error rs k = Some r ->
  (forall l, fr_g r = Some l -> length l = length (snd h)) -> (forall l, fr_m r = Some l -> length l = length (snd h)) ->
  fst (collect fs rs g m) i = at_pos (fr_g r) (position i (snd h)) (g i) /\ snd (collect fs rs g m) i = at_pos (fr_m r) (position i (snd h)) (m i).
Proof.
  induction fs as [|h0 fs IH]; intros rs g m k h r (T1 & T2 & T3) Nd Hr Hg Hm; [destruct k; discriminate|]. destruct rs as [|r0 rs]; [destruct k; discriminate|]. cbn [collect].
  destruct k as [|k]; cbn in T1, Hr.
  - injection T1 as <-. injection Hr as <-. destruct (collect_skip i fs rs (put h0 (fr_g r0) g) (put h0 (fr_m r0) m)) as (-> & ->).
    + intros h' Hh' Hi. apply In_nth_error in Hh' as (k' & Hk'). specialize (T3 (S k') h' Hk' Hi). discriminate.
    + rewrite !put_hit by assumption. auto.
  - assert (Ni : ~ In i (snd h0)) by (intro Hi; specialize (T3 0%nat h0 eq_refl Hi); discriminate).
    destruct (IH rs (put h0 (fr_g r0) g) (put h0 (fr_m r0) m) k h r) as (-> & ->); try assumption.
    + split; [exact T1|]. split; [exact T2|]. intros k' h' Hk' Hi. specialize (T3 (S k') h' Hk' Hi). congruence.
    + rewrite !put_skip by exact Ni. auto.
Qed.

Section Pq.
Context {E X P : Type}.
Variables G M : learner E X P.
Variables (fG fM : E -> X -> R) (gG gM : E -> X -> list R).
Variable o : q_oracles.
Variable x0 : X.
Variable c : @pq_cfg E.
Variables (x : nat -> X) (y d : vec).
Hypothesis HrG : row_wise G fG gG.
Hypothesis HcG : classifier_ok G gG.
Hypothesis HrM : row_wise M fM gM.
Hypothesis HcM : classifier_ok M gM.
Hypothesis HlM : clone_ok M.
Hypothesis Hm : qc_ext_m c = None.

Lemma pq_prelim_at start k h mp ipw : fst (qc_bounds c) <= start <= snd (qc_bounds c) ->
  inner_split d (first_half o d h) (qo_skf o (map d (first_half o d h))) (qo_order o) ->
  prelim_m M o x0 c k x d (first_half o d h) = Ok mp -> prelim_ipw o c start (first_half o d h) y d mp = Ok ipw ->
  pq_preliminary M gM o c x y d k h ipw.
Proof.
  intros Hs I P1 P2. unfold prelim_m in P1. rewrite Hm in P1. apply bind_ok in P1 as (r & C & P1). injection P1 as <-.
  eexists. split; [eapply within_at; eassumption|]. unfold prelim_ipw in P2.
  destruct (get_bracket_guess _ _ _ _ _) as [((s & b) & seen)|] eqn:B in P2; [|discriminate]. injection P2 as <-.
  exists b. destruct (guess_bounds _ _ _ _ _ _ _ _ Hs B) as (B1 & B2 & B3). split; [exact B1|]. split; [exact B2|]. split; [exact B3|reflexivity].
Qed.

Lemma pq_fold_at start k h r : fst (qc_bounds c) <= start <= snd (qc_bounds c) ->
  inner_split d (first_half o d h) (qo_skf o (map d (first_half o d h))) (qo_order o) ->
  pq_fold G M o x0 c start x y d k h = Ok r ->
  pq_preliminary M gM o c x y d k h (fr_ipw r) /\
  (exists lm, fr_m r = Some lm /\ length lm = length (snd h) /\ forall a i, nth_error (snd h) a = Some i ->
     exists p, nth_error lm a = Some p /\ predicts01 M fM gM (qc_m c k) x d (fst h) (x i) p) /\
  match qc_ext_g c with
  | Some _ => fr_g r = None
  | None => exists lg, fr_g r = Some lg /\ length lg = length (snd h) /\ forall a i, nth_error (snd h) a = Some i -> exists p, nth_error lg a = Some p /\
      (if qc_cvar c then predicts G fG (qc_g c k) x (cvar_target (qc_q c) (fr_ipw r) y) (those d (level (qc_treated c)) (second_half o d h)) (x i) p
       else predicts01 G fG gG (qc_g c k) x (fun j => b2r (rleb (y j) (fr_ipw r))) (those d (level (qc_treated c)) (second_half o d h)) (x i) p)
  end.
Proof.
  intros Hs I H. unfold pq_fold in H. fold (first_half o d h) in H. fold (second_half o d h) in H.
  apply bind_ok in H as (mp & P1 & H). apply bind_ok in H as (ipw & P2 & H). apply bind_ok in H as (gp & P3 & H). apply bind_ok in H as (mh & P4 & H). injection H as <-. cbn [fr_ipw fr_g fr_m].
  split; [eapply pq_prelim_at; eassumption|]. rewrite Hm in P4. apply bind_ok in P4 as (em & F4 & P4). apply bind_ok in P4 as (lm & V4 & P4). injection P4 as <-. split.
  - exists lm. split; [reflexivity|]. destruct (predict01_at M fM gM _ _ _ _ _ HrM HcM F4 V4) as (A & B). rewrite map_length in A. split; [exact A|].
    intros a i Ha. destruct (B a (x i)) as (p & Q1 & Q2); [apply map_nth_error, Ha|]. exists p. split; [exact Q1|]. exists em. auto.
  - destruct (qc_ext_g c) as [ge|]; [injection P3 as <-; reflexivity|]. apply bind_ok in P3 as (eg & F3 & P3). apply bind_ok in P3 as (lg & V3 & P3). injection P3 as <-.
    exists lg. split; [reflexivity|]. unfold g_rows in F3. rewrite <- those_eq in F3. unfold g_label in F3. destruct (qc_cvar c).
    + injection V3 as <-. destruct (HrG eg (map x (snd h))) as (-> & _). rewrite !map_length. split; [reflexivity|]. intros a i Ha. exists (fG eg (x i)).
      split; [rewrite map_map; apply (map_nth_error (fun i => fG eg (x i))), Ha|]. exists eg. split; [exact F3|reflexivity].
    + destruct (predict01_at G fG gG _ _ _ _ _ HrG HcG F3 V3) as (A & B). rewrite map_length in A. split; [exact A|].
      intros a i Ha. destruct (B a (x i)) as (p & Q1 & Q2); [apply map_nth_error, Ha|]. exists p. split; [exact Q1|]. exists eg. auto.
Qed.

Lemma pq_documented start n smpls r : fst (qc_bounds c) <= start <= snd (qc_bounds c) -> partition_of n smpls ->
  (forall h, In h smpls -> inner_split d (first_half o d h) (qo_skf o (map d (first_half o d h))) (qo_order o)) ->
  pq_nuisance G M o x0 c start x y d smpls = Ok r ->
  length (po_ipw r) = length smpls /\ po_start r = Rmean (po_ipw r) /\
  forall i, (i < n)%nat -> exists k h ipw gi mi, tested_in smpls i k h /\ nth_error (po_ipw r) k = Some ipw /\
    po_g r i = Some gi /\ po_m r i = Some mi /\ pq_preliminary M gM o c x y d k h ipw /\
    match qc_ext_g c with
    | Some ge => gi = ge i /\ predicts01 M fM gM (qc_m c k) x d (fst h) (x i) mi
    | None => pq_cross G M fG fM gG gM o c x y d k h ipw i gi mi
    end.
Proof.
  intros Hs Hp HI H. unfold pq_nuisance in H. rewrite Hm in H.
  assert (GEN : exists rs, map_res (fun p : nat * fold => pq_fold G M o x0 c start x y d (fst p) (snd p)) (combine (seq 0 (length smpls)) smpls) = Ok rs /\
    r = let gm := collect smpls rs (fun i => match qc_ext_g c with Some g => Some (g i) | None => None end) (fun i => None) in
        {| po_g := fst gm; po_m := snd gm; po_ipw := map fr_ipw rs; po_start := Rmean (map fr_ipw rs) |}).
  { destruct (qc_ext_g c) as [ge|]; apply bind_ok in H as (rs & A & H); injection H as <-; exists rs; (split; [exact A|reflexivity]). }
  destruct GEN as (rs & R & ->). cbn [po_g po_m po_ipw po_start]. destruct (L_QNested.map_res_nth_error _ _ _ R) as (Hlen & N).
  rewrite combine_length, seq_length, Nat.min_id in Hlen. split; [rewrite map_length; exact Hlen|]. split; [reflexivity|].
  intros i Hi. destruct (tested_exists n smpls i Hp Hi) as (k & h & T). destruct T as (T1 & T2 & T3).
  destruct (N k (k, h)) as (fr & F1 & F2); [apply indexed_nth; exact T1|]. cbn [fst snd] in F2.
  destruct (pq_fold_at start k h fr Hs (HI h (nth_error_In _ _ T1)) F2) as (A & (lm & M1 & M2 & M3) & B).
  pose proof (partition_nodup n smpls k h Hp T1) as Nd. pose proof (position_error i (snd h) T2) as Pe.
  destruct (M3 _ _ Pe) as (mi & Q1 & Q2).
  assert (T : tested_in smpls i k h) by (split; [exact T1|split; assumption]).
  destruct (qc_ext_g c) as [ge|].
  - destruct (collect_hit i smpls rs (fun i => Some (ge i)) (fun _ => None) k h fr T Nd F1) as (C1 & C2); [intros l El; rewrite B in El; discriminate|intros l El; rewrite M1 in El; injection El as <-; exact M2|].
    exists k, h, (fr_ipw fr), (ge i), mi. split; [exact T|]. split; [apply map_nth_error, F1|]. cbv zeta. rewrite C1, C2, B, M1. cbn [at_pos]. auto.
  - destruct B as (lg & G1 & G2 & G3). destruct (G3 _ _ Pe) as (gi & Q3 & Q4).
    destruct (collect_hit i smpls rs (fun i => None) (fun _ => None) k h fr T Nd F1) as (C1 & C2); [intros l El; rewrite G1 in El; injection El as <-; exact G2|intros l El; rewrite M1 in El; injection El as <-; exact M2|].
    exists k, h, (fr_ipw fr), gi, mi. split; [exact T|]. split; [apply map_nth_error, F1|]. cbv zeta. rewrite C1, C2, G1, M1. cbn [at_pos].
    split; [exact Q3|]. split; [exact Q1|]. split; [exact A|]. split; [exact Q4|exact Q2].
Qed.
End Pq.

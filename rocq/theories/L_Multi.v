(** Lemmas on the multi-level wrappers. *)
From Verif Require Export S_Multi L_FwConcat L_FwProps.
From Coq Require Import Lra.

(** ** Splits of the sub-models *)
Section W.
Context {K : Type}.
Variable fit_sub : nat -> K -> list (list fold) -> result (framework * sens4).
Variable draw : nat -> list (list fold).
Variable keys : list K.
Variable combine : list framework -> result framework.
Let stp := wstep fit_sub keys combine.

Lemma init_keys s : map sb_key (init_models keys s) = keys.
Proof. unfold init_models. rewrite map_map. cbn. apply map_id. Qed.
Lemma init_split s : on_split (init_models keys s) s.
Proof. intros m Hm. unfold init_models in Hm. apply in_map_iff in Hm as (k & <- & _). reflexivity. Qed.
Lemma init_consistent s f t : consistent_split keys {| wr_smpls := Some s; wr_models := Some (init_models keys s); wr_fw := f; wr_tick := t |}.
Proof. intros ms H. cbn in H. injection H as <-. split; [apply init_keys|]. exists s. split; [reflexivity|apply init_split]. Qed.

Lemma fit_subs_keys l : forall t l' o, fit_subs fit_sub t l = (l', o) -> map sb_key l' = map sb_key l /\ map sb_smpls l' = map sb_smpls l.
Proof.
  induction l as [|m l IH]; intros t l' o H; cbn in H; [injection H as <- <-; auto|].
  destruct (fit_sub t (sb_key m) (sb_smpls m)) as [f|e]; [|injection H as <- <-; auto].
  destruct (fit_subs fit_sub (S t) l) as [r' o'] eqn:E. injection H as <- <-. destruct (IH _ _ _ E) as (A & B). cbn. rewrite A, B. auto.
Qed.
Lemma on_split_map (ms : list (@sub K)) s : on_split ms s <-> map sb_smpls ms = map (fun _ => s) ms.
Proof.
  unfold on_split. induction ms as [|m ms IH]; cbn; [tauto|]. split.
  - intro H. f_equal; [apply H; left; reflexivity|]. apply IH. intros; apply H; right; assumption.
  - intros H x [<-|Hx]; injection H as A B; [exact A|]. apply IH; assumption.
Qed.
Lemma on_split_same (ms ms' : list (@sub K)) s : map sb_smpls ms' = map sb_smpls ms -> on_split ms s -> on_split ms' s.
Proof.
  intros E H m Hm. apply (in_map sb_smpls) in Hm. rewrite E in Hm. apply in_map_iff in Hm as (x & <- & Hx). apply H, Hx.
Qed.
Lemma fit_models w w' o : wr_fit fit_sub combine w = (w', o) -> wr_smpls w' = wr_smpls w /\
  (wr_models w = None /\ wr_models w' = None \/
   exists ms ms', wr_models w = Some ms /\ wr_models w' = Some ms' /\ map sb_key ms' = map sb_key ms /\ map sb_smpls ms' = map sb_smpls ms).
Proof.
  unfold wr_fit. destruct (wr_models w) as [ms|] eqn:E; [|intro H; injection H as <- <-; auto].
  destruct (fit_subs fit_sub (wr_tick w) ms) as [l' o'] eqn:F. pose proof (fit_subs_keys _ _ _ _ F) as (A & B).
  intro H. assert (G : wr_smpls w' = wr_smpls w /\ wr_models w' = Some l').
  { destruct o' as [[]|e]; [|injection H as <- <-; auto]. destruct (sub_frameworks l') as [fs|]; [|injection H as <- <-; auto].
    destruct (combine fs); injection H as <- <-; auto. }
  destruct G as (G1 & G2). split; [exact G1|]. right. exists ms, l'. auto.
Qed.
Lemma fit_consistent w : consistent_split keys w -> consistent_split keys (fst (wr_fit fit_sub combine w)).
Proof.
  intros C ms' H. destruct (wr_fit fit_sub combine w) as [w' o] eqn:E. cbn in H. cbn [fst]. destruct (fit_models _ _ _ E) as (A & [(B & B')|(ms & ms2 & B & B' & D & F)]); [congruence|].
  rewrite H in B'. injection B' as <-. destruct (C _ B) as (G & s & S1 & S2). split; [congruence|]. exists s. split; [congruence|]. eapply on_split_same; eassumption.
Qed.
Lemma set_consistent r w : consistent_split keys w -> consistent_split keys (fst (wr_set keys r w)).
Proof. intro C. destruct r as [s|e]; cbn; [apply init_consistent|exact C]. Qed.
Lemma qte_consistent b ops : consistent_split keys (qte_run fit_sub draw keys combine ops (qte_new draw keys b)).
Proof.
  unfold qte_run. assert (G : forall w, consistent_split keys w -> consistent_split keys (fold_left (wstep fit_sub keys combine (qte_draw draw keys)) ops w)).
  { induction ops as [|o ops IH]; intros w C; [exact C|]. cbn. apply IH. destruct o; cbn; [apply init_consistent|apply set_consistent, C|apply fit_consistent, C]. }
  apply G. destruct b; cbn; [apply init_consistent|]. intros ms H. discriminate.
Qed.
Lemma apos_consistent b ops : no_draw ops -> consistent_split keys (apos_run fit_sub draw keys combine ops (apos_new draw keys b)).
Proof.
  unfold apos_run. assert (G : no_draw ops -> forall w, consistent_split keys w -> consistent_split keys (fold_left (wstep fit_sub keys combine (apos_draw draw)) ops w)).
  { induction ops as [|o ops IH]; intros N w C; [exact C|]. cbn. apply IH; [intro X; apply N; right; exact X|]. destruct o; cbn; [exfalso; apply N; left; reflexivity|apply set_consistent, C|apply fit_consistent, C]. }
  intro N. apply (G N). destruct b; cbn; [apply init_consistent|]. intros ms H. discriminate.
Qed.
(** One common split, whatever is reported. *)
Definition common (w : @wrapper K) : Prop := forall ms, wr_models w = Some ms -> map sb_key ms = keys /\ exists s, on_split ms s.
Lemma consistent_common w : consistent_split keys w -> common w.
Proof. intros C ms H. destruct (C ms H) as (A & s & _ & B). split; [exact A|]. exists s. exact B. Qed.
Lemma apos_common b ops : common (apos_run fit_sub draw keys combine ops (apos_new draw keys b)).
Proof.
  unfold apos_run. assert (G : forall w, common w -> common (fold_left (wstep fit_sub keys combine (apos_draw draw)) ops w)).
  { induction ops as [|o ops IH]; intros w C; [exact C|]. cbn. apply IH. destruct o; cbn.
    - intros ms H. apply C. exact H.
    - destruct r; cbn; [apply consistent_common, init_consistent|exact C].
    - intros ms' H. destruct (wr_fit fit_sub combine w) as [w' o] eqn:E. cbn in H. destruct (fit_models _ _ _ E) as (A & [(B & B')|(ms & ms2 & B & B' & D & F)]); [congruence|].
      rewrite H in B'. injection B' as <-. destruct (C _ B) as (G & s & S2). split; [congruence|]. exists s. eapply on_split_same; eassumption. }
  apply G. destruct b; cbn; [apply consistent_common, init_consistent|]. intros ms H. discriminate.
Qed.

(** A successful fit. *)
Lemma fit_subs_ok l : forall t l' s, fit_subs fit_sub t l = (l', Ok tt) -> on_split l s ->
  exists res, map sb_res l' = map Some res /\ Forall2 (fun k r => exists t, fit_sub t k s = Ok r) (map sb_key l) res.
Proof.
  induction l as [|m l IH]; intros t l' s H O; cbn in H; [injection H as <-; exists []; split; [reflexivity|constructor]|].
  destruct (fit_sub t (sb_key m) (sb_smpls m)) as [f|e] eqn:F; [|discriminate]. destruct (fit_subs fit_sub (S t) l) as [r' o] eqn:E. injection H as <- ->.
  destruct (IH _ _ s E) as (res & A & B). { intros x Hx. apply O. right. exact Hx. }
  exists (f :: res). cbn. rewrite A. split; [reflexivity|]. constructor; [|exact B]. exists t. rewrite <- F. f_equal. symmetry. apply O. left. reflexivity.
Qed.
Lemma sub_fws l res : map sb_res l = map Some res -> @sub_frameworks K l = Some (map fst res).
Proof.
  intro H. unfold sub_frameworks.
  transitivity (all_some (map (fun o : option (framework * sens4) => match o with Some (f, _) => Some f | None => None end) (map sb_res l))); [rewrite map_map; reflexivity|].
  rewrite H, map_map. clear H. induction res as [|[f s] res IH]; [reflexivity|]. cbn. rewrite IH. reflexivity.
Qed.
Lemma fit_estimated w w' s ms : wr_models w = Some ms -> map sb_key ms = keys -> on_split ms s -> wr_fit fit_sub combine w = (w', Ok tt) ->
  estimated_on fit_sub combine keys w' s.
Proof.
  intros E Hk O H. unfold wr_fit in H. rewrite E in H. destruct (fit_subs fit_sub (wr_tick w) ms) as [l' o] eqn:F. destruct o as [[]|e]; [|discriminate].
  destruct (fit_subs_ok _ _ _ s F O) as (res & A & B). destruct (fit_subs_keys _ _ _ _ F) as (C & _). rewrite (sub_fws _ _ A) in H.
  destruct (combine (map fst res)) as [h|e] eqn:G; [|discriminate]. injection H as <-. exists l', res, h. cbn. rewrite Hk in B. repeat split; auto. congruence.
Qed.
Lemma consistent_fit w w' : consistent_split keys w -> wr_fit fit_sub combine w = (w', Ok tt) ->
  exists s, wr_smpls w' = Some s /\ estimated_on fit_sub combine keys w' s.
Proof.
  intros C H. destruct (wr_models w) as [ms|] eqn:E; [|unfold wr_fit in H; rewrite E in H; discriminate].
  destruct (C ms E) as (A & s & B & D). exists s. split; [|eapply fit_estimated; eassumption]. destruct (fit_models _ _ _ H) as (G & _). congruence.
Qed.
Lemma qte_fit b ops w' : wr_fit fit_sub combine (qte_run fit_sub draw keys combine ops (qte_new draw keys b)) = (w', Ok tt) ->
  exists s, wr_smpls w' = Some s /\ estimated_on fit_sub combine keys w' s.
Proof. apply consistent_fit, qte_consistent. Qed.
Lemma apos_fit b ops w' : no_draw ops -> wr_fit fit_sub combine (apos_run fit_sub draw keys combine ops (apos_new draw keys b)) = (w', Ok tt) ->
  exists s, wr_smpls w' = Some s /\ estimated_on fit_sub combine keys w' s.
Proof. intro N. apply consistent_fit, apos_consistent, N. Qed.
Lemma apos_fit_common b ops w' : wr_fit fit_sub combine (apos_run fit_sub draw keys combine ops (apos_new draw keys b)) = (w', Ok tt) ->
  exists s, estimated_on fit_sub combine keys w' s.
Proof.
  intro H. set (w := apos_run fit_sub draw keys combine ops (apos_new draw keys b)) in *.
  destruct (wr_models w) as [ms|] eqn:E; [|unfold wr_fit in H; rewrite E in H; discriminate].
  destruct (apos_common b ops ms E) as (A & s & D). exists s. eapply fit_estimated; eassumption.
Qed.
(** Construction without a split. *)
Lemma apos_draw_only : forall m, let w := apos_run fit_sub draw keys combine (repeat WDraw (S m)) (apos_new draw keys false) in
  wr_smpls w <> None /\ snd (wr_fit fit_sub combine w) = Err AttributeError.
Proof.
  intro m. assert (G : forall m w, wr_models w = None -> wr_smpls w <> None -> let w' := fold_left (wstep fit_sub keys combine (apos_draw draw)) (repeat WDraw m) w in wr_models w' = None /\ wr_smpls w' <> None).
  { clear m. induction m as [|m IH]; intros w H1 H2; cbn; [auto|]. apply IH; [exact H1|discriminate]. }
  cbn. destruct (G m (apos_draw draw wr_empty)) as (A & B); [reflexivity|discriminate|]. split; [exact B|]. unfold wr_fit. change (wr_models (fold_left (wstep fit_sub keys combine (apos_draw draw)) (repeat WDraw m) (apos_draw draw wr_empty)) = None) in A. unfold apos_run. cbn. rewrite A. reflexivity.
Qed.
End W.

(** ** Contrasts *)
Local Open Scope nat_scope.
Lemma zmem_iff x l : zmem x l = true <-> In x l.
Proof. unfold zmem. rewrite existsb_exists. split; [intros (y & H & E); apply Z.eqb_eq in E; subst; exact H|]. intro H. exists x. split; [exact H|apply Z.eqb_refl]. Qed.
Lemma nmem_iff x l : M_Splitting.nmem x l = true <-> In x l.
Proof. unfold M_Splitting.nmem. rewrite existsb_exists. split; [intros (y & H & E); apply Nat.eqb_eq in E; subst; exact H|]. intro H. exists x. split; [exact H|apply Nat.eqb_refl]. Qed.
Lemma zindex_nth x l : In x l -> zindex x l < length l /\ nth (zindex x l) l 0%Z = x.
Proof.
  induction l as [|y l IH]; [intros []|]. intro H. cbn [zindex]. destruct (Z.eqb x y) eqn:E; [apply Z.eqb_eq in E; cbn; split; [lia|auto]|].
  destruct H as [->|H]; [rewrite Z.eqb_refl in E; discriminate|]. destruct (IH H). cbn. split; [lia|assumption].
Qed.
Lemma loop_in n levels refs : forall skip i j, In (i, j) (contrast_loop n levels refs skip) ->
  i < n /\ i <> j /\ ~ In i skip /\ exists r, In r refs /\ j = zindex r levels.
Proof.
  induction refs as [|r refs IH]; intros skip i j H; [contradiction|]. cbn [contrast_loop] in H. apply in_app_or in H as [H|H].
  - apply in_map_iff in H as (k & E & H). injection E as -> <-. apply filter_In in H as (A & B). apply in_seq in A. apply negb_true_iff in B.
    assert (H : ~ In i (zindex r levels :: skip)) by (intro X; rewrite (proj2 (nmem_iff _ _) X) in B; discriminate). cbn in H. split; [lia|]. split; [intro; subst; tauto|]. split; [tauto|]. exists r. split; [left|]; reflexivity.
  - destruct (IH _ _ _ H) as (A & B & C & q & D & E). cbn in C. split; [exact A|]. split; [exact B|]. split; [tauto|]. exists q. split; [right|]; assumption.
Qed.
(** The reference of a pair never is the first component of a later one. *)
Lemma loop_nodup n levels refs : (forall a b, In a refs -> In b refs -> zindex a levels = zindex b levels -> a = b) -> NoDup refs ->
  forall skip, NoDup (contrast_loop n levels refs skip).
Proof.
  intros I N. induction refs as [|r refs IH]; intros skip; [constructor|]. inversion N; subst. cbn [contrast_loop].
  assert (G : forall l1 l2 : list (nat * nat), NoDup l1 -> NoDup l2 -> (forall x, In x l1 -> In x l2 -> False) -> NoDup (l1 ++ l2)).
  { induction l1 as [|x l1 IHl]; intros l2 N1 N2 D; [exact N2|]. inversion N1; subst. cbn. constructor.
    - intro X. apply in_app_or in X as [X|X]; [contradiction|]. apply (D x); [left; reflexivity|exact X].
    - apply IHl; auto. intros y Y1 Y2. apply (D y); [right; exact Y1|exact Y2]. }
  apply G.
  - apply FinFun.Injective_map_NoDup; [intros a b E; injection E; auto|]. apply NoDup_filter, seq_NoDup.
  - apply IH; [intros a b Ha Hb; apply I; right; assumption|assumption].
  - intros [i j] X Y. apply in_map_iff in X as (k & E & _). injection E as _ <-. apply loop_in in Y as (_ & _ & _ & q & Hq & E). apply I in E; [subst; contradiction|left; reflexivity|right; exact Hq].
Qed.
Lemma loop_complete n levels refs : forall skip i r, In r refs -> i < n -> i <> zindex r levels -> ~ In i skip ->
  In (i, zindex r levels) (contrast_loop n levels refs skip) \/ (exists q, In q refs /\ i = zindex q levels /\ (In (zindex r levels) skip \/ zindex r levels >= n \/ In (zindex r levels, i) (contrast_loop n levels refs skip))).
Proof.
  induction refs as [|q refs IH]; intros skip i r Hr Hi Hne Hs; [contradiction|]. cbn [contrast_loop].
  destruct (Nat.eq_dec i (zindex q levels)) as [Eq|Eq].
  - right. exists q. split; [left; reflexivity|]. split; [exact Eq|]. destruct (in_dec Nat.eq_dec (zindex r levels) skip) as [X|X]; [left; exact X|].
    destruct (Nat.lt_ge_cases (zindex r levels) n) as [L|L]; [|right; left; exact L]. right. right. apply in_or_app. left. apply in_map_iff. exists (zindex r levels). split; [rewrite <- Eq; reflexivity|].
    apply filter_In. split; [apply in_seq; lia|]. apply negb_true_iff. destruct (M_Splitting.nmem _ _) eqn:M; [|reflexivity]. apply nmem_iff in M. destruct M as [M|M]; [congruence|contradiction].
  - destruct Hr as [<-|Hr].
    + left. apply in_or_app. left. apply in_map_iff. exists i. split; [reflexivity|]. apply filter_In. split; [apply in_seq; lia|]. apply negb_true_iff. destruct (M_Splitting.nmem _ _) eqn:M; [|reflexivity]. apply nmem_iff in M. destruct M as [M|M]; [congruence|contradiction].
    + destruct (IH (zindex q levels :: skip) i r Hr Hi Hne) as [A|(p & P1 & P2 & P3)].
      * intros [X|X]; [congruence|contradiction].
      * left. apply in_or_app. right. exact A.
      * destruct P3 as [[P3|P3]|[P3|P3]].
        -- left. rewrite <- P3. apply in_or_app. left. apply in_map_iff. exists i. split; [reflexivity|]. apply filter_In. split; [apply in_seq; lia|]. apply negb_true_iff. destruct (M_Splitting.nmem _ _) eqn:M; [|reflexivity]. apply nmem_iff in M. destruct M as [M|M]; [congruence|contradiction].
        -- right. exists p. split; [right; exact P1|]. split; [exact P2|]. left. exact P3.
        -- right. exists p. split; [right; exact P1|]. split; [exact P2|]. right. left. exact P3.
        -- right. exists p. split; [right; exact P1|]. split; [exact P2|]. right. right. apply in_or_app. right. exact P3.
Qed.
Lemma loop_asym n levels refs : forall skip i j, In (i, j) (contrast_loop n levels refs skip) -> In (j, i) (contrast_loop n levels refs skip) -> False.
Proof.
  induction refs as [|r refs IH]; intros skip i j A B; [contradiction|]. cbn [contrast_loop] in A, B.
  assert (H : forall i j, In (i, j) (map (fun i => (i, zindex r levels)) (filter (fun i => negb (M_Splitting.nmem i (zindex r levels :: skip))) (seq 0 n))) -> j = zindex r levels /\ i <> zindex r levels).
  { intros a b X. apply in_map_iff in X as (k & E & X). injection E as -> <-. split; [reflexivity|]. intro; subst. apply filter_In in X as (_ & X). apply negb_true_iff in X. assert (Y : M_Splitting.nmem (zindex r levels) (zindex r levels :: skip) = true) by (apply nmem_iff; left; reflexivity). congruence. }
  apply in_app_or in A as [A|A]; apply in_app_or in B as [B|B].
  - apply H in A as (A1 & A2). apply H in B as (B1 & B2). congruence.
  - apply H in A as (A1 & A2). apply loop_in in B as (_ & _ & B & _). apply B. left. symmetry. exact A1.
  - apply H in B as (B1 & B2). apply loop_in in A as (_ & _ & A & _). apply A. left. symmetry. exact B1.
  - apply (IH _ _ _ A B).
Qed.
Definition level_pairs (levels : list Z) (ps : list (nat * nat)) : list (Z * Z) := map (fun p => (nth (fst p) levels 0%Z, nth (snd p) levels 0%Z)) ps.
Lemma zindex_of_nth levels i : NoDup levels -> i < length levels -> zindex (nth i levels 0%Z) levels = i.
Proof.
  intros N H. destruct (zindex_nth (nth i levels 0%Z) levels) as (A & B); [apply nth_In, H|]. eapply (proj1 (NoDup_nth levels 0%Z)); eassumption.
Qed.
Lemma contrast_pairs levels refs : NoDup levels -> NoDup refs -> (forall r, In r refs -> In r levels) ->
  one_per_pair levels refs (level_pairs levels (contrast_loop (length levels) levels refs [])).
Proof.
  intros NL NR S1. unfold level_pairs.
  assert (Inj : forall a b, In a refs -> In b refs -> zindex a levels = zindex b levels -> a = b).
  { intros a b Ha Hb E. destruct (zindex_nth a levels (S1 a Ha)) as (_ & <-). destruct (zindex_nth b levels (S1 b Hb)) as (_ & <-). congruence. }
  assert (Rng : forall i j, In (i, j) (contrast_loop (length levels) levels refs []) -> i < length levels /\ j < length levels /\ In (nth j levels 0%Z) refs).
  { intros i j H. apply loop_in in H as (A & _ & _ & r & Hr & ->). destruct (zindex_nth r levels (S1 r Hr)) as (B & C). rewrite C. auto. }
  assert (Back : forall a b, In (a, b) (map (fun p => (nth (fst p) levels 0%Z, nth (snd p) levels 0%Z)) (contrast_loop (length levels) levels refs [])) -> In (zindex a levels, zindex b levels) (contrast_loop (length levels) levels refs [])).
  { intros a b H. apply in_map_iff in H as ([i j] & E & H). cbn in E. injection E as <- <-. destruct (Rng _ _ H) as (A & B & _). rewrite !zindex_of_nth by assumption. exact H. }
  split; [|split].
  - apply NoDup_nth_error. intros i j Hi E. rewrite !nth_error_map in E. rewrite map_length in Hi.
    destruct (nth_error (contrast_loop (length levels) levels refs []) i) as [[a b]|] eqn:E1; [|apply nth_error_None in E1; lia].
    destruct (nth_error (contrast_loop (length levels) levels refs []) j) as [[c d]|] eqn:E2; [|discriminate]. cbn in E. injection E as Ea Eb.
    destruct (Rng a b (nth_error_In _ _ E1)) as (A1 & A2 & _). destruct (Rng c d (nth_error_In _ _ E2)) as (B1 & B2 & _).
    assert (a = c) by (eapply (proj1 (NoDup_nth levels 0%Z)); eassumption). assert (b = d) by (eapply (proj1 (NoDup_nth levels 0%Z)); eassumption). subst.
    pose proof (loop_nodup (length levels) levels refs Inj NR []) as N. apply (proj1 (NoDup_nth_error _) N); [exact Hi|congruence].
  - intros a b H. apply in_map_iff in H as ([i j] & E & H). cbn in E. injection E as <- <-. destruct (Rng _ _ H) as (A & B & C). split; [apply nth_In, A|]. split; [exact C|].
    intro E. apply loop_in in H as (_ & H & _). apply H. eapply (proj1 (NoDup_nth levels 0%Z)); eassumption.
  - intros a b Ha Hb Hne. destruct (zindex_nth a levels Ha) as (A1 & A2). destruct (zindex_nth b levels (S1 b Hb)) as (B1 & B2). split.
    + destruct (loop_complete (length levels) levels refs [] (zindex a levels) b Hb A1) as [X|(q & Q1 & Q2 & [X|[X|X]])]; [intro E; apply Hne; congruence|auto| | | |].
      * left. apply in_map_iff. exists (zindex a levels, zindex b levels). cbn. rewrite A2, B2. auto.
      * contradiction.
      * lia.
      * right. apply in_map_iff. exists (zindex b levels, zindex a levels). cbn. rewrite A2, B2. auto.
    + intros (X & Y). apply Back in X. apply Back in Y. eapply loop_asym; eassumption.
Qed.

(** Model objects that share one data object: proofs. *)
From Verif Require Export S_Shared.
From Verif Require Import L_DataOps L_DataProps L_Data L_InitMade L_Model.
From Coq Require Import Lia Lra.
Local Open Scope R_scope.
Local Open Scope string_scope.

Lemma ltb_two {A} (l : list A) : Nat.ltb 1 (length l) = false -> l = [] \/ exists a, l = [a].
Proof. destruct l as [|a [|b l]]; cbn; intro H; [now left|right; now exists a|discriminate]. Qed.

(** Parts of methods and what they read. *)
Section Parts.
Context {P : Type}.
Lemma alike_check (C C' : ctx P) nj st ext sm : alike C C' -> check_fit C' nj st ext sm = check_fit C nj st ext sm.
Proof. destruct C, C'. intros [A B D E F G H I]; cbn in *; subst. reflexivity. Qed.
Lemma alike_initialize (C C' : ctx P) st : alike C C' -> initialize_fit C' st = initialize_fit C st.
Proof.
  destruct C as [a b c d e g h i k], C' as [a' b' c' d' e' g' h' i' k']. intros [A B D E F G H I]; cbn in *; subst.
  unfold initialize_fit. cbn. destruct k as [k|], k' as [k'|]; try reflexivity; exfalso; [destruct I as [I _]|destruct I as [_ I]]; specialize (I eq_refl); discriminate.
Qed.
Lemma alike_finish (C C' : ctx P) : alike C C' -> finish_fit C' = finish_fit C.
Proof.
  destruct C as [a b c d e g h i k], C' as [a' b' c' d' e' g' h' i' k']. intros [A B D E F G H I]; cbn in *; subst.
  destruct k as [k|], k' as [k'|]; try reflexivity; exfalso; [destruct I as [I _]|destruct I as [_ I]]; specialize (I eq_refl); discriminate.
Qed.
Lemma alike_op (C C' : ctx P) o : alike C C' -> (forall nj st ext sm, o <> OFit nj st ext sm) -> run_op C' o = run_op C o.
Proof.
  destruct C, C'. intros [A B D E F G H I] N; cbn in *; subst. destruct o; try reflexivity. exfalso. eapply N. reflexivity.
Qed.
Lemma alike_step (C C' : ctx P) st ext r t : alike_at t C C' -> fit_step C' st ext r t = fit_step C st ext r t.
Proof.
  destruct C as [a b c d e g h i k], C' as [a' b' c' d' e' g' h' i' k']. intros ([A B D E F G H I] & N & Q); cbn in *; subst.
  unfold fit_step, fit_nuisance, fit_sensitivity. cbn. rewrite (N r).
  destruct k as [k|], k' as [k'|]; try (exfalso; destruct I as [I1 I2]; (specialize (I1 eq_refl); discriminate) || (specialize (I2 eq_refl); discriminate)); [|reflexivity].
  rewrite (Q k k' eq_refl eq_refl r). reflexivity.
Qed.
End Parts.

(** Activation *)
Lemma switch_same s c c' l : M_Data.with_xd (M_Data.with_xd s c l) c' (M_Data.xd_list (M_Data.with_xd s c l) c') = M_Data.with_xd s c' (M_Data.xd_list s c').
Proof. reflexivity. Qed.
Lemma set_xd_cases f s c s' e : M_Data.set_xd f s c = (s', e) -> (e = None /\ In c (M_Data.r_d (M_Data.dd_roles s)) /\ s' = M_Data.with_xd s c (M_Data.xd_list s c)) \/ (e <> None /\ s' = s).
Proof.
  rewrite set_xd_eq. destruct (xd_ok f s c) eqn:O; intros [= <- <-]; [left|right; split; [discriminate|reflexivity]].
  unfold xd_ok in O. rewrite !andb_true_iff in O. destruct O as ((O & _) & _). apply mem_iff in O. auto.
Qed.
Lemma switchable_switch f s s' c : switchable f s -> activated s s' -> In c (M_Data.r_d (M_Data.dd_roles s)) -> M_Data.set_xd f s' c = (M_Data.with_xd s c (M_Data.xd_list s c), None).
Proof.
  intros U (d & Hd & ->) Hc. specialize (U c Hc). cbn [M_Data.assign] in U. rewrite set_xd_eq in *.
  assert (O : xd_ok f (M_Data.with_xd s d (M_Data.xd_list s d)) c = xd_ok f s c) by reflexivity. rewrite O. destruct (xd_ok f s c); [reflexivity|discriminate].
Qed.
Lemma reached_active f s : S_Data.reachable f s -> activated s s.
Proof.
  intro H. exists (M_Data.c_d s). split; [exact (proj2 (features_reachable f s H))|]. apply reachable_inv in H. destruct H as [_ _ _ IX _ _ _ _]. destruct s; cbn in *. rewrite <- IX at 1. reflexivity.
Qed.
Lemma activated_roles s s' : activated s s' -> M_Data.dd_roles s' = M_Data.dd_roles s.
Proof. intros (c & _ & ->). reflexivity. Qed.
Lemma activated_trans s s' s'' : activated s s' -> activated s' s'' -> activated s s''.
Proof. intros (c & _ & ->) (d & Hd & ->). exists d. split; [exact Hd|apply switch_same]. Qed.
Lemma activated_back f s s' : S_Data.reachable f s -> activated s s' -> activated s' s.
Proof. intros H (c & _ & ->). destruct (reached_active f s H) as (d & Hd & E). exists d. split; [exact Hd|]. rewrite switch_same. exact E. Qed.
Lemma switchable_activated f s s' : switchable f s -> activated s s' -> switchable f s'.
Proof. intros U A c Hc. rewrite (activated_roles s s' A) in Hc. cbn [M_Data.assign]. rewrite (switchable_switch f s s' c U A Hc). reflexivity. Qed.
Lemma follows_activated {P} s s' (C : ctx P) K : activated s s' -> follows s C K -> follows s' C K.
Proof.
  intros A (D & F). pose proof (activated_roles s s' A) as R. split; [congruence|]. rewrite R. intros s'' A'. exact (F s'' (activated_trans s s' s'' A A')).
Qed.

(** [fit] *)
Section Fit.
Context {P : Type}.
Variables (f : M_Data.frame) (s : M_Data.ddata) (C : ctx P) (K : M_Data.ddata -> ctx P).
Hypothesis U : switchable f s.
Hypothesis F : follows s C K.
Notation dcols := (M_Data.r_d (M_Data.dd_roles s)).
(** Same effect on the object and same outcome; the data object only changes its active treatment. *)
Definition matches {A} (m : sact (P := P) A) (a : act P A) : Prop := forall s' w, activated s s' -> exists s'', activated s s'' /\ m (s', w) = ((s'', fst (a w)), snd (a w)).
Lemma matches_reading {A} (a : ctx P -> act P A) : (forall s', activated s s' -> a (K s') = a C) -> matches (reading K a) (a C).
Proof. intros H s' w As. exists s'. split; [exact As|]. unfold reading. cbn [fst snd]. rewrite (H s' As). destruct (a C w). reflexivity. Qed.
Lemma matches_then {A B} (m : sact A) (a : act P A) (k : A -> sact B) (b : A -> act P B) : matches m a -> (forall x, matches (k x) (b x)) -> matches (sthen m k) (andthen a b).
Proof.
  intros H H' s' w As. destruct (H s' w As) as (s1 & A1 & E). unfold sthen, andthen. rewrite E. destruct (a w) as (w1 & [x|e]); cbn [fst snd]; [exact (H' x s1 w1 A1)|]. exists s1. auto.
Qed.
Lemma matches_for {A} (l : list A) (m : A -> sact unit) (a : A -> act P unit) : (forall x, In x l -> matches (m x) (a x)) -> matches (sfor l m) (for_ l a).
Proof.
  induction l as [|x l IH]; intro H; cbn [sfor for_].
  - intros s' w As. exists s'. auto.
  - apply matches_then; [apply H; now left|]. intros _. apply IH. intros y Hy. apply H. now right.
Qed.
Lemma matches_step st ext r t : (t < length dcols)%nat -> matches (sthen (switch_to f t) (fun _ => reading K (fun C => fit_step C st ext r t))) (fit_step C st ext r t).
Proof.
  intros Ht s' w As. destruct F as (_ & F'). destruct (nth_error dcols t) as [c|] eqn:Hc; [|apply nth_error_None in Hc; lia]. pose proof (nth_error_In _ _ Hc) as Ic.
  assert (Z : forall s1, activated s s1 -> M_Data.c_d s1 = c -> reading K (fun C => fit_step C st ext r t) (s1, w) = ((s1, fst (fit_step C st ext r t w)), snd (fit_step C st ext r t w))).
  { intros s1 A1 E1. unfold reading. cbn [fst snd]. rewrite (alike_step _ _ st ext r t (proj2 (F' s1 A1) t c Hc E1)). destruct (fit_step C st ext r t w). reflexivity. }
  unfold sthen, switch_to. cbn [fst snd]. rewrite (activated_roles s s' As). destruct (Nat.ltb 1 (length dcols)) eqn:Q.
  - rewrite (nth_error_nth _ _ _ Hc), (switchable_switch f s s' c U As Ic). exists (M_Data.with_xd s c (M_Data.xd_list s c)). assert (A1 : activated s (M_Data.with_xd s c (M_Data.xd_list s c))) by (exists c; auto). split; [exact A1|]. exact (Z _ A1 eq_refl).
  - exists s'. split; [exact As|]. apply Z; [exact As|]. destruct As as (d & Hd & ->). destruct (ltb_two _ Q) as [N|(a & N)]; rewrite N in Hd, Ic; [destruct Hd|]. destruct Hd as [<-|[]], Ic as [<-|[]]. reflexivity.
Qed.
Lemma matches_fit nj st ext sm : matches (live_fit f K nj st ext sm) (fit C nj st ext sm).
Proof.
  unfold live_fit, fit. cbv zeta. destruct F as (D & F'). apply matches_then; [apply (matches_reading (fun C => check_fit C nj st ext sm)); intros s' As; apply alike_check, F', As|]. intros _.
  apply matches_then; [apply (matches_reading (fun C => initialize_fit C _)); intros s' As; apply alike_initialize, F', As|]. intros _.
  set (b := match st with PBool b => b | _ => false end). intros s' w As.
  refine (matches_then (sfor (seq 0 (m_n_rep (w_obj w))) _) (for_ (seq 0 (m_n_rep (w_obj w))) _) _ _ _ _ s' w As); [|intros _; apply (matches_reading finish_fit); intros s1 A1; apply alike_finish, F', A1].
  apply matches_for. intros r _ s1 w1 A1. cbn [fst snd]. rewrite (activated_roles s s1 A1). rewrite D.
  refine (matches_for (seq 0 (length dcols)) _ _ _ s1 w1 A1). intros t Ht. apply in_seq in Ht. apply matches_step. lia.
Qed.
Lemma matches_op o : matches (live_op f K o) (run_op C o).
Proof.
  destruct o as [nj st ext sm|g p|sp sc|l t v|wt m nb|ppf mi a b c d e]; cbn [live_op]; [apply matches_fit|..]; destruct F as (_ & F');
  match goal with |- matches (reading K (fun C => run_op C ?o)) _ => apply (matches_reading (fun C => run_op C o)) end; intros s' As; apply alike_op; try discriminate; apply F', As.
Qed.
End Fit.

(** Histories *)
Lemma set_nth_self {A} i (x : A) l y : nth_error l i = Some y -> nth_error (set_nth i x l) i = Some x.
Proof. revert l. induction i as [|i IH]; intros [|a l] H; try discriminate; cbn in *; [reflexivity|apply (IH l H)]. Qed.
Lemma set_nth_away {A} i j (x : A) l : i <> j -> nth_error (set_nth i x l) j = nth_error l j.
Proof. revert i j. induction l as [|a l IH]; intros [|i] [|j] H; cbn; try reflexivity; try contradiction; apply IH; congruence. Qed.
Lemma shared_alone {P} f (Ks : list (M_Data.ddata -> ctx P)) Cs s : switchable f s -> Forall2 (follows s) Cs Ks ->
  forall ops s' ws, only_activations ops -> activated s s' -> length ws = length Ks ->
  exists s'' ws' log, shared_run f Ks ops (s', ws) = ((s'', ws'), log) /\ activated s s'' /\ length ws' = length Ks /\
    forall i C w, nth_error Cs i = Some C -> nth_error ws i = Some w -> nth_error ws' i = Some (run C (own_calls i ops) w) /\ own_results i log = outcomes C (own_calls i ops) w.
Proof.
  intros U Fo. induction ops as [|o ops IH]; intros s' ws Oa As Len; (try assert (Oa' : only_activations ops) by (intros q Hq; apply (Oa q); right; exact Hq)); cbn [shared_run].
  - exists s', ws, []. repeat split; auto.
  - destruct o as [a|j o]; cbn [shared_step fst snd].
    + destruct (Oa a (or_introl eq_refl)) as (v & ->). destruct (M_Data.assign f s' (M_Data.SetXD v)) as (s1, e) eqn:E. cbn [fst].
      assert (A1 : activated s s1). { destruct v as [|v|l|]; cbn [M_Data.assign] in E; try (injection E as <- _; exact As). destruct (set_xd_cases f s' v s1 e E) as [(_ & I & ->)|(_ & ->)]; [|exact As]. apply (activated_trans s s' _ As). exists v. auto. }
      destruct (IH s1 ws Oa' A1 Len) as (s2 & ws2 & log & E2 & A2 & L2 & H). rewrite E2. exists s2, ws2, log. split; [reflexivity|]. split; [exact A2|]. split; [exact L2|exact H].
    + destruct (nth_error Ks j) as [K|] eqn:EK.
      * destruct (nth_error ws j) as [w|] eqn:Ew; [|apply nth_error_None in Ew; assert (j < length Ks)%nat by (apply nth_error_Some; congruence); lia].
        assert (X : exists C, nth_error Cs j = Some C /\ follows s C K). { clear -Fo EK. revert j EK. induction Fo as [|C K0 Cs Ks H _ IH]; intros [|j] EK; try discriminate; cbn in *; [injection EK as <-; eauto|apply IH, EK]. }
        destruct X as (C & EC & FK). destruct (matches_op f s C K U FK o s' w As) as (s1 & A1 & E1). rewrite E1.
        destruct (IH s1 (set_nth j (fst (run_op C o w)) ws) Oa' A1) as (s2 & ws2 & log & E2 & A2 & L2 & H); [rewrite <- Len; apply L_Model.set_nth_length|]. rewrite E2. exists s2, ws2, (([(j, snd (run_op C o w))] ++ log)%list). split; [reflexivity|]. split; [exact A2|]. split; [exact L2|].
        intros i C' w' Hi Hw. cbn [own_calls]. destruct (Nat.eqb_spec j i) as [->|N].
        -- assert (C' = C) as -> by congruence. assert (w' = w) as -> by congruence. destruct (H i C (fst (run_op C o w)) EC) as (H1 & H2); [exact (set_nth_self i _ ws w Ew)|].
           cbn [run outcomes]. split; [exact H1|]. unfold own_results in *. cbn [app filter fst]. rewrite Nat.eqb_refl. cbn [map snd]. now rewrite H2.
        -- destruct (H i C' w' Hi) as (H1 & H2); [rewrite set_nth_away; assumption|]. split; [exact H1|]. unfold own_results in *. cbn [app filter fst]. apply Nat.eqb_neq in N. rewrite N. exact H2.
      * destruct (IH s' ws Oa' As Len) as (s2 & ws2 & log & E2 & A2 & L2 & H). rewrite E2. exists s2, ws2, log. split; [reflexivity|]. split; [exact A2|]. split; [exact L2|].
        intros i C w Hi Hw. cbn [own_calls]. destruct (Nat.eqb_spec j i) as [->|N]; [|exact (H i C w Hi Hw)].
        exfalso. apply nth_error_None in EK. assert (i < length ws)%nat by (apply nth_error_Some; congruence). lia.
Qed.

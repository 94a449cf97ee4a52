(** Losses reported after complete fits: targets of all classes, and the entry of
    the loss array. *)
From Verif Require Export S_Loss L_Classes.
From Coq Require Import Lia Lra FunctionalExtensionality.
Local Open Scope R_scope.
Local Open Scope res_scope.
Local Open Scope string_scope.

Lemma rmax_min_clip q : Rmax (1 / 10 ^ 15) (Rmin (1 - 1 / 10 ^ 15) q) = away q.
Proof. reflexivity. Qed.
Lemma filter_rows n (c : nat -> bool) (G : nat -> Prop) : (forall i, c i = true <-> G i) -> rows_in n G (filter c (seq 0 n)).
Proof.
  intro H. split.
  - assert (Q : forall len a, Sorted lt (filter c (seq a len)) /\ forall b, (b < a)%nat -> HdRel lt b (filter c (seq a len))).
    { induction len as [|len IH]; intro a; cbn; [split; [constructor|intros; constructor]|]. destruct (IH (S a)) as (S1 & S2). destruct (c a).
      - split; [constructor; [exact S1|apply S2; lia]|intros b Hb; constructor; exact Hb].
      - split; [exact S1|intros b Hb; apply S2; lia]. }
    apply Q.
  - intro i. rewrite filter_In, in_seq, H. split; intros (A & B); (split; [lia|exact B]).
Qed.
(** The pairs entering the loss. *)
Lemma available_on n (p t : nat -> option R) (v y : vec) (c : nat -> bool) :
  (forall i, (i < n)%nat -> p i = Some (v i)) -> (forall i, (i < n)%nat -> t i = if c i then Some (y i) else None) ->
  available n p t = map (fun i => (v i, y i)) (filter c (seq 0 n)).
Proof.
  intros Hp Ht. unfold available. assert (Q : forall l, (forall i, In i l -> (i < n)%nat) -> flat_map (fun i => match p i, t i with Some p, Some y => [(p, y)] | _, _ => [] end) l = map (fun i => (v i, y i)) (filter c l)).
  { induction l as [|i l IH]; intro Hl; [reflexivity|]. cbn. rewrite Hp, Ht by (apply Hl; now left). rewrite IH by (intros j Hj; apply Hl; now right). destruct (c i); reflexivity. }
  apply Q. intros i Hi. apply in_seq in Hi. lia.
Qed.
Lemma loss_is n cls (p t : nat -> option R) (v y : vec) (c : nat -> bool) (u : option R) :
  (forall i, (i < n)%nat -> p i = Some (v i)) -> (forall i, (i < n)%nat -> t i = if c i then Some (y i) else None) -> is_loss n cls p t u -> u = mean_loss cls v y (filter c (seq 0 n)).
Proof.
  intros Hp Ht H. unfold is_loss in H. rewrite (available_on n p t v y c Hp Ht) in H. unfold mean_loss. destruct (filter c (seq 0 n)) as [|i l]; [exact H|]. cbn [map] in H. rewrite H. f_equal.
  change ((v i, y i) :: map (fun i => (v i, y i)) l) with (map (fun i => (v i, y i)) (i :: l)). rewrite !map_map. reflexivity.
Qed.

(** Loss entries of a fitted object. *)
Section Entry.
Context {P : Type}.
Variable C : ctx P.
Variables (w : world P) (out : nat -> nat -> nuis_out) (r t : nat).
Hypothesis Rl : reports_losses C w out.
Hypothesis Hr : (r < m_n_rep (w_obj w))%nat.
Hypothesis Ht : (t < length (c_dcols C))%nat.

Lemma entry_over name v y c G tg : In name (c_learners C) -> (forall i, c i = true <-> G i) -> (forall i, (i < c_n C)%nat -> no_preds (out r t) name i = Some (v i)) ->
  no_targets (out r t) name = Some tg -> (forall i, (i < c_n C)%nat -> tg i = if c i then Some (y i) else None) ->
  loss_over w r t name (c_classifier C name) (c_n C) v y G.
Proof.
  intros Hi HG Hp Et Htg. destruct Rl as (d & Ed & Q). specialize (Q name r t Hi Hr Ht). exists (filter c (seq 0 (c_n C))). split; [apply filter_rows, HG|].
  exists d. split; [exact Ed|]. refine (loss_is (c_n C) _ _ _ v y c _ Hp _ Q). intros i Hi'. unfold target_of. rewrite Et. apply Htg, Hi'.
Qed.
Lemma entry_none name : In name (c_learners C) -> no_targets (out r t) name = None -> loss_entry w r t name None.
Proof.
  intros Hi Et. destruct Rl as (d & Ed & Q). specialize (Q name r t Hi Hr Ht). exists d. split; [exact Ed|]. unfold is_loss in Q.
  assert (Z : available (c_n C) (no_preds (out r t) name) (target_of (out r t) name) = []).
  { unfold available, target_of. rewrite Et. generalize (seq 0 (c_n C)). induction l as [|i l IH]; [reflexivity|]. cbn. rewrite IH. destruct (no_preds (out r t) name i); reflexivity. }
  rewrite Z in Q. exact Q.
Qed.
End Entry.

(** ** Targets of one nuisance function *)
Definition evaluated {E P} (su : setup E P) (out : nuis_out) (name : string) (y : vec) (c : nat -> bool) : Prop :=
  match su_ext su name with
  | None => exists t, no_targets out name = Some t /\ forall i, (i < su_n su)%nat -> t i = if c i then Some (y i) else None
  | Some _ => no_targets out name = None
  end.
Definition all_of : nat -> bool := fun _ => true.

Section Targets.
Context {E P : Type}.
Variable L : learner E row P.
Variables (f : E -> row -> R) (g : E -> row -> list R).
Variable su : setup E P.
Notation n := (su_n su).
Notation Fit := (fit_ok L g su).
Definition hat_evaluated (name : string) (h : hat) (y : vec) (c : nat -> bool) : Prop :=
  match su_ext su name with
  | None => exists t, h_targets h = Some t /\ forall i, (i < n)%nat -> t i = if c i then Some (y i) else None
  | Some _ => h_targets h = None
  end.
Lemma out_evaluated e hs name h y c : dict_get name hs = Some h -> hat_evaluated name h y c -> evaluated su (mk_out e hs) name y c.
Proof. intros D H. unfold evaluated, hat_evaluated in *. cbn [mk_out no_targets]. rewrite D. exact H. Qed.
Lemma hat_all name lrn x y smpls h : setting L f g su smpls -> Fit name lrn y everyone smpls -> plain_labels su lrn y -> or_ext su name (fit_checked L su name lrn x y smpls smpls) = Ok h -> hat_evaluated name h y all_of.
Proof.
  intros S F Pl H. unfold hat_evaluated. destruct (su_ext su name) as [e|] eqn:Ex.
  - unfold or_ext in H. rewrite Ex in H. apply ok_inj in H. subst h. reflexivity.
  - exact (target_all L f g su name lrn x y smpls h S F Ex Pl H).
Qed.
Lemma hat_all' name lrn x y smpls h : setting L f g su smpls -> Fit name lrn y everyone smpls -> plain_labels su lrn y -> or_ext su name (fit_nuis L su name lrn x y smpls) = Ok h -> hat_evaluated name h y all_of.
Proof.
  intros S F Pl H. unfold hat_evaluated, or_ext in *. destruct (su_ext su name) as [e|] eqn:Ex; [apply ok_inj in H; subst h; reflexivity|].
  apply (fit_all L f g) in H as (_ & _ & t & c & T1 & T2 & T3); [|exact S|exact (F Ex)]. exists t. split; [exact T1|]. intros i Hi. rewrite (T3 i Hi). unfold all_of. f_equal. apply (faithful_codes su lrn y c); assumption.
Qed.
Lemma hat_sub name lrn x y c (G : nat -> Prop) smpls h : (forall i, c i = true <-> G i) -> setting L f g su smpls -> Fit name lrn y G smpls -> plain_labels su lrn y ->
  or_ext su name (let! h := fit_checked L su name lrn x y (sub su c smpls) smpls in Ok (mask c h)) = Ok h -> hat_evaluated name h y c.
Proof.
  intros HG S F Pl H. unfold hat_evaluated. destruct (su_ext su name) as [e|] eqn:Ex.
  - unfold or_ext in H. rewrite Ex in H. apply ok_inj in H. subst h. reflexivity.
  - exact (target_sub L f g su name lrn x y c G smpls h HG S F Ex Pl H).
Qed.
Lemma hat_sub' name lrn x y c (G : nat -> Prop) smpls h : (forall i, c i = true <-> G i) -> setting L f g su smpls -> Fit name lrn y G smpls -> plain_labels su lrn y ->
  or_ext su name (let! h := fit_nuis L su name lrn x y (sub su c smpls) in Ok (mask c h)) = Ok h -> hat_evaluated name h y c.
Proof.
  intros HG S F Pl H. unfold hat_evaluated, or_ext in *. destruct (su_ext su name) as [e|] eqn:Ex; [apply ok_inj in H; subst h; reflexivity|]. inv1 H. inv1 H. subst h.
  apply (fit_sub L f g su _ _ _ _ _ G) in E0 as (_ & _ & t & cc & T1 & T2 & T3); [|exact HG|exact S|exact (F Ex)]. cbn [mask h_targets]. rewrite T1. cbn [option_map].
  eexists. split; [reflexivity|]. intros i Hi. cbv beta. destruct (c i); [|reflexivity]. rewrite (T3 i Hi). f_equal. apply (faithful_codes su lrn y cc); assumption.
Qed.
Lemma hat_trim name h y c tr thr : hat_evaluated name h y c -> hat_evaluated name (trim_hat tr thr h) y c.
Proof. exact (fun H => H). Qed.

(** ** Classes *)
Lemma plr_evaluated bt x y d smpls out : setting L f g su smpls -> Fit "ml_l" "ml_l" y everyone smpls -> Fit "ml_m" "ml_m" d everyone smpls -> plain_labels su "ml_l" y -> plain_labels su "ml_m" d ->
  plr_nuis L su false bt x y d smpls = Ok out -> evaluated su out "ml_l" y all_of /\ evaluated su out "ml_m" d all_of.
Proof.
  intros S Fl Fm Pl Pm H. unfold plr_nuis in H. cbn [andb] in H. inv1 H. inv1 H. inv1 H. inv1 H. subst out.
  split; (eapply out_evaluated; [reflexivity|eapply hat_all; eassumption]).
Qed.
Lemma irm_evaluated atte norm bo tr thr w x y d smpls out : setting L f g su smpls -> Fit "ml_g0" "ml_g" y (fun j => d j = 0) smpls -> Fit "ml_g1" "ml_g" y (fun j => d j = 1) smpls ->
  Fit "ml_m" "ml_m" d everyone smpls -> plain_labels su "ml_g" y -> plain_labels su "ml_m" d -> irm_nuis L su atte norm bo tr thr w x y d smpls = Ok out ->
  evaluated su out "ml_g0" y (is01 d 0) /\ evaluated su out "ml_g1" y (is01 d 1) /\ evaluated su out "ml_m" d all_of.
Proof.
  intros S F0 F1 Fm Pg Pm H. unfold irm_nuis in H. inv1 H. inv1 H. inv1 H. inv1 H. inv1 H. subst out.
  assert (E0' : or_ext su "ml_g0" (let! h := fit_checked L su "ml_g0" "ml_g" x y (sub su (is01 d 0) smpls) smpls in Ok (mask (is01 d 0) h)) = Ok h).
  { unfold or_ext in *. destruct (su_ext su "ml_g0"); [exact E0|]. inv1 E0. inv1 E0. inv1 E0. subst h. reflexivity. }
  split; [|split].
  - eapply out_evaluated; [reflexivity|]. eapply hat_sub; [apply is01_iff|eassumption..].
  - eapply out_evaluated; [reflexivity|]. eapply hat_sub; [apply is01_iff|eassumption..].
  - eapply out_evaluated; [reflexivity|]. apply hat_trim. eapply hat_all; eassumption.
Qed.
Lemma iivm_evaluated norm bo at_ nt tr thr x y z d smpls out : setting L f g su smpls -> Fit "ml_g0" "ml_g" y (fun j => z j = 0) smpls -> Fit "ml_g1" "ml_g" y (fun j => z j = 1) smpls ->
  Fit "ml_m" "ml_m" z everyone smpls -> (at_ = true -> Fit "ml_r0" "ml_r" d (fun j => z j = 0) smpls) -> (nt = true -> Fit "ml_r1" "ml_r" d (fun j => z j = 1) smpls) ->
  plain_labels su "ml_g" y -> plain_labels su "ml_m" z -> plain_labels su "ml_r" d -> iivm_nuis L su norm bo at_ nt tr thr x y z d smpls = Ok out ->
  evaluated su out "ml_g0" y (is01 z 0) /\ evaluated su out "ml_g1" y (is01 z 1) /\ evaluated su out "ml_m" z all_of /\
  (if at_ then evaluated su out "ml_r0" d (is01 z 0) else su_ext su "ml_r0" = None -> evaluated su out "ml_r0" (fun _ => 0) (is01 z 0)) /\
  (if nt then evaluated su out "ml_r1" d (is01 z 1) else su_ext su "ml_r1" = None -> evaluated su out "ml_r1" (fun _ => 1) (is01 z 1)).
Proof.
  intros S F0 F1 Fm R0 R1 Pg Pm Pr H. unfold iivm_nuis in H. inv1 H. inv1 H. inv1 H. inv1 H. inv1 H. inv1 H. subst out.
  assert (G : forall name b h, Fit name "ml_g" y (fun j => z j = b) smpls -> (let! h := or_ext su name (let! h := fit_checked L su name "ml_g" x y (sub su (is01 z b) smpls) smpls in Ok (mask (is01 z b) h)) in
    require (negb (bo && binary_preds n h)) ValueError (Ok h)) = Ok h -> hat_evaluated name h y (is01 z b)).
  { intros name b hh Fn Q. inv1 Q. inv1 Q. inv1 Q. subst hh. eapply hat_sub; [apply is01_iff|eassumption..]. }
  assert (RR : forall name (have : bool) b dflt h, (have = true -> Fit name "ml_r" d (fun j => z j = b) smpls) ->
    (let given := match su_ext su name with Some _ => true | None => false end in
     let! h := if have then or_ext su name (fit_nuis L su name "ml_r" x d (sub su (is01 z b) smpls)) else Ok (const_hat dflt) in
     if given then Ok h else require (finite_on smpls h) ValueError (Ok (mask (is01 z b) h))) = Ok h ->
    if have then hat_evaluated name h d (is01 z b) else su_ext su name = None -> hat_evaluated name h (fun _ => dflt) (is01 z b)).
  { intros name have b dflt hh Fn Q. cbv zeta in Q. inv1 Q. destruct have.
    - unfold hat_evaluated. destruct (su_ext su name) as [e|] eqn:Ex.
      + unfold or_ext in E5. rewrite Ex in E5. apply ok_inj in E5. inv1 Q. subst hh h4. reflexivity.
      + unfold or_ext in E5. rewrite Ex in E5. inv1 Q. inv1 Q. subst hh.
        apply (fit_sub L f g su _ _ _ _ _ (fun j => z j = b)) in E5 as (_ & _ & t & cc & T1 & T2 & T3); [|apply is01_iff|exact S|exact (Fn eq_refl Ex)]. cbn [mask h_targets]. rewrite T1. cbn [option_map].
        eexists. split; [reflexivity|]. intros i Hi. cbv beta. destruct (is01 z b i); [|reflexivity]. rewrite (T3 i Hi). f_equal. apply (faithful_codes su "ml_r" d cc); assumption.
    - intro Ex. unfold hat_evaluated. rewrite Ex in *. inv1 Q. inv1 Q. subst hh. apply ok_inj in E5. subst h4. cbn. eexists. split; [reflexivity|]. intros i Hi. reflexivity. }
  split; [eapply out_evaluated; [reflexivity|apply G; assumption]|]. split; [eapply out_evaluated; [reflexivity|apply G; assumption]|].
  split; [eapply out_evaluated; [reflexivity|apply hat_trim; eapply hat_all; eassumption]|].
  apply (RR "ml_r0" at_ 0 0) in E3; [|exact R0]. apply (RR "ml_r1" nt 1 1) in E4; [|exact R1]. split.
  - destruct at_; [|intro Ex; specialize (E3 Ex)]; (eapply out_evaluated; [reflexivity|exact E3]).
  - destruct nt; [|intro Ex; specialize (E4 Ex)]; (eapply out_evaluated; [reflexivity|exact E4]).
Qed.
Lemma did_evaluated obs norm tr thr x y d smpls out : setting L f g su smpls -> Fit "ml_g0" "ml_g" y (fun j => d j = 0) smpls -> Fit "ml_g1" "ml_g" y (fun j => d j = 1) smpls ->
  (obs = true -> Fit "ml_m" "ml_m" d everyone smpls) -> plain_labels su "ml_g" y -> (obs = true -> plain_labels su "ml_m" d) -> did_nuis L su obs norm tr thr x y d smpls = Ok out ->
  evaluated su out "ml_g0" y (is01 d 0) /\ evaluated su out "ml_g1" y (is01 d 1) /\ (obs = true -> evaluated su out "ml_m" d all_of).
Proof.
  intros S F0 F1 Fm Pg Pm H. unfold did_nuis in H. inv1 H. inv1 H. inv1 H. inv1 H. subst out. split; [|split].
  - eapply out_evaluated; [reflexivity|]. eapply hat_sub; [apply is01_iff|eassumption..].
  - eapply out_evaluated; [reflexivity|]. eapply hat_sub; [apply is01_iff|eassumption..].
  - intros ->. inv1 E2. inv1 E2. inv1 E2. subst h1. eapply out_evaluated; [reflexivity|]. apply hat_trim. eapply hat_all'; [exact S|apply Fm; reflexivity|apply Pm; reflexivity|exact E3].
Qed.
Lemma cs_evaluated obs norm tr thr x y d t smpls out : setting L f g su smpls ->
  (forall a b name, In (name, a, b) [("ml_g_d0_t0", 0, 0); ("ml_g_d0_t1", 0, 1); ("ml_g_d1_t0", 1, 0); ("ml_g_d1_t1", 1, 1)] -> Fit name "ml_g" y (fun j => d j = a /\ t j = b) smpls) ->
  (obs = true -> Fit "ml_m" "ml_m" d everyone smpls) -> plain_labels su "ml_g" y -> (obs = true -> plain_labels su "ml_m" d) -> cs_nuis L su obs norm tr thr x y d t smpls = Ok out ->
  (forall a b name, In (name, a, b) [("ml_g_d0_t0", 0, 0); ("ml_g_d0_t1", 0, 1); ("ml_g_d1_t0", 1, 0); ("ml_g_d1_t1", 1, 1)] -> evaluated su out name y (is01_2 d t a b)) /\
  (obs = true -> evaluated su out "ml_m" d all_of).
Proof.
  intros S F Fm Pg Pm H. unfold cs_nuis in H. inv1 H. inv1 H. inv1 H. inv1 H. inv1 H. inv1 H. subst out. split.
  - intros a b name Hin. pose proof (F a b name Hin) as Fn. destruct Hin as [Q|[Q|[Q|[Q|[]]]]]; injection Q as <- <- <-; (eapply out_evaluated; [reflexivity|]; eapply hat_sub'; [apply is01_2_iff|eassumption..]).
  - intros ->. inv1 E4. inv1 E4. subst h3. eapply out_evaluated; [reflexivity|]. apply hat_trim. eapply hat_all; [exact S|apply Fm; reflexivity|apply Pm; reflexivity|exact E5].
Qed.
Lemma pliv_evaluated iv x y d z smpls out : setting L f g su smpls -> Fit "ml_l" "ml_l" y everyone smpls -> Fit "ml_m" "ml_m" z everyone smpls -> Fit "ml_r" "ml_r" d everyone smpls ->
  plain_labels su "ml_l" y -> plain_labels su "ml_m" z -> plain_labels su "ml_r" d -> pliv_x_nuis L su iv x y d z smpls = Ok out ->
  evaluated su out "ml_l" y all_of /\ evaluated su out "ml_m" z all_of /\ evaluated su out "ml_r" d all_of.
Proof.
  intros S Fl Fm Fr Pl Pm Pr H. unfold pliv_x_nuis in H. inv1 H. inv1 H. inv1 H. inv1 H. inv1 H. subst out.
  split; [|split]; (eapply out_evaluated; [reflexivity|eapply hat_all; eassumption]).
Qed.
Lemma ssm_evaluated norm tr thr x y d s smpls out : setting L f g su smpls -> labels_ok L g su "ml_pi" s everyone smpls -> labels_ok L g su "ml_m" d everyone smpls ->
  labels_ok L g su "ml_g" y (fun j => d j = 1 /\ s j = 1) smpls -> labels_ok L g su "ml_g" y (fun j => d j = 0 /\ s j = 1) smpls ->
  plain_labels su "ml_pi" s -> plain_labels su "ml_m" d -> plain_labels su "ml_g" y -> ssm_mar_nuis L su norm tr thr x y d s smpls = Ok out ->
  forall name v, In (name, v) [("ml_pi", s); ("ml_m", d); ("ml_g_d1", y); ("ml_g_d0", y)] -> exists t, no_targets out name = Some t /\ forall i, (i < n)%nat -> t i = if all_of i then Some (v i) else None.
Proof.
  intros S Fp Fm F1 F0 Pp Pm Pg H. unfold ssm_mar_nuis in H. inv1 H. inv1 H. inv1 H. inv1 H. inv1 H. subst out. apply checked_inv in E0, E1, E2, E3.
  apply (fit_all L f g) in E0 as (_ & _ & t0 & c0 & T0 & U0 & V0); [|exact S|exact Fp]. apply (fit_all L f g) in E1 as (_ & _ & t1 & c1 & T1 & U1 & V1); [|exact S|exact Fm].
  apply (fit_sub L f g su _ _ _ _ _ (fun j => d j = 1 /\ s j = 1)) in E2 as (_ & _ & t2 & c2 & T2 & U2 & V2); [|apply is01_2_iff|exact S|exact F1].
  apply (fit_sub L f g su _ _ _ _ _ (fun j => d j = 0 /\ s j = 1)) in E3 as (_ & _ & t3 & c3 & T3 & U3 & V3); [|apply is01_2_iff|exact S|exact F0].
  intros name v [Q|[Q|[Q|[Q|[]]]]]; injection Q as <- <-; cbn; eexists; (split; [eassumption|]); intros i Hi; cbn.
  - rewrite (V0 i Hi). f_equal. apply (faithful_codes su "ml_pi" s c0); assumption.
  - rewrite (V1 i Hi). f_equal. apply (faithful_codes su "ml_m" d c1); assumption.
  - rewrite (V2 i Hi). f_equal. apply (faithful_codes su "ml_g" y c2); assumption.
  - rewrite (V3 i Hi). f_equal. apply (faithful_codes su "ml_g" y c3); assumption.
Qed.
End Targets.

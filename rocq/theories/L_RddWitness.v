(** Construction of regression discontinuity objects: concrete cases. *)
From Verif Require L_DataWitness.
From Verif Require Export L_RddMore L_InitWitness.
From Coq Require Import Lia Lra FunctionalExtensionality.
Local Open Scope R_scope.
Local Open Scope string_scope.

(** Eight rows; score -3.5, -2.5, ..., 3.5 plus [a]; treated above (or below) the middle; one cluster. *)
Definition v_d (b : bool) (i : nat) : R := if (if b then Nat.ltb i 4 else negb (Nat.ltb i 4)) then 1 else 0.
Definition v_cell (a : R) (b : bool) (c : string) (i : nat) : M_Data.cell := M_Data.Num (
  if String.eqb c "d" then v_d b i else if String.eqb c "s" then INR i - 7 / 2 + a else if String.eqb c "c" then 0 else INR i).
Definition v_frame (a : R) (b : bool) : M_Data.frame := M_Data.mk_frame ["y"; "d"; "x"; "s"; "c"] 8 (v_cell a b).
Definition v_roles (cl : option (list string)) : M_Data.roles := M_Data.mk_roles "y" ["d"] ["x"] None None (Some "s") cl.
Lemma v_exists a b cl : cl = None \/ cl = Some ["c"] -> exists s, S_Data.constructed (v_frame a b) s /\ M_Data.dd_roles s = v_roles cl.
Proof.
  intro Hc. destruct (L_DataWitness.construct_of (v_frame a b) (v_roles cl) true M_Data.Strict) as (s & K & Ro & _); [|exists s; auto].
  split; [apply L_Data.distinct_iff; reflexivity|]. split; [destruct Hc as [->| ->]; (split; [apply L_Data.distinct_iff; reflexivity|apply L_Data.subset_iff; reflexivity])|]. split; [discriminate|].
  split; intros c _; [|apply L_DataProps.number_allowed]; intros i _; eexists; reflexivity.
Qed.
Lemma v_binary a b s cl : M_Data.dd_roles s = v_roles cl -> binary_treatment (v_frame a b) s "d".
Proof. intro Ro. split; [rewrite Ro; reflexivity|]. intros i Hi. change (M_Data.fcell (v_frame a b) "d" i) with (M_Data.Num (v_d b i)). unfold v_d. destruct b, (Nat.ltb i 4); cbn [negb]; auto. Qed.
Definition v_learner : rd_learner_arg r_memo := {| wl_learner := reg; wl_weights := true |}.
Definition v_class : rd_learner_arg r_memo := {| wl_learner := cls; wl_weights := true |}.
(** The learner predicts the weighted sum of the outcomes plus the sum of the features. *)
Definition v_learn (e : r_memo) (p : bool) : rd_learner := fun train x => fold_right (fun t acc => snd (fst t) * snd t + acc) 0 train + fold_right Rplus 0 x.
Definition v_bw (y score : vec) (d : option vec) : R := 2.
Definition v_robust (score y : vec) (d : option vec) (hb : option (R * R)) : rd_res :=
  {| rr_coef := fun _ => y 4%nat - y 3%nat; rr_se := fun _ => 1; rr_ci := fun _ _ => 0; rr_h := (match hb with Some p => fst p | None => 2 end, 3); rr_b := (4, 5); rr_n := (4, 4)%nat |}.
Lemma v_rows : rows_only 8 v_robust.
Proof. intros score y y' hb H. unfold v_robust. rewrite (H 3%nat ltac:(lia)), (H 4%nat ltac:(lia)). split; reflexivity. Qed.
Lemma v_shuffles : shuffles g_id.
Proof. split; reflexivity. Qed.
Definition v_id (s : string) : string := s.
Definition v_init a b (s : M_Data.ddata) ml_g ml_m fuzzy cutoff h ka := rd_init v_learn v_bw v_robust v_id DFloat DFloat (fun _ => 0) g_id (v_frame a b) s ml_g ml_m fuzzy cutoff (PInt 2) (PInt 1) h (PStr "interacted cutoff and score") ka.
Definition v_stage (a c0 h : R) (k : kern) : first_stage := {| fs_score := fun i => col (v_frame a false) "s" i - c0; fs_h := h; fs_spec_of := Interacted; fs_kern := kernel k; fs_treatment := "d" |}.
Lemma v_score a b i : col (v_frame a b) "s" i = INR i - 7 / 2 + a.
Proof. reflexivity. Qed.
Lemma v_fraction a b z : a = IZR z -> exists i, (i < M_Data.frows (v_frame a b))%nat /\ forall z', col (v_frame a b) "s" i <> IZR z'.
Proof.
  intros ->. exists 0%nat. split; [cbn; lia|]. intros z' Q. rewrite v_score in Q. cbn [INR] in Q. assert (X : IZR (2 * (z - z')) = IZR 7) by (rewrite mult_IZR, minus_IZR; lra). apply eq_IZR in X. lia.
Qed.
Lemma v_setup a b z s cl fuzzy cutoff c0 h hp k name : a = IZR z -> M_Data.dd_roles s = v_roles cl -> level_number cutoff = Some c0 -> a - 7 / 2 <= c0 <= a + 7 / 2 -> bandwidth_is 2 hp h ->
  kernel_is v_id (KStr name) (kernel k) -> rd_setup v_bw v_id (v_frame a b) s fuzzy cutoff (PInt 2) (PInt 1) hp (PStr "interacted cutoff and score") (KStr name) (v_stage a c0 h k).
Proof.
  intros Ea Ro Lv Rg Bw Ke. exists (col (v_frame a b) "s"), c0. unfold rd_data_ok, running_variable, no_instruments. split; [|split; [reflexivity|]].
  - split; [exists "s"; rewrite Ro; split; reflexivity|]. split; [apply (v_fraction a b z Ea)|]. split; [exact Lv|].
    split; [exists 0%nat; split; [cbn; lia|]; rewrite v_score; cbn [INR]; lra|]. split; [exists 7%nat; split; [cbn; lia|]; rewrite v_score; cbn [INR]; lra|]. split; [apply (v_binary a b s cl Ro)|rewrite Ro; reflexivity].
  - split; [reflexivity|]. split; [cbn; lia|]. split; [reflexivity|]. split; [cbn; lia|]. split; [exact Bw|]. split; [right; right; split; reflexivity|exact Ke].
Qed.
Lemma v_foldable a b : foldable 8 (PInt 2) (col (v_frame a b) "d").
Proof. exists 0%nat. split; [lia|]. change (Z.to_nat (int_val (PInt 2))) with 2%nat. apply (two_rows 8 _ 0 1); [lia|]. destruct b; reflexivity. Qed.
Lemma v_learners f s : rd_learners_ok f s false v_learner None.
Proof. split; [apply reg_outcome|]. split; [reflexivity|discriminate]. Qed.
Lemma v_learners_fuzzy f s : rd_learners_ok f s true v_learner (Some v_class).
Proof. split; [apply reg_outcome|]. split; [reflexivity|]. intros _. exists v_class. split; [reflexivity|]. split; [exact cls_proba|reflexivity]. Qed.
(** Rows 3 and 4 are next to the cutoff. *)
Lemma v_weighted a k h : 1 < h -> weight_left 8 (fs_score (v_stage a a h k)) (fs_weights (v_stage a a h k)) <> 0 /\ weight_right 8 (fs_score (v_stage a a h k)) (fs_weights (v_stage a a h k)) <> 0.
Proof.
  intro Hh. split.
  - apply (weight_left_named 8 (fs_score (v_stage a a h k)) k h); [lra|]. exists 3%nat. split; [lia|]. assert (X : fs_score (v_stage a a h k) 3%nat = - (1 / 2)) by (cbn; lra). rewrite X. split; [lra|].
    unfold within. rewrite Rabs_Ropp, Rabs_right by lra. destruct k; lra.
  - apply (weight_right_named 8 (fs_score (v_stage a a h k)) k h); [lra|]. exists 4%nat. split; [lia|]. assert (X : fs_score (v_stage a a h k) 4%nat = 1 / 2) by (cbn; lra). rewrite X. split; [lra|].
    unfold within. rewrite Rabs_right by lra. destruct k; lra.
Qed.
Lemma v_accepted a b z s cl ml_g ml_m fuzzy cutoff hp h k name : a = IZR z -> S_Data.constructed (v_frame a b) s -> M_Data.dd_roles s = v_roles cl -> rd_learners_ok (v_frame a b) s fuzzy ml_g ml_m -> level_number cutoff = Some a ->
  bandwidth_is 2 hp h -> 1 < h -> kernel_is v_id (KStr name) (kernel k) -> succeeds (v_init a b s ml_g ml_m fuzzy cutoff hp (KStr name)).
Proof.
  intros Ea Con Ro Lr Lv Bw Hh Ke. apply (rd_accepts v_learn v_bw v_robust v_id DFloat DFloat (fun _ => 0) g_id (v_frame a b) s Con). split; [exact Lr|]. exists (v_stage a a h k).
  split; [apply (v_setup a b z s cl); try assumption; lra|]. split; [apply v_foldable|]. exact (v_weighted a k h Hh).
Qed.
Lemma v_refused a b z s cl ml_g ml_m fuzzy cutoff hp h k name : a = IZR z -> S_Data.constructed (v_frame a b) s -> M_Data.dd_roles s = v_roles cl -> rd_learners_ok (v_frame a b) s fuzzy ml_g ml_m -> level_number cutoff = Some (a - 7 / 2) ->
  bandwidth_is 2 hp h -> kernel_is v_id (KStr name) (kernel k) ->
  rd_setup v_bw v_id (v_frame a b) s fuzzy cutoff (PInt 2) (PInt 1) hp (PStr "interacted cutoff and score") (KStr name) (v_stage a (a - 7 / 2) h k) /\
  (forall i, (i < 8)%nat -> 0 <= fs_score (v_stage a (a - 7 / 2) h k) i) /\
  v_init a b s ml_g ml_m fuzzy cutoff hp (KStr name) = Err ZeroDivisionError.
Proof.
  intros Ea Con Ro Lr Lv Bw Ke. assert (Su : rd_setup v_bw v_id (v_frame a b) s fuzzy cutoff (PInt 2) (PInt 1) hp (PStr "interacted cutoff and score") (KStr name) (v_stage a (a - 7 / 2) h k)) by (apply (v_setup a b z s cl); try assumption; lra).
  assert (Nn : forall i, (i < 8)%nat -> 0 <= fs_score (v_stage a (a - 7 / 2) h k) i) by (intros i _; cbn [v_stage fs_score]; rewrite v_score; pose proof (pos_INR i); lra).
  split; [exact Su|]. split; [exact Nn|]. exact (cutoff_at_end v_learn v_bw v_robust v_id DFloat DFloat (fun _ => 0) g_id (v_frame a b) s Con ml_g ml_m fuzzy cutoff (PInt 2) (PInt 1) hp _ _ _ Lr Su (or_introl Nn)).
Qed.
Lemma v_triangular : kernel_is v_id (KStr "triangular") (kernel Triangular).
Proof. right. exists "triangular". split; [reflexivity|]. right. left. split; reflexivity. Qed.
Lemma v_uniform : kernel_is v_id (KStr "uniform") (kernel Uniform).
Proof. right. exists "uniform". split; [reflexivity|]. left. split; reflexivity. Qed.

(** Shifted data. *)
Lemma v_shifted : exists s s', S_Data.constructed (v_frame 0 false) s /\ S_Data.constructed (v_frame 5 false) s' /\ M_Data.dd_roles s' = M_Data.dd_roles s /\
  (forall c', c' <> "s" -> M_Data.fcell (v_frame 5 false) c' = M_Data.fcell (v_frame 0 false) c') /\ (forall i, col (v_frame 5 false) "s" i = col (v_frame 0 false) "s" i + 5) /\
  v_init 5 false s' v_learner None false (PInt 5) (PFloat 2) (KStr "triangular") = v_init 0 false s v_learner None false (PInt 0) (PFloat 2) (KStr "triangular") /\
  succeeds (v_init 5 false s' v_learner None false (PInt 5) (PFloat 2) (KStr "triangular")).
Proof.
  destruct (v_exists 0 false None (or_introl eq_refl)) as (s & Con & Ro). destruct (v_exists 5 false None (or_introl eq_refl)) as (s' & Con' & Ro'). exists s, s'.
  assert (X1 : forall c', c' <> "s" -> M_Data.fcell (v_frame 5 false) c' = M_Data.fcell (v_frame 0 false) c').
  { intros c' N. apply functional_extensionality. intro i. cbn [M_Data.fcell v_frame]. unfold v_cell. apply String.eqb_neq in N. rewrite N. reflexivity. }
  assert (X2 : forall i, col (v_frame 5 false) "s" i = col (v_frame 0 false) "s" i + 5) by (intro i; rewrite !v_score; lra).
  split; [exact Con|]. split; [exact Con'|]. split; [congruence|]. split; [exact X1|]. split; [exact X2|]. split.
  - unfold v_init. apply (rd_shift v_learn v_bw v_robust v_id DFloat DFloat (fun _ => 0) g_id (v_frame 0 false) (v_frame 5 false) s s' "s" 5 (PInt 0) (PInt 5) 0); try assumption; try (rewrite Ro; reflexivity).
    + congruence.
    + exists "d". rewrite Ro. reflexivity.
    + reflexivity.
    + reflexivity.
    + cbn [level_number]. f_equal. lra.
    + apply (v_fraction 0 false 0); reflexivity.
    + apply (v_fraction 5 false 5); reflexivity.
  - apply (v_accepted 5 false 5 s' None _ _ _ _ _ 2 Triangular _ eq_refl Con' Ro' (v_learners _ _)); [reflexivity|right; reflexivity|lra|exact v_triangular].
Qed.
(** Reversed treatment. *)
Lemma first_reversed (v : vec) x : forall k i, first_row (fun j => 1 - v j) (1 - x) k i = first_row v x k i.
Proof.
  induction k as [|k IH]; intro i; cbn [first_row]; [reflexivity|]. rewrite IH. destruct (Req_EM_T (1 - v i) (1 - x)) as [E|E], (Req_EM_T (v i) x) as [F|F]; try reflexivity; exfalso; lra.
Qed.
Lemma codes_reversed v : value_codes (fun j => 1 - v j) = value_codes v.
Proof. apply functional_extensionality. intro i. unfold value_codes. f_equal. apply first_reversed. Qed.
Lemma d_reversed : v_d true = (fun j => 1 - v_d false j).
Proof. apply functional_extensionality. intro i. unfold v_d. destruct (Nat.ltb i 4); cbn; lra. Qed.
Lemma v_reversed : exists s s' o o' ws ws', S_Data.constructed (v_frame 0 false) s /\ S_Data.constructed (v_frame 0 true) s' /\ M_Data.dd_roles s' = M_Data.dd_roles s /\
  v_init 0 false s v_learner None false (PInt 0) (PFloat 2) (KStr "triangular") = Ok (o, ws) /\ v_init 0 true s' v_learner None false (PInt 0) (PFloat 2) (KStr "triangular") = Ok (o', ws') /\
  ro_smpls o = ro_smpls o' /\ ro_d o 0%nat = 0 /\ ro_d o' 0%nat = 1 /\ In LooksFuzzy ws'.
Proof.
  destruct (v_exists 0 false None (or_introl eq_refl)) as (s & Con & Ro). destruct (v_exists 0 true None (or_introl eq_refl)) as (s' & Con' & Ro').
  assert (A : succeeds (v_init 0 false s v_learner None false (PInt 0) (PFloat 2) (KStr "triangular"))) by (apply (v_accepted 0 false 0 s None _ _ _ _ _ 2 Triangular _ eq_refl Con Ro (v_learners _ _)); [reflexivity|right; reflexivity|lra|exact v_triangular]).
  assert (A' : succeeds (v_init 0 true s' v_learner None false (PInt 0) (PFloat 2) (KStr "triangular"))) by (apply (v_accepted 0 true 0 s' None _ _ _ _ _ 2 Triangular _ eq_refl Con' Ro' (v_learners _ _)); [reflexivity|right; reflexivity|lra|exact v_triangular]).
  destruct A as ((o & ws) & A). destruct A' as ((o' & ws') & A'). exists s, s', o, o', ws, ws'. split; [exact Con|]. split; [exact Con'|]. split; [congruence|]. split; [exact A|]. split; [exact A'|].
  unfold v_init in A, A'.
  destruct (rd_made v_learn v_bw v_robust v_id DFloat DFloat (fun _ => 0) g_id (v_frame 0 false) s Con _ _ _ _ _ _ _ _ _ _ _ v_shuffles A) as (a & Su & _ & _ & D & _).
  destruct (rd_made v_learn v_bw v_robust v_id DFloat DFloat (fun _ => 0) g_id (v_frame 0 true) s' Con' _ _ _ _ _ _ _ _ _ _ _ v_shuffles A') as (a' & Su' & _ & _ & D' & _ & _ & _ & _ & _ & _ & _ & _ & _ & _ & _ & _ & Lf & _).
  destruct Su as (v & c0 & (Rv & _ & Lv & _ & _ & (Bt & _) & _) & Sc & _). destruct Su' as (v' & c0' & (Rv' & _ & Lv' & _ & _ & (Bt' & _) & _) & Sc' & _).
  assert (Td : fs_treatment a = "d") by (rewrite Ro in Bt; cbn in Bt; congruence). assert (Td' : fs_treatment a' = "d") by (rewrite Ro' in Bt'; cbn in Bt'; congruence).
  apply rd_folds in A. apply rd_folds in A'.
  assert (E1 : M_Data.c_d s = "d") by (symmetry; exact (binary_active _ s Con "d" (v_binary 0 false s None Ro))). assert (E2 : M_Data.c_d s' = "d") by (symmetry; exact (binary_active _ s' Con' "d" (v_binary 0 true s' None Ro'))).
  split; [|split; [rewrite D, Td; reflexivity|split; [rewrite D', Td'; reflexivity|]]].
  - rewrite E1 in A. rewrite E2 in A'. change (col (v_frame 0 true) "d") with (v_d true) in A'. change (col (v_frame 0 false) "d") with (v_d false) in A. rewrite d_reversed, codes_reversed in A'.
    change (M_Data.frows (v_frame 0 true)) with (M_Data.frows (v_frame 0 false)) in A'. rewrite A in A'. apply ok_inj in A'. exact A'.
  - apply Lf. split; [reflexivity|]. exists 0%nat. split; [cbn; lia|]. rewrite Td'. change (col (v_frame 0 true) "d" 0%nat) with 1. destruct Rv' as (c & Rc & ->). rewrite Ro' in Rc. cbn in Rc. injection Rc as <-.
    rewrite Sc'. cbn in Lv'. injection Lv' as <-. rewrite v_score. cbn [INR]. destruct (Rle_dec 0 _) as [L|L]; [exfalso; lra|lra].
Qed.

(** Global learners. *)
Definition v_plain (e : r_memo) (p : bool) (train : list (list R * R)) (x : list R) : R := fold_right (fun t acc => snd t + acc) 0 train.
Lemma v_global : exists s o o' ws ws', S_Data.constructed (v_frame 0 false) s /\
  rd_init (global_rule v_plain) v_bw v_robust v_id DFloat DFloat (fun _ => 0) g_id (v_frame 0 false) s v_learner None false (PInt 0) (PInt 2) (PInt 1) (PFloat 2) (PStr "cutoff") (KStr "triangular") = Ok (o, ws) /\
  rd_init (global_rule v_plain) v_bw v_robust v_id DFloat DFloat (fun _ => 0) g_id (v_frame 0 false) s v_learner None false (PInt 0) (PInt 2) (PInt 1) PNone (PStr "cutoff") (KStr "uniform") = Ok (o', ws') /\
  weightless (ro_ml_g o) /\ ro_kernel o 1 2 <> ro_kernel o' 1 2.
Proof.
  destruct (v_exists 0 false None (or_introl eq_refl)) as (s & Con & Ro).
  assert (A : forall hp k name, bandwidth_is 2 hp 2 -> kernel_is v_id (KStr name) (kernel k) -> exists o ws, 
    rd_init (global_rule v_plain) v_bw v_robust v_id DFloat DFloat (fun _ => 0) g_id (v_frame 0 false) s v_learner None false (PInt 0) (PInt 2) (PInt 1) hp (PStr "cutoff") (KStr name) = Ok (o, ws)).
  { intros hp k name Bw Ke. set (a := {| fs_score := fun i => col (v_frame 0 false) "s" i - 0; fs_h := 2; fs_spec_of := CutoffOnly; fs_kern := kernel k; fs_treatment := "d" |}).
    enough (X : succeeds (rd_init (global_rule v_plain) v_bw v_robust v_id DFloat DFloat (fun _ => 0) g_id (v_frame 0 false) s v_learner None false (PInt 0) (PInt 2) (PInt 1) hp (PStr "cutoff") (KStr name))) by (destruct X as ((o & ws) & X); eauto).
    apply (rd_accepts (global_rule v_plain) v_bw v_robust v_id DFloat DFloat (fun _ => 0) g_id (v_frame 0 false) s Con). split; [apply v_learners|]. exists a.
    split; [|split; [apply v_foldable|exact (v_weighted 0 k 2 ltac:(lra))]].
    destruct (v_setup 0 false 0 s None false (PInt 0) 0 2 hp k name eq_refl Ro eq_refl ltac:(lra) Bw Ke) as (v & c0 & D & Sc & R1 & R2 & R3 & R4 & B & _ & K).
    exists v, c0. split; [exact D|]. split; [exact Sc|]. split; [exact R1|]. split; [exact R2|]. split; [exact R3|]. split; [exact R4|]. split; [exact B|]. split; [left; split; reflexivity|exact K]. }
  destruct (A (PFloat 2) Triangular "triangular" (or_intror eq_refl) v_triangular) as (o & ws & E1). destruct (A PNone Uniform "uniform" (or_introl (conj eq_refl eq_refl)) v_uniform) as (o' & ws' & E2).
  exists s, o, o', ws, ws'. split; [exact Con|]. split; [exact E1|]. split; [exact E2|].
  destruct (rd_made _ v_bw v_robust v_id DFloat DFloat (fun _ => 0) g_id (v_frame 0 false) s Con _ _ _ _ _ _ _ _ _ _ _ v_shuffles E1) as (a & Su & _ & _ & _ & _ & _ & _ & _ & K1 & _ & _ & _ & _ & G1 & _).
  destruct (rd_made _ v_bw v_robust v_id DFloat DFloat (fun _ => 0) g_id (v_frame 0 false) s Con _ _ _ _ _ _ _ _ _ _ _ v_shuffles E2) as (a' & Su' & _ & _ & _ & _ & _ & _ & _ & K2 & _).
  split; [rewrite G1; unfold fitted_rule; apply global_weightless|]. rewrite K1, K2.
  destruct Su as (_ & _ & _ & _ & _ & _ & _ & _ & _ & _ & Ke). destruct Su' as (_ & _ & _ & _ & _ & _ & _ & _ & _ & _ & Ke').
  destruct Ke as [Q|(nm & Q & [(Q1 & _)|[(_ & ->)|(Q1 & _)]])]; [discriminate Q|injection Q as <-; discriminate Q1| |injection Q as <-; discriminate Q1].
  destruct Ke' as [Q'|(nm' & Q' & [(_ & ->)|[(Q1 & _)|(Q1 & _)]])]; [discriminate Q'| |injection Q' as <-; discriminate Q1|injection Q' as <-; discriminate Q1].
  cbn [kernel]. rewrite (Rabs_right 1) by lra. rewrite Rmax_right by lra. unfold rleb. destruct (Rle_dec 1 2); lra.
Qed.
(** The learner of the other cases uses the weights. *)
Lemma v_uses_weights : ~ weightless (v_learn [] false).
Proof.
  intro H. pose proof (f_equal (fun l => l []) (H [([], 1, 0)] [([], 1, 1)] eq_refl)) as Q. unfold v_learn in Q. cbn [fold_right fst snd] in Q. lra.
Qed.

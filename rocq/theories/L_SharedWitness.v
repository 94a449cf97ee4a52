(** Shared data objects: examples and counterexamples. *)
From Verif Require Export L_SharedMore L_AloneWitness.
From Verif Require Import L_DataOps L_DataProps L_Data L_InitMade L_InitArgs L_Init L_InitAccept L_InitFit L_EqualWitness L_AloneWitness.
From Coq Require Import Lia Lra.
Local Open Scope R_scope.
Local Open Scope string_scope.

Lemma run_app {P} (C : ctx P) a b w : run C (a ++ b)%list w = run C b (run C a w).
Proof. revert w. induction a as [|o a IH]; intro w; [reflexivity|apply IH]. Qed.
Lemma outcomes_app {P} (C : ctx P) a b w : outcomes C (a ++ b)%list w = (outcomes C a w ++ outcomes C b (run C a w))%list.
Proof. revert w. induction a as [|o a IH]; intro w; [reflexivity|]. cbn [outcomes app run]. now rewrite IH. Qed.
Lemma own_app {P} i (a b : list (shared_op P)) : own_calls i (a ++ b)%list = (own_calls i a ++ own_calls i b)%list.
Proof. induction a as [|[v|j o] a IH]; cbn [app own_calls]; [reflexivity|exact IH|]. destruct (Nat.eqb j i); cbn [app]; now rewrite IH. Qed.
Lemma own_self {P} i (l : list (op P)) : own_calls i (map (Call i) l) = l.
Proof. induction l as [|o l IH]; cbn [map own_calls]; [reflexivity|]. rewrite Nat.eqb_refl. now rewrite IH. Qed.
Lemma own_other {P} i j (l : list (op P)) : j <> i -> own_calls i (map (Call j) l) = [].
Proof. intro N. induction l as [|o l IH]; cbn [map own_calls]; [reflexivity|]. apply Nat.eqb_neq in N. now rewrite N. Qed.

(** Two DoubleMLPLR objects for the treatments d and e of one data object, set up and fitted in turn. *)
Definition a_fit : op unit := OFit PNone (PBool true) ExtNone (PBool false).
Definition shared_case : Prop := exists s C C' mc mc' iv iv' w0 w0' ops s' wa wb log, let K := live_plr h_learner mc h_frame iv in let K' := live_plr h_learner mc' h_frame iv' in
  h_data both_roles s /\ M_Data.c_d s = "d" /\ a_plr s = Ok (C, w0) /\ a_plr s = Ok (C', w0') /\ follows s C K /\ follows s C' K' /\ switchable h_frame s /\
  In (Call 0 a_fit) ops /\ In (Call 1 a_fit) ops /\ In (UserSet (M_Data.SetXD (M_Data.CStr "d"))) ops /\
  shared_run h_frame [K; K'] ops (s, [w0; w0']) = ((s', [wa; wb]), log) /\
  wa = run C (own_calls 0 ops) w0 /\ wb = run C' (own_calls 1 ops) w0' /\ last (own_results 0 log) (Err RuntimeError) = Ok tt /\ last (own_results 1 log) (Err RuntimeError) = Ok tt.
Lemma a_exists_d : exists s, h_data both_roles s /\ M_Data.c_d s = "d".
Proof.
  destruct (L_DataWitness.construct_of h_frame both_roles true M_Data.Strict) as (s & K & R & O & _ & D); [|exists s; split; [split; auto|exact D]].
  assert (N : forall c, S_Data.number_column h_frame c) by (intros c i _; cbn; eexists; reflexivity).
  split; [apply L_Data.distinct_iff; reflexivity|]. split; [i_wf|]. split; [discriminate|]. split; intros c _; [|apply number_allowed]; apply N.
Qed.
Lemma shared_holds : shared_case.
Proof.
  destruct a_exists_d as (s & D & Ad). pose proof D as (Con & Ro & Ot). pose proof (S_Data.R_new _ _ Con) as Re.
  destruct (a_runs both_roles s) as (C & w0 & w & w1 & E & (l & Gl & El) & K & Np & Ff); [auto|exact D|].
  destruct (plr_follows h_learner i_rd h_frame s Re reg cls None (PInt 2) (PInt 1) (PStr "partialling out") (PBool false) C w0 E) as (mc & iv & Fo). set (Kx := live_plr h_learner mc h_frame iv) in *.
  assert (Sw : switchable h_frame s) by (apply kept_switchable, Kt_new, Con).
  set (ops := (map (Call 0) l ++ map (Call 1) l ++ [Call 0 a_fit; UserSet (M_Data.SetXD (M_Data.CStr "d")); Call 1 a_fit])%list).
  assert (Oa : only_activations ops). { intros o Ho. unfold ops in Ho. rewrite !in_app_iff in Ho. destruct Ho as [Ho|[Ho|Ho]]; [apply in_map_iff in Ho as (? & Q & _); discriminate|apply in_map_iff in Ho as (? & Q & _); discriminate|]. cbn in Ho. destruct Ho as [Q|[Q|[Q|[]]]]; try discriminate Q. injection Q as <-. eauto. }
  destruct (shared_alone h_frame [Kx; Kx] [C; C] s Sw (Forall2_cons _ _ Fo (Forall2_cons _ _ Fo (Forall2_nil _))) ops s [w0; w0] Oa (reached_active h_frame s Re) eq_refl) as (s' & ws & log & R & As & Len & H).
  destruct ws as [|wa [|wb [|wc ws]]]; try discriminate Len. destruct (H 0%nat C w0 eq_refl eq_refl) as (H0 & H0'). destruct (H 1%nat C w0 eq_refl eq_refl) as (H1 & H1').
  assert (O0 : own_calls 0 ops = (l ++ [a_fit])%list) by (unfold ops; rewrite !own_app, own_self, own_other by discriminate; reflexivity).
  assert (O1 : own_calls 1 ops = (l ++ [a_fit])%list) by (unfold ops; rewrite !own_app, own_self, own_other by discriminate; reflexivity).
  assert (Oc : outcomes C (l ++ [a_fit])%list w0 = (outcomes C l w0 ++ [Ok tt])%list) by (rewrite outcomes_app, <- El; cbn [outcomes run_op a_fit]; unfold a_fit; cbn [run_op]; rewrite Ff; reflexivity).
  exists s, C, C, mc, mc, iv, iv, w0, w0, ops, s', wa, wb, log. cbv zeta. fold Kx. injection H0 as H0. injection H1 as H1. rewrite O0 in H0'. rewrite O1 in H1'. rewrite Oc in H0', H1'.
  split; [exact D|]. split; [exact Ad|]. split; [exact E|]. split; [exact E|]. split; [exact Fo|]. split; [exact Fo|]. split; [exact Sw|].
  split; [unfold ops; rewrite !in_app_iff; cbn; tauto|]. split; [unfold ops; rewrite !in_app_iff; cbn; tauto|]. split; [unfold ops; rewrite !in_app_iff; cbn; tauto|].
  split; [exact R|]. split; [exact H0|]. split; [exact H1|]. rewrite H0', H1', !last_last. auto.
Qed.
(** A fit changes the arrays of the data object. *)
Lemma fit_changes_data : exists f s C mc iv w0 w s' w', let K := live_plr h_learner mc f iv in
  S_Data.constructed f s /\ plr_init h_learner i_rd f s reg cls None (PInt 2) (PInt 1) (PStr "partialling out") (PBool false) = Ok (C, w0) /\ follows s C K /\ later C w0 w /\
  live_fit f K PNone (PBool true) ExtNone (PBool false) (s, w) = ((s', w'), Ok tt) /\ M_Data.c_d s = "d" /\ M_Data.c_x s = ["x"; "e"] /\ M_Data.c_d s' = "e" /\ M_Data.c_x s' = ["x"; "d"].
Proof.
  destruct a_exists_d as (s & D & Ad). pose proof D as (Con & Ro & Ot). pose proof (S_Data.R_new _ _ Con) as Re.
  destruct (a_runs both_roles s) as (C & w0 & w & w1 & E & La & K & Np & Ff); [auto|exact D|].
  destruct (plr_follows h_learner i_rd h_frame s Re reg cls None (PInt 2) (PInt 1) (PStr "partialling out") (PBool false) C w0 E) as (mc & iv & Fo). set (Kx := live_plr h_learner mc h_frame iv) in *.
  assert (Sw : switchable h_frame s) by (apply kept_switchable, Kt_new, Con).
  destruct (matches_fit h_frame s C Kx Sw Fo PNone (PBool true) ExtNone (PBool false) s w (reached_active h_frame s Re)) as (s' & As & Hl). rewrite Ff in Hl. cbn [fst snd] in Hl.
  assert (Nr : (0 < m_n_rep (w_obj w))%nat). { destruct (plr_made h_learner i_rd h_frame s Re i_sound reg cls None (PInt 2) (PInt 1) "partialling out" (PBool false) C w0 E) as (mc1 & bin & Ec & Sr & _). exact (wf_rep _ _ (reachable_wf _ _ (reached_reachable _ _ (reached_later _ _ _ Sr La)))). }
  destruct (fit_active h_frame Kx PNone (PBool true) ExtNone (PBool false) s w s' w1 Nr Hl) as (_ & Q). rewrite Ro in Q. destruct (Q ltac:(cbn; lia)) as (_ & Q'). cbn [last] in Q'.
  exists h_frame, s, C, mc, iv, w0, w, s', w1. cbv zeta. fold Kx. split; [exact Con|]. split; [exact E|]. split; [exact Fo|]. split; [exact La|]. split; [exact Hl|]. split; [exact Ad|].
  split; [rewrite (proj1 (features_reachable _ _ Re)), Ro, Ot, Ad; reflexivity|]. rewrite Q'. split; [reflexivity|]. cbn. unfold M_Data.xd_list. rewrite Ro, Ot. reflexivity.
Qed.
(** Treatments assigned later: accepted, but never fitted. *)
Definition n_cell (c : string) (i : nat) : M_Data.cell := if String.eqb c "e" then match i with O => M_Data.NaN | _ => M_Data.Num 1 end else M_Data.Num (INR i).
Definition n_frame : M_Data.frame := M_Data.mk_frame ["y"; "d"; "x"; "e"] 10 n_cell.
Lemma reassigned_never_fits : exists f s C mc iv w0, let K := live_plr h_learner mc f iv in S_Data.reachable f s /\ M_Data.r_d (M_Data.dd_roles s) = ["d"; "e"] /\
  plr_init h_learner i_rd f s reg reg None (PInt 2) (PInt 1) (PStr "partialling out") (PBool false) = Ok (C, w0) /\ follows s C K /\
  forall w nj st ext sm s' w', later C w0 w -> live_fit f K nj st ext sm (s, w) <> ((s', w'), Ok tt).
Proof.
  destruct (L_DataWitness.construct_of n_frame (i_roles ["d"] None None None None) false M_Data.Strict) as (s0 & K0 & R0 & O0 & F0 & D0).
  { assert (N : forall c, c <> "e" -> S_Data.number_column n_frame c) by (intros c Nc i _; cbn; unfold n_cell; apply String.eqb_neq in Nc; rewrite Nc; eexists; reflexivity).
    split; [apply L_Data.distinct_iff; reflexivity|]. split; [i_wf|]. split; [discriminate|]. split; intros c Hc; [|apply number_allowed]; apply N; cbn in Hc; repeat (destruct Hc as [<-|Hc]; [discriminate|]); destruct Hc. }
  assert (A : exists s, M_Data.assign n_frame s0 (M_Data.SetD (M_Data.CList ["d"; "e"])) = (s, None) /\ M_Data.r_d (M_Data.dd_roles s) = ["d"; "e"] /\ M_Data.r_cl (M_Data.dd_roles s) = None /\ M_Data.r_z (M_Data.dd_roles s) = None).
  { destruct s0 as [r ot fo bt by_ cy cz ct cs cd cx ccl]. cbn in R0, O0, F0, D0. subst. eexists. split; [cbn; reflexivity|]. repeat split. }
  destruct A as (s & A & Rd & Rc & Rz). assert (Re : S_Data.reachable n_frame s) by exact (S_Data.R_set _ _ _ _ (S_Data.R_new _ _ K0) A).
  assert (X : exists C w0, plr_init h_learner i_rd n_frame s reg reg None (PInt 2) (PInt 1) (PStr "partialling out") (PBool false) = Ok (C, w0)).
  { assert (Bn : succeeds (@base_new unit i_rd n_frame s (PInt 2) (PInt 1) (PBool false))). { apply base_new_args; [destruct (arrays_reachable _ _ Re) as (_ & _ & _ & _ & Ecl & _); rewrite Ecl; exact Rc|apply h_split]. }
    destruct Bn as (w & Bn). unfold plr_init. rewrite Bn. cbn [bind]. rewrite Rz. cbn. do 2 eexists. reflexivity. }
  destruct X as (C & w0 & E). destruct (plr_follows h_learner i_rd n_frame s Re _ _ _ _ _ _ _ _ _ E) as (mc & iv & Fo). exists n_frame, s, C, mc, iv, w0. cbv zeta.
  split; [exact Re|]. split; [exact Rd|]. split; [exact E|]. split; [exact Fo|]. intros w nj st ext sm s' w' La H.
  assert (Nr : (0 < m_n_rep (w_obj w))%nat). { destruct (plr_made h_learner i_rd n_frame s Re i_sound _ _ _ _ _ _ _ _ _ E) as (mc1 & bin & Ec & Sr & _). exact (wf_rep _ _ (reachable_wf _ _ (reached_reachable _ _ (reached_later _ _ _ Sr La)))). }
  destruct (fit_active n_frame _ nj st ext sm s w s' w' Nr H) as (_ & Q). rewrite Rd in Q. destruct (Q ltac:(cbn; lia)) as (Q1 & _).
  assert (Sw : switchable n_frame s) by (intros c Hc; rewrite Rd in Hc; exact (Q1 c Hc)). apply (switchable_iff n_frame s Re) with (c := "e") in Sw; [|rewrite Rd; cbn; auto]. destruct (Sw 0%nat) as (v & Z); [cbn; lia|]. discriminate Z.
Qed.
(** The strata of DoubleMLSSM depend on the treatment that is active. *)
Definition sel_roles : M_Data.roles := M_Data.mk_roles "y" ["d"; "x"] ["e"] None None (Some "z") None.
Lemma strata_depend : exists f s s' C C' w0 v v', S_Data.constructed f s /\ M_Data.assign f s (M_Data.SetXD (M_Data.CStr "x")) = (s', None) /\
  ssm_init h_learner i_rd f s (fun _ _ => w_tts) reg cls cls (PInt 2) (PInt 1) (PStr "missing-at-random") (PBool false) (PStr "truncate") (PFloat (1 / 100)) (PBool false) = Ok (C, w0) /\
  ssm_init h_learner i_rd f s' (fun _ _ => w_tts) reg cls cls (PInt 2) (PInt 1) (PStr "missing-at-random") (PBool false) (PStr "truncate") (PFloat (1 / 100)) (PBool false) = Ok (C', w0) /\
  c_strata C = Some v /\ c_strata C' = Some v' /\ v 0%nat = v 2%nat /\ v' 0%nat <> v' 2%nat.
Proof.
  assert (N : forall c, S_Data.number_column h_frame c) by (intros c i _; cbn; eexists; reflexivity).
  destruct (L_DataWitness.construct_of h_frame sel_roles true M_Data.Strict) as (s & Con & Ro & Ot & Fo & D).
  { split; [apply L_Data.distinct_iff; reflexivity|]. split; [i_wf|]. split; [discriminate|]. split; intros c _; [|apply number_allowed]; apply N. }
  pose proof (S_Data.R_new _ _ Con) as Re. assert (Un : unclustered s) by (unfold unclustered; rewrite Ro; reflexivity).
  destruct (activate_ok h_frame s "x" Re) as (s' & A & D' & _); [rewrite Ro; cbn; auto|apply N|intros c _; apply number_allowed, N|].
  assert (Ac : activated s s'). { cbn [M_Data.assign] in A. destruct (set_xd_cases _ _ _ _ _ A) as [(_ & I & ->)|(Q & _)]; [exists "x"; auto|congruence]. }
  destruct (proj2 (ssm_accepts h_learner i_rd h_frame s Con Un (fun _ _ => w_tts) reg cls cls (PInt 2) (PInt 1) (PStr "missing-at-random") (PBool false) (PStr "truncate") (PFloat (1 / 100)) (PBool false))) as ((C & w0) & E).
  { split; [exists "z"; split; [rewrite Ro; reflexivity|split; [discriminate|apply h_split]]|]. split; [left; reflexivity|]. split; [apply reg_outcome|]. split; [exact cls_proba|]. split; [exact cls_proba|]. split; [apply i_bool|exact i_trim]. }
  destruct (ssm_strata h_learner i_rd h_frame s s' _ _ _ _ _ _ _ _ _ _ _ _ Ac E) as (selc & C' & Es & E' & S1 & S2). rewrite (proj1 (proj2 (proj2 (proj2 (arrays_reachable _ _ Re))))), Ro in Es. injection Es as <-. rewrite D in S1. rewrite D' in S2. cbn [hd M_Data.r_d sel_roles] in S1.
  exists h_frame, s, s', C, C', w0. do 2 eexists. split; [exact Con|]. split; [exact A|]. split; [exact E|]. split; [exact E'|]. split; [exact S1|]. split; [exact S2|].
  split; [apply value_codes_eq; reflexivity|]. intro Q. apply value_codes_eq in Q. change (INR 0 + 2 * h_d 0 = INR 2 + 2 * h_d 2) in Q. cbn in Q. lra.
Qed.

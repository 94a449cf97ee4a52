(** Covariates changed after the creation: example and counterexample. *)
From Verif Require Export L_SharedX L_SharedWitness.
From Verif Require Import L_DataOps L_DataProps L_Data L_InitMade L_InitArgs L_Init L_InitAccept L_InitFit L_EqualWitness L_AloneWitness.
From Coq Require Import Lia Lra.
Local Open Scope R_scope.
Local Open Scope string_scope.

Lemma own_exists : exists s, h_data own_roles s /\ M_Data.c_d s = "e" /\ M_Data.c_x s = ["x"; "d"] /\ M_Data.dd_force s = M_Data.Strict /\ M_Data.c_y s = "y" /\ M_Data.c_z s = None /\ M_Data.c_t s = None /\ M_Data.c_s s = None /\ M_Data.c_cl s = None.
Proof.
  destruct (L_DataWitness.construct_of h_frame own_roles true M_Data.Strict) as (s & K & R & O & Fo & D).
  { assert (N : forall c, S_Data.number_column h_frame c) by (intros c i _; cbn; eexists; reflexivity).
    split; [apply L_Data.distinct_iff; reflexivity|]. split; [i_wf|]. split; [discriminate|]. split; intros c _; [|apply number_allowed]; apply N. }
  exists s. split; [split; auto|]. split; [exact D|]. pose proof (reachable_inv _ _ (S_Data.R_new _ _ K)) as [_ _ (Y & Z & Tc & Sc & Cl & _) X _ _ _ _]. rewrite R in *. split; [rewrite X; unfold M_Data.xd_list; rewrite R, O, D; reflexivity|]. split; [exact Fo|]. repeat split; assumption.
Qed.
(** Created with the covariate x; then d is added to the covariates; then fitted. *)
Definition moved_case : Prop := exists s s' C w0 mc iv ops s'' w' log, let K := live_plr h_learner mc h_frame iv in
  S_Data.reachable h_frame s /\ switchable h_frame s /\ M_Data.r_x (M_Data.dd_roles s) = ["x"] /\ a_plr s = Ok (C, w0) /\ keeps_up h_frame s a_plr K w0 /\
  M_Data.assign h_frame s (M_Data.SetX (M_Data.CList ["x"; "d"])) = (s', None) /\ covariates_only h_frame (UserSet (M_Data.SetX (M_Data.CList ["x"; "d"])) :: ops ++ [Call 0 a_fit])%list s /\
  shared_run h_frame [K] (UserSet (M_Data.SetX (M_Data.CList ["x"; "d"])) :: ops ++ [Call 0 a_fit])%list (s, [w0]) = ((s'', [w']), log) /\
  M_Data.c_x s'' = ["x"; "d"] /\ last (own_results 0 log) (Err RuntimeError) = Ok tt.
Lemma recreated_calls {P} f (m : M_Data.ddata -> result (ctx P * world P)) C w0 s l : m s = Ok (C, w0) -> forall w, recreated f m 0 (map (Call 0) l) s w = (run C l w, outcomes C l w).
Proof. intro E. induction l as [|o l IH]; intro w; cbn [map recreated]; [reflexivity|]. cbn [Nat.eqb]. rewrite E. destruct (run_op C o w) as (w', e) eqn:R. rewrite IH. cbn [run outcomes]. rewrite R. reflexivity. Qed.
Lemma calls_only {P} f (l : list (op P)) s : covariates_only f (map (Call 0) l) s.
Proof. induction l as [|o l IH]; [exact Logic.I|exact IH]. Qed.
Lemma moved_holds : moved_case.
Proof.
  destruct own_exists as (s2 & D & Fd). pose proof D as (Con & Ro & Ot). pose proof (S_Data.R_new _ _ Con) as R2.
  destruct (a_runs own_roles s2) as (C2 & w0 & w & w1 & E2 & (l & Gl & El) & K2 & Np & Ff); [auto|exact D|].
  destruct (plr_moves h_learner i_rd h_frame s2 reg cls None (PInt 2) (PInt 1) (PStr "partialling out") (PBool false) C2 w0 E2) as (mc2 & iv2 & Ku2).
  assert (A : exists s1, M_Data.assign h_frame s2 (M_Data.SetX (M_Data.CStr "x")) = (s1, None) /\ M_Data.r_x (M_Data.dd_roles s1) = ["x"] /\ M_Data.assign h_frame s1 (M_Data.SetX (M_Data.CList ["x"; "d"])) = (s2, None)).
  { destruct Fd as (Fd & Fx & Ff' & Fy & Fz & Ft & Fs & Fc). destruct s2 as [r ot fo bt by_ cy cz ct cs cd cx ccl]. cbn in Ro, Ot, Fd, Fx, Ff', Fy, Fz, Ft, Fs, Fc. subst. eexists. split; [cbn; reflexivity|]. split; [reflexivity|]. cbn. reflexivity. }
  destruct A as (s1 & A1 & X1 & A2). assert (R1 : S_Data.reachable h_frame s1) by exact (S_Data.R_set _ _ _ _ R2 A1).
  destruct (cov_assign h_frame s2 (M_Data.SetX (M_Data.CStr "x")) s1 Logic.I A1) as (S21 & _). destruct (Ku2 s1 R1 S21) as (C1 & E1 & _).
  destruct (plr_moves h_learner i_rd h_frame s1 reg cls None (PInt 2) (PInt 1) (PStr "partialling out") (PBool false) C1 w0 E1) as (mc & iv & Ku).
  assert (U1 : switchable h_frame s1). { apply (switchable_cov h_frame s2 s1 R2 R1); [apply kept_switchable, Kt_new, Con|exact S21]. }
  set (hist := (UserSet (M_Data.SetX (M_Data.CList ["x"; "d"])) :: map (Call 0) l ++ [Call 0 a_fit])%list).
  assert (Eh : (map (Call 0) l ++ [Call 0 a_fit])%list = map (Call 0) (l ++ [a_fit])%list) by (rewrite map_app; reflexivity).
  assert (Oc : covariates_only h_frame hist s1). { unfold hist. cbn [covariates_only]. split; [rewrite A2; reflexivity|]. rewrite Eh. apply calls_only. }
  destruct (shared_recreated h_frame [live_plr h_learner mc h_frame iv] [a_plr] s1 R1 U1 ltac:(constructor; [exists w0; exact Ku|constructor]) hist s1 s1 [w0] R1 (cov_refl _ _ R1) (reached_active _ _ R1) Oc eq_refl) as (s'' & ws & log & Rn & Len & H).
  destruct ws as [|w' [|? ?]]; try discriminate Len. destruct (H 0%nat a_plr w0 eq_refl eq_refl) as (_ & H2).
  assert (Rc : recreated h_frame a_plr 0 hist s1 w0 = (run C2 (l ++ [a_fit])%list w0, outcomes C2 (l ++ [a_fit])%list w0)). { unfold hist. cbn [recreated]. rewrite A2. cbn [fst]. rewrite Eh. exact (recreated_calls h_frame a_plr C2 w0 s2 _ E2 w0). }
  assert (Cx : M_Data.c_x s'' = ["x"; "d"]).
  { assert (Sw2 : switchable h_frame s2) by (apply kept_switchable, Kt_new, Con).
    destruct (Ku s2 R2) as (Cx & Ex & Fx). { exact (proj1 (cov_assign h_frame s1 (M_Data.SetX (M_Data.CList ["x"; "d"])) s2 Logic.I A2)). }
    destruct (shared_alone h_frame [live_plr h_learner mc h_frame iv] [Cx] s2 Sw2 (Forall2_cons _ _ Fx (Forall2_nil _)) (map (Call 0) l ++ [Call 0 a_fit])%list s2 [w0]) as (s3 & ws3 & log3 & Rn3 & A3 & _); [intros o Ho; rewrite Eh in Ho; apply in_map_iff in Ho as (? & Q & _); discriminate|exact (reached_active _ _ R2)|reflexivity|].
    unfold hist in Rn. cbn [shared_run shared_step fst snd] in Rn. rewrite A2 in Rn. cbn [fst] in Rn. rewrite Rn3 in Rn. injection Rn as <- _ _. destruct A3 as (c & I & ->). rewrite Ro in I. destruct I as [<-|[]]. cbn. unfold M_Data.xd_list. rewrite Ro, Ot. reflexivity. }
  exists s1, s2, C1, w0, mc, iv, (map (Call 0) l), s'', w', log. cbv zeta. split; [exact R1|]. split; [exact U1|]. split; [exact X1|]. split; [exact E1|]. split; [exact Ku|]. split; [exact A2|]. split; [exact Oc|]. split; [exact Rn|]. split; [exact Cx|].
  rewrite H2, Rc. cbn [snd]. rewrite outcomes_app, <- El. cbn [outcomes]. unfold a_fit. cbn [run_op]. rewrite Ff. cbn [snd]. apply last_last.
Qed.
(** The checks of the constructor are not repeated: instruments assigned later. *)
Lemma checks_not_repeated : exists f s s' C mc iv w0 w, let K := live_plr h_learner mc f iv in
  S_Data.constructed f s /\ plr_init h_learner i_rd f s reg cls None (PInt 2) (PInt 1) (PStr "partialling out") (PBool false) = Ok (C, w0) /\ follows s C K /\ later C w0 w /\
  M_Data.assign f s (M_Data.SetZ (M_Data.CStr "z")) = (s', None) /\ plr_init h_learner i_rd f s' reg cls None (PInt 2) (PInt 1) (PStr "partialling out") (PBool false) = Err ValueError /\
  snd (live_fit f K PNone (PBool true) ExtNone (PBool false) (s', w)) = Ok tt.
Proof.
  destruct own_exists as (s & D & Fd). pose proof D as (Con & Ro & Ot). pose proof (S_Data.R_new _ _ Con) as Re.
  destruct (a_runs own_roles s) as (C & w0 & w & w1 & E & La & K & Np & Ff); [auto|exact D|].
  destruct (plr_follows h_learner i_rd h_frame s Re reg cls None (PInt 2) (PInt 1) (PStr "partialling out") (PBool false) C w0 E) as (mc & iv & Fo).
  set (s' := M_Data.mk_dd (M_Data.mk_roles "y" ["e"] ["x"; "d"] (Some ["z"]) None None None) (M_Data.dd_other s) (M_Data.dd_force s) (M_Data.dd_bt s) (M_Data.dd_by s) (M_Data.c_y s) (Some ["z"]) (M_Data.c_t s) (M_Data.c_s s) (M_Data.c_d s) (M_Data.c_x s) (M_Data.c_cl s)).
  assert (A : M_Data.assign h_frame s (M_Data.SetZ (M_Data.CStr "z")) = (s', None)).
  { unfold s'. destruct Fd as (Fd & Fx & Ff' & Fy & Fz & Ft & Fs & Fc). clear - Fd Fx Ff' Fy Fz Ft Fs Fc Ro Ot. destruct s as [r ot fo bt by_ cy cz ct cs cd cx ccl]. cbn in Ro, Ot, Fd, Fx, Ff', Fy, Fz, Ft, Fs, Fc. subst. cbn. reflexivity. }
  assert (Re' : S_Data.reachable h_frame s') by exact (S_Data.R_set _ _ _ _ Re A).
  assert (Sw : switchable h_frame s') by (apply kept_switchable; exact (Kt_set _ _ _ _ (Kt_new _ _ Con) A eq_refl)).
  assert (Fo' : follows s' C (live_plr h_learner mc h_frame iv)).
  { destruct Fo as (F1 & F2). rewrite Ro in F1, F2. split; [exact F1|]. intros sx (c & I & ->). assert (Ex : M_Data.xd_list s' c = M_Data.xd_list s c) by (unfold M_Data.xd_list; rewrite Ro; reflexivity).
    assert (Ek : live_plr h_learner mc h_frame iv (M_Data.with_xd s' c (M_Data.xd_list s' c)) = live_plr h_learner mc h_frame iv (M_Data.with_xd s c (M_Data.xd_list s c))) by (rewrite Ex; unfold live_plr, with_clusters; cbn; rewrite Ro; reflexivity).
    rewrite Ek. assert (As : activated s (M_Data.with_xd s c (M_Data.xd_list s c))) by (exists c; rewrite Ro; auto). destruct (F2 _ As) as (G1 & G2). split; [exact G1|]. intros t c' Hc Hd. exact (G2 t c' Hc Hd). }
  destruct (matches_fit h_frame s' C _ Sw Fo' PNone (PBool true) ExtNone (PBool false) s' w (reached_active h_frame s' Re')) as (s3 & As & Hl). rewrite Ff in Hl. cbn [fst snd] in Hl.
  exists h_frame, s, s', C, mc, iv, w0, w. cbv zeta. split; [exact Con|]. split; [exact E|]. split; [exact Fo|]. split; [exact La|]. split; [exact A|]. split; [|rewrite Hl; reflexivity].
  assert (Bn : succeeds (@base_new unit i_rd h_frame s' (PInt 2) (PInt 1) (PBool false))) by (apply base_new_args; [exact (proj2 (proj2 (proj2 (proj2 (proj2 (proj2 (proj2 Fd)))))))|apply h_split]).
  destruct Bn as (w9 & Bn). unfold plr_init. rewrite Bn. reflexivity.
Qed.

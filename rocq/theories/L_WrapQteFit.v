(** DoubleMLQTE objects: what a fit reports. *)
From Verif Require Import L_DataProps L_ModelProps L_ModelInv L_Framework L_Contrast.
From Verif Require Export L_WrapQte.
From Coq Require Import Lia Lra Permutation.
Local Open Scope R_scope.
Local Open Scope res_scope.
Local Open Scope string_scope.

Section Fit.
Context {E P : Type}.
Variable L : learner E row P.
Variable rd : randomness.
Variable f : M_Data.frame.
Variable s : M_Data.ddata.
Variable sv : solvers.
Hypothesis Con : S_Data.constructed f s.
Hypothesis Un : unclustered s.
Hypothesis Rd : sound_randomness rd.
Let n := M_Data.frows f.
Hypothesis Hn : (0 < n)%nat.
Let Re := S_Data.R_new f s Con.

Lemma effects_all (l : list (@qsub P * @qsub P)) : forall fs, Forall2 (fun p g => qsub_fw (fst p) = Some (fst g) /\ qsub_fw (snd p) = Some (snd g)) l fs -> effects l = qte_combine (interleave fs).
Proof.
  assert (X : forall fs, Forall2 (fun p g => qsub_fw (fst p) = Some (fst g) /\ qsub_fw (snd p) = Some (snd g)) l fs -> map_res pair_effect l = qte_differences (interleave fs)).
  { induction l as [|p l IH]; intros fs H; inversion H as [|? (g0, g1) ? fs' (A & B) H']; subst; [reflexivity|]. cbn [map_res interleave qte_differences]. unfold pair_effect at 1. cbn [fst snd] in A, B. rewrite A, B, (IH _ H'). reflexivity. }
  intros fs H. unfold effects, qte_combine. rewrite (X _ H). reflexivity.
Qed.
Lemma interleave_in {A} (fs : list (A * A)) x : In x (interleave fs) -> exists p, In p fs /\ (x = fst p \/ x = snd p).
Proof. induction fs as [|(a, b) fs IH]; [intros []|]. cbn [interleave]. intros [<-|[<-|H]]; [exists (a, b); cbn; auto..|]. destruct (IH H) as (p & Hp & Q). exists p. cbn; auto. Qed.
Lemma pair_fit_inv nj st md (p p' : @qsub P * @qsub P) : pair_fit sv nj st md p = (p', Ok tt) -> qsub_fit sv nj st md (fst p) = (fst p', Ok tt) /\ qsub_fit sv nj st md (snd p) = (snd p', Ok tt).
Proof.
  unfold pair_fit. destruct (qsub_fit sv nj st md (fst p)) as (q0, [[]|e]) eqn:A; [|discriminate]. destruct (qsub_fit sv nj st md (snd p)) as (q1, r) eqn:B. intro H. apply pair_equal_spec in H as (<- & ->). auto.
Qed.
Lemma choose_list {A B} (Q : nat -> A -> B -> Prop) : forall (l : list A) i, (forall j x, nth_error l j = Some x -> exists y, Q (i + j)%nat x y) -> exists ys, length ys = length l /\ forall j x y, nth_error l j = Some x -> nth_error ys j = Some y -> Q (i + j)%nat x y.
Proof.
  induction l as [|x l IH]; intros i H; [exists []; split; [reflexivity|intros [|j] ? ? X; discriminate]|].
  destruct (H 0%nat x eq_refl) as (y & Qy). destruct (IH (S i)) as (ys & Ln & Q'). { intros j z Hz. destruct (H (S j) z Hz) as (w & Qw). exists w. replace (S i + j)%nat with (i + S j)%nat by lia. exact Qw. }
  exists (y :: ys). split; [cbn; congruence|]. intros [|j] a b Ha Hb; [injection Ha as <-; injection Hb as <-; exact Qy|]. replace (i + S j)%nat with (S i + j)%nat by lia. apply Q'; assumption.
Qed.
Lemma nth_forall2 {A B} (Q : A -> B -> Prop) : forall (l : list A) (l' : list B), length l' = length l -> (forall j x y, nth_error l j = Some x -> nth_error l' j = Some y -> Q x y) -> Forall2 Q l l'.
Proof.
  induction l as [|x l IH]; intros [|y l'] H N; try discriminate; constructor; [apply (N 0%nat); reflexivity|]. apply IH; [cbn in H; lia|]. intros j a b Ha Hb. apply (N (S j)); assumption.
Qed.
(** One arm. *)
Lemma arm_end score k o (ml_g ml_m : pylearner E) q norm rule thr nfv nrv i tr (q0 u u' : @qsub P) nj st md sm : In score ["PQ"; "LPQ"; "CVaR"] ->
  make_quantile L rd f s score k o (cloned_learner L ml_g) (cloned_learner L ml_m) q norm rule thr nfv nrv i tr = Ok q0 -> sub_later sv q0 u -> qsub_split u = Some sm -> sub_plain u -> qsub_fit sv nj st md u = (u', Ok tt) ->
  exists F, qsub_fw u' = Some F /\ arm_fitted L rd f s sv score k (o i tr) ml_g ml_m q tr norm rule thr nj st md sm F /\
    fw_wf F /\ fw_n_obs F = n /\ fw_n_rep F = length sm /\ fw_n_thetas F = 1%nat /\ fw_cluster F = None /\ at_ (fw_vs F) [0%nat] = INR n.
Proof.
  intros Sc Mk La Sp Un' Ft. pose proof (make_sound L rd f s Re Un Rd _ _ _ _ _ _ _ _ _ _ _ _ _ _ Mk) as S0. pose proof (sub_later_sound sv n _ _ S0 La) as S1.
  destruct (sub_fw sv n nj st md u u' Hn S1 Ft) as (F & sm' & Ef & Es & Rest). assert (sm' = sm) by congruence. subst sm'. exists F. split; [exact Ef|]. split; [|exact Rest].
  unfold make_quantile in Mk. destruct (String.eqb score "PQ") eqn:E1; [|destruct (String.eqb score "LPQ") eqn:E2]; apply bind_ok in Mk as ((C, b) & Mk & Q); apply ok_inj in Q; subst q0; cbn [fst snd sub_later] in La; destruct La as (x & -> & La); cbn [qsub_split] in Sp; cbn [sub_plain] in Un'; cbn [qsub_fit] in Ft; exists nfv, nrv.
  - left. split; [apply String.eqb_eq, E1|]. destruct (nl_fit sv C nj st ExtNone md x) as (b', r) eqn:Q. apply pair_equal_spec in Ft as (<- & ->). cbn [qsub_fw] in Ef. destruct (ob_res b') as [(reps, F')|] eqn:Er; [|discriminate]. cbn in Ef. injection Ef as ->.
    exists C, b, x, b', reps. auto 8.
  - right. left. split; [apply String.eqb_eq, E2|]. destruct (nl_fit sv C nj st ExtNone md x) as (b', r) eqn:Q. apply pair_equal_spec in Ft as (<- & ->). cbn [qsub_fw] in Ef. destruct (ob_res b') as [(reps, F')|] eqn:Er; [|discriminate]. cbn in Ef. injection Ef as ->.
    exists C, b, x, b', reps. auto 8.
  - right. right. split. { destruct Sc as [<-|[<-|[<-|[]]]]; [discriminate E1|discriminate E2|reflexivity]. } destruct (fit C nj st ExtNone md x) as (w', r) eqn:Q. apply pair_equal_spec in Ft as (<- & ->). exists C, b, x, w'. auto 8.
Qed.
Section Obj.
Variables (score : string) (k : vec -> vec -> R) (o : nat -> bool -> nat -> nat -> q_oracles) (ml_g ml_m : pylearner E) (qs : list R) (norm rule thr : pyval).
Let K := @qte_class E P L rd f s sv score k o (cloned_learner L ml_g) (cloned_learner L ml_m) qs norm rule thr.
Hypothesis Hs : In score ["PQ"; "LPQ"; "CVaR"].
Hypothesis Hq : (0 < length qs)%nat.
Lemma qte_fitted b nj st ext md b' : winv K (pair_next sv) b -> qte_fit sv K nj st ext md b = (b', Ok tt) ->
  ext = ExtNone /\ exists sm F fs, crossed n sm /\ all_on pair_on b sm /\ wo_fw b' = Some F /\ length fs = length qs /\ effects_of n (length sm) fs F /\
  forall i q F0 F1, nth_error qs i = Some q -> nth_error fs i = Some (F0, F1) ->
    arm_fitted L rd f s sv score k (o i false) ml_g ml_m q false norm rule thr nj st md sm F0 /\ arm_fitted L rd f s sv score k (o i true) ml_g ml_m q true norm rule thr nj st md sm F1.
Proof.
  intros I H. unfold qte_fit in H. destruct ext; try discriminate H. split; [reflexivity|].
  destruct (wrap_fit_ok K Hn Hq _ b b' H) as (l & l' & F & El & El' & EF & Co & Ln & Each). destruct (proj2 I l El) as (nf1 & nr1 & sm & Sub).
  pose proof (subs_on K (pair_good f) (pair_next sv) (qte_set_on L rd f s sv Re Un Rd score k o _ _ qs norm rule thr) (@pair_next_on P f sv) l nf1 nr1 sm Sub) as On.
  destruct Sub as (Cr & _ & _ & Lq & Or). change (wk_count K) with (length qs) in Lq.
  assert (X : exists fs, length fs = length l' /\ forall j p' g, nth_error l' j = Some p' -> nth_error fs j = Some g ->
    (qsub_fw (fst p') = Some (fst g) /\ qsub_fw (snd p') = Some (snd g)) /\ level_models n (length sm) [fst g; snd g] /\
    arm_fitted L rd f s sv score k (o j false) ml_g ml_m (nth j qs 0) false norm rule thr nj st md sm (fst g) /\ arm_fitted L rd f s sv score k (o j true) ml_g ml_m (nth j qs 0) true norm rule thr nj st md sm (snd g)).
  { destruct (choose_list (fun j p' (g : framework * framework) => (qsub_fw (fst p') = Some (fst g) /\ qsub_fw (snd p') = Some (snd g)) /\ level_models n (length sm) [fst g; snd g] /\
      arm_fitted L rd f s sv score k (o j false) ml_g ml_m (nth j qs 0) false norm rule thr nj st md sm (fst g) /\ arm_fitted L rd f s sv score k (o j true) ml_g ml_m (nth j qs 0) true norm rule thr nj st md sm (snd g)) l' 0) as (fs & Q1 & Q2).
    - intros j p' Hp'. cbn [Nat.add]. destruct (nth_error l j) as [p|] eqn:Hp. 2:{ apply nth_error_None in Hp. assert (j < length l')%nat by (apply nth_error_Some; congruence). lia. }
      destruct (Each j p Hp) as (p'' & Z & Ft). assert (p'' = p') by congruence. subst p''. clear Z. destruct (pair_fit_inv _ _ _ _ _ Ft) as (Ft0 & Ft1). destruct (On p (nth_error_In _ _ Hp)) as ((Sp0 & Sp1) & _ & _ & P0 & P1).
      destruct (qte_origin L rd f s sv score k o _ _ qs norm rule thr nf1 nr1 sm j p (Or j p Hp) false) as (q0 & M0 & La0). destruct (qte_origin L rd f s sv score k o _ _ qs norm rule thr nf1 nr1 sm j p (Or j p Hp) true) as (q1 & M1 & La1).
      destruct (arm_end _ _ _ _ _ _ _ _ _ _ _ _ _ _ _ _ _ _ _ _ Hs M0 La0 Sp0 P0 Ft0) as (F0 & A0 & B0 & C0). destruct (arm_end _ _ _ _ _ _ _ _ _ _ _ _ _ _ _ _ _ _ _ _ Hs M1 La1 Sp1 P1 Ft1) as (F1 & A1 & B1 & C1).
      exists (F0, F1). cbn [fst snd]. split; [auto|]. split; [|auto]. intros g [<-|[<-|[]]]; [exact C0|exact C1].
    - exists fs. split; [exact Q1|]. exact Q2. }
  destruct X as (fs & Lf & At). exists sm, F, fs. split; [exact Cr|]. split; [exists l; split; [exact El|intros m Hm; apply On, Hm]|]. split; [exact EF|]. split; [congruence|].
  assert (Lm : level_models n (length sm) (interleave fs)).
  { intros g Hg. apply interleave_in in Hg as (p & Hp & Q). apply In_nth_error in Hp as (j & Hj). destruct (nth_error l' j) as [p'|] eqn:Hp'. 2:{ apply nth_error_None in Hp'. assert (j < length fs)%nat by (apply nth_error_Some; congruence). lia. }
    destruct (At j p' p Hp' Hj) as (_ & Z & _). apply Z. destruct Q as [-> | ->]; cbn; auto. }
  split.
  - change (wk_combine K l') with (effects l') in Co. rewrite (effects_all l' fs) in Co. 2:{ apply nth_forall2; [exact Lf|]. intros j x y Hx Hy. apply (At j x y Hx Hy). }
    destruct (qte_full n (length sm) fs Lm) as (h & Eh & Rest); [destruct fs; [cbn in Lf; lia|discriminate]|]. assert (h = F) by congruence. subst h. exact Rest.
  - intros i q F0 F1 Hi Hf. destruct (nth_error l' i) as [p'|] eqn:Hp'. 2:{ apply nth_error_None in Hp'. assert (i < length fs)%nat by (apply nth_error_Some; congruence). lia. }
    destruct (At i p' (F0, F1) Hp' Hf) as (_ & _ & A0 & A1). rewrite (nth_error_nth qs i 0 Hi) in A0, A1. auto.
Qed.
(** A fit succeeds if the fits of all sub-models do. *)
Lemma qte_succeeds b nj st md l : winv K (pair_next sv) b -> wo_subs b = Some l -> (forall p, In p l -> snd (qsub_fit sv nj st md (fst p)) = Ok tt /\ snd (qsub_fit sv nj st md (snd p)) = Ok tt) ->
  exists b', qte_fit sv K nj st ExtNone md b = (b', Ok tt).
Proof.
  intros I El Ok. unfold qte_fit, wrap_fit. rewrite El.
  destruct (fit_each_succeeds K Hn Hq (fun _ => pair_fit sv nj st md) l 0) as (l' & Ef).
  { intros j p Hp. destruct (Ok p (nth_error_In _ _ Hp)) as (A & B). unfold pair_fit. destruct (qsub_fit sv nj st md (fst p)) as (q0, r0). cbn in A. subst r0. destruct (qsub_fit sv nj st md (snd p)) as (q1, r1). cbn in B. subst r1. eexists. reflexivity. }
  rewrite Ef. cbn [bind]. destruct (fit_each_ok K Hn Hq _ _ _ _ Ef) as (Ln & Each). destruct (proj2 I l El) as (nf1 & nr1 & sm & Sub).
  pose proof (subs_on K (pair_good f) (pair_next sv) (qte_set_on L rd f s sv Re Un Rd score k o _ _ qs norm rule thr) (@pair_next_on P f sv) l nf1 nr1 sm Sub) as On. destruct Sub as (_ & _ & _ & Lq & _). change (wk_count K) with (length qs) in Lq.
  destruct (choose_list (fun j p' (g : framework * framework) => (qsub_fw (fst p') = Some (fst g) /\ qsub_fw (snd p') = Some (snd g)) /\ level_models n (length sm) [fst g; snd g]) l' 0) as (fs & Lf & At).
  - intros j p' Hp'. destruct (nth_error l j) as [p|] eqn:Hp. 2:{ apply nth_error_None in Hp. assert (j < length l')%nat by (apply nth_error_Some; congruence). lia. }
    destruct (Each j p Hp) as (p'' & Z & Ft). assert (p'' = p') by congruence. subst p''. clear Z. destruct (pair_fit_inv _ _ _ _ _ Ft) as (Ft0 & Ft1). destruct (On p (nth_error_In _ _ Hp)) as ((Sp0 & Sp1) & S0 & S1 & _).
    destruct (sub_fw sv n _ _ _ _ _ Hn S0 Ft0) as (F0 & sm0 & A0 & B0 & C0). destruct (sub_fw sv n _ _ _ _ _ Hn S1 Ft1) as (F1 & sm1 & A1 & B1 & C1). assert (sm0 = sm) by congruence. assert (sm1 = sm) by congruence. subst sm0 sm1.
    exists (F0, F1). split; [auto|]. intros g [<-|[<-|[]]]; assumption.
  - change (wk_combine K l') with (effects l'). rewrite (effects_all l' fs). 2:{ apply nth_forall2; [exact Lf|]. intros j x y Hx Hy. apply (At j x y Hx Hy). }
    destruct (qte_full n (length sm) fs) as (h & -> & _); [|destruct fs; [cbn in Lf; lia|discriminate]|eexists; reflexivity].
    intros g Hg. apply interleave_in in Hg as (p & Hp & Q). apply In_nth_error in Hp as (j & Hj). destruct (nth_error l' j) as [p'|] eqn:Hp'. 2:{ apply nth_error_None in Hp'. assert (j < length fs)%nat by (apply nth_error_Some; congruence). lia. }
    destruct (At j p' p Hp' Hj) as (_ & Z). apply Z. destruct Q as [-> | ->]; cbn; auto.
Qed.
End Obj.
End Fit.

(** Properties of call histories. *)
From Verif Require Export L_ModelProps.
From Coq Require Import FunctionalExtensionality.
Local Open Scope R_scope.

Section Obj.
Context {P : Type}.
Variable C : ctx P.
Notation n := (c_n C).
Notation nt := (length (c_dcols C)).

Lemma run_op_res (o : op P) w : snd (run_op C o w) = Ok tt \/ okb (snd (run_op C o w)) = false.
Proof. destruct (snd (run_op C o w)) as [[]|]; cbn; auto. Qed.
Lemma op_fws o w : wf C w -> (is_fit o = true -> snd (run_op C o w) <> Ok tt) ->
  m_fw (w_obj (fst (run_op C o w))) = m_fw (w_obj w) /\ length (w_fws (fst (run_op C o w))) = length (w_fws w).
Proof.
  intros W H. destruct o as [nj st ext sm|g perm|s sc|l t v|wt mt nb|ppf mi a b c d e]; cbn [run_op is_fit] in *.
  - destruct (fit_ends C nj st ext sm w W) as [_ _ _ _ Hf _]. destruct Hf as [A B]; [|rewrite A, B; auto].
    destruct (snd (fit C nj st ext sm w)) as [[]|] eqn:E; [exfalso; apply H; auto|reflexivity].
  - destruct (draw_inv C g perm w) as [(sm & sc & E & _)|(e & E)]; rewrite E; auto.
  - destruct (set_inv C s sc w) as [(ck & sc' & _ & _ & E)|(e & E)]; rewrite E; auto.
  - destruct (params_inv C l t v w) as [(ps & E & _)|(e & E & _)]; rewrite E; auto.
  - unfold obj_bootstrap. destruct (method_ev C (bootstrap_m wt mt nb) w (boot_keeps wt mt nb) W) as (_ & _ & Eo & _). rewrite Eo. split; [reflexivity|].
    unfold fw_method, with_framework. rewrite (andthen_eq _ _ _ w w) by reflexivity. destruct (m_fw (w_obj w)) as [i|]; [|reflexivity]. destruct (nth_error (w_fws w) i); [|reflexivity]. destruct (bootstrap_m _ _ _ _). cbn. apply set_nth_length.
  - unfold obj_sensitivity. destruct (method_ev C (sensitivity_analysis_m ppf mi a b c d e) w (sens_keeps ppf mi a b c d e) W) as (_ & _ & Eo & _). rewrite Eo. split; [reflexivity|].
    unfold fw_method, with_framework. rewrite (andthen_eq _ _ _ w w) by reflexivity. destruct (m_fw (w_obj w)) as [i|]; [|reflexivity]. destruct (nth_error (w_fws w) i); [|reflexivity]. destruct (sensitivity_analysis_m _ _ _ _ _ _ _ _). cbn. apply set_nth_length.
Qed.
Lemma unfitted ops : forall w, wf C w -> ~ some_fit C ops w ->
  m_fw (w_obj (run C ops w)) = m_fw (w_obj w) /\ length (w_fws (run C ops w)) = length (w_fws w).
Proof.
  induction ops as [|o ops IH]; intros w W H; [auto|]. cbn [run some_fit] in *. destruct (op_fws o w W) as [A B].
  - intros Ho E. apply H. left. auto.
  - destruct (IH (fst (run_op C o w))) as [A' B']; [apply op_step; exact W|tauto|]. split; congruence.
Qed.
Lemma refuse {A} (mt : meth A) (w : world P) : m_fw (w_obj w) = None -> fw_method mt w = (w, Err ValueError).
Proof. intro E. unfold fw_method, with_framework. rewrite (andthen_eq _ _ w w w) by reflexivity. rewrite E. reflexivity. Qed.

(** C36 *)
Lemma refused nf nr dr g perm w0 ops : new_object C nf nr dr g perm = Ok w0 -> ~ some_fit C ops w0 ->
  let w := run C ops w0 in
  (forall wt mt nb, obj_bootstrap wt mt nb w = (w, Err ValueError)) /\
  (forall ppf mi a b c d e, obj_sensitivity ppf mi a b c d e w = (w, Err ValueError)) /\
  (forall ppf j l, obj_confint ppf j l w = (w, Err ValueError)) /\
  (forall cdf so mt m rw, obj_p_adjust cdf so mt m rw w = (w, Err ValueError)) /\
  (forall ppf cdf, obj_summary C ppf cdf w = (w, Ok None) \/ obj_summary C ppf cdf w = (w, Err ValueError)).
Proof.
  intros E H. cbv zeta. apply new_inv in E. destruct E as (W & _ & Ef & _). destruct (unfitted ops w0 W H) as [A _]. rewrite Ef in A.
  unfold obj_bootstrap, obj_sensitivity, obj_confint, obj_p_adjust. repeat (split; [intros; apply refuse; exact A|]).
  intros ppf cdf. unfold obj_summary. rewrite (andthen_eq _ _ (run C ops w0) (run C ops w0) (run C ops w0)) by reflexivity.
  destruct (forallb _ _); [left; reflexivity|right]. unfold obj_confint. rewrite andthen_unf, refuse by exact A. reflexivity.
Qed.

Lemma op_heap o w : wf C w -> is_fit o = false -> forall l, (l < length (w_heap w))%nat -> hget (w_heap (fst (run_op C o w))) l = hget (w_heap w) l.
Proof.
  intros W H ll Hl. destruct o as [nj st ext sm|g perm|s sc|l t v|wt mt nb|ppf mi a b c d e]; cbn [run_op is_fit] in *; try discriminate.
  - destruct (draw_inv C g perm w) as [(sm & sc & E & _)|(e & E)]; rewrite E; auto.
  - destruct (set_inv C s sc w) as [(ck & sc' & _ & _ & E)|(e & E)]; rewrite E; [|auto]. cbn [fst]. unfold set_result. rewrite hget_fresh; [reflexivity|exact Hl].
  - destruct (params_inv C l t v w) as [(ps & E & _)|(e & E & _)]; rewrite E; auto.
  - unfold obj_bootstrap. destruct (method_ev C (bootstrap_m wt mt nb) w (boot_keeps wt mt nb) W) as (_ & _ & _ & Eo). now rewrite Eo.
  - unfold obj_sensitivity. destruct (method_ev C (sensitivity_analysis_m ppf mi a b c d e) w (sens_keeps ppf mi a b c d e) W) as (_ & _ & _ & Eo). now rewrite Eo.
Qed.
Lemma run_heap ops : forall w, wf C w -> no_fit ops -> forall l, (l < length (w_heap w))%nat -> hget (w_heap (run C ops w)) l = hget (w_heap w) l.
Proof.
  induction ops as [|o ops IH]; intros w W H l Hl; [reflexivity|]. cbn [run]. destruct (op_step C o w W) as [W1 E1]. rewrite IH; [|exact W1| |pose proof (ev_len _ _ E1); lia].
  - apply op_heap; [exact W| |exact Hl]. apply H. now left.
  - intros o' Ho'. apply H. now right.
Qed.
Lemma no_fit_no_success ops w : no_fit ops -> ~ some_fit C ops w.
Proof.
  revert w. induction ops as [|o ops IH]; intros w H; [auto|]. cbn [some_fit]. intros [[A _]|A]; [pose proof (H o (or_introl eq_refl)) as B; rewrite A in B; discriminate B|]. apply IH in A; [exact A|]. intros o' Ho. apply H. now right.
Qed.
Lemma core_view h h' o o' : fw_core o o' -> hget h' (fo_all_thetas o) = hget h (fo_all_thetas o) -> hget h' (fo_all_ses o) = hget h (fo_all_ses o) -> hget h' (fo_vs o) = hget h (fo_vs o) ->
  same_results (fw_view h o) (fw_view h' o').
Proof.
  intros (A1 & A2 & A3 & B) H1 H2 H3. cbv zeta in B. destruct B as (B1 & B2 & B3 & B4 & B5 & B6 & B7 & B8 & B9). constructor; cbn; try assumption; rewrite ?A1, ?A2, ?A3, ?H1, ?H2, ?H3; reflexivity.
Qed.
Lemma core_value h h' o o' : fw_core o o' -> same_by_value (fw_view h o) (fw_view h' o').
Proof. intros (_ & _ & _ & B). cbv zeta in B. destruct B as (B1 & B2 & B3 & B4 & B5 & B6 & B7 & B8 & B9). constructor; cbn; assumption. Qed.

(** C38, without a refit *)
Lemma frozen_no_fit w k f ops : reachable C w -> fw_reports w k f -> no_fit ops -> exists f', fw_reports (run C ops w) k f' /\ same_results f f'.
Proof.
  intros R (o & Eo & ->) H. apply reachable_wf in R. destruct (run_step C ops w R) as [_ E]. destruct (ev_fws _ _ E k o Eo) as (o' & Eo' & Hc). destruct (wf_fws _ _ R k o Eo) as (L1 & L2 & L3).
  eexists. split; [exists o'; split; [exact Eo'|reflexivity]|]. apply core_view; [exact Hc| | |]; apply run_heap; assumption.
Qed.
Lemma frozen_value w k f ops : reachable C w -> fw_reports w k f -> exists f', fw_reports (run C ops w) k f' /\ same_by_value f f'.
Proof.
  intros R (o & Eo & ->). apply reachable_wf in R. destruct (run_step C ops w R) as [_ E]. destruct (ev_fws _ _ E k o Eo) as (o' & Eo' & Hc).
  eexists. split; [exists o'; split; [exact Eo'|reflexivity]|]. apply core_value. exact Hc.
Qed.
Lemma frozen_after_set w k f s asc w1 ops : reachable C w -> fw_reports w k f -> set_sample_splitting C s asc w = (w1, Ok tt) ->
  exists f', fw_reports (run C ops w1) k f' /\ same_results f f'.
Proof.
  intros R (o & Eo & ->) H. apply reachable_wf in R. destruct (set_inv C s asc w) as [(ck & sc & E1 & E2 & E)|(e & E)]; rewrite E in H; [|discriminate].
  apply pair_equal_spec in H. destruct H as [<- _].
  assert (W1 : wf C (set_result C (map (map nf) (ck_smpls ck)) sc (ck_n_rep ck) (ck_n_folds ck) w)).
  { apply wf_fresh. eapply set_pre; [exact R|exact E1|]. destruct (c_cluster C); [|exact E2]. destruct E2 as (x & E3 & E4). eauto. }
  set (w1 := set_result C (map (map nf) (ck_smpls ck)) sc (ck_n_rep ck) (ck_n_folds ck) w) in *.
  destruct (run_step C ops w1 W1) as [_ Ev]. assert (Eo1 : nth_error (w_fws w1) k = Some o) by exact Eo.
  destruct (ev_fws _ _ Ev k o Eo1) as (o' & Eo' & Hc). destruct (wf_fws _ _ R k o Eo) as (L1 & L2 & L3).
  assert (Hh : forall l, (l < length (w_heap w))%nat -> hget (w_heap (run C ops w1)) l = hget (w_heap w) l).
  { intros l Hl. rewrite (ev_heap _ _ Ev).
    - unfold w1, set_result. rewrite hget_fresh; [reflexivity|exact Hl].
    - unfold w1, set_result, fresh. cbn [w_heap]. rewrite app_length. lia.
    - unfold w1, set_result, fresh. cbn [w_obj with_params with_arrays m_vs w_heap]. lia.
    - unfold w1, set_result, fresh. cbn [w_obj with_params with_arrays m_all_coef w_heap]. lia.
    - unfold w1, set_result, fresh. cbn [w_obj with_params with_arrays m_all_se w_heap]. lia. }
  eexists. split; [exists o'; split; [exact Eo'|reflexivity]|]. apply core_view; [exact Hc| | |]; apply Hh; assumption.
Qed.

(** After a successful fit, methods operate on that fit. *)
Lemma on_last_fit w nj store ext sm w1 f ops : c_dcols C <> [] -> reachable C w -> fit C nj store ext sm w = (w1, Ok tt) -> current_fw w1 f -> no_fit ops ->
  exists f', current_fw (run C ops w1) f' /\ same_results f f' /\
    (forall ppf j lv, snd (obj_confint ppf j lv (run C ops w1)) = confint ppf f' j lv) /\
    (forall cdf so mt m rw, snd (obj_p_adjust cdf so mt m rw (run C ops w1)) = bind (p_adjust cdf so mt f' m rw) (fun p => Ok (fst p))) /\
    (forall wt mt nb w', obj_bootstrap wt mt nb (run C ops w1) = (w', Ok tt) -> exists g, current_fw w' g /\ bootstrap_m wt mt nb f' = (g, Ok tt)) /\
    (forall ppf mi a b c d e w', obj_sensitivity ppf mi a b c d e (run C ops w1) = (w', Ok tt) -> exists g, current_fw w' g /\ sensitivity_analysis_m ppf mi a b c d e f' = (g, Ok tt)).
Proof.
  intros Hd R Hf (k & o & Ek & Eo & ->) Hn. assert (R1 : reachable C w1).
  { pose proof (reachable_op C w (OFit nj store ext sm) R) as X. cbn [run_op] in X. rewrite Hf in X. exact X. }
  destruct (frozen_no_fit w1 k (fw_view (w_heap w1) o) ops R1 (ex_intro _ o (conj Eo eq_refl)) Hn) as (f' & (o' & Eo' & ->) & Sr).
  pose proof (reachable_wf _ _ R1) as W1. destruct (unfitted ops w1 W1 (no_fit_no_success _ _ Hn)) as [Em _]. rewrite Ek in Em.
  assert (Wr : wf C (run C ops w1)) by (apply run_step; exact W1).
  set (wr := run C ops w1) in *. exists (fw_view (w_heap wr) o').
  assert (M : forall A (mt : meth A), fw_method mt wr = let p := mt (fw_view (w_heap wr) o') in
    ({| w_heap := w_heap wr; w_fws := set_nth k {| fo_base := fst p; fo_all_thetas := fo_all_thetas o'; fo_all_ses := fo_all_ses o'; fo_vs := fo_vs o' |} (w_fws wr); w_obj := w_obj wr |}, snd p)).
  { intros A mt. unfold fw_method, with_framework. rewrite (andthen_eq _ _ wr wr wr) by reflexivity. rewrite Em, Eo'. destruct (mt (fw_view (w_heap wr) o')); reflexivity. }
  assert (V : forall g, (fw_all_thetas g = fw_all_thetas (fw_view (w_heap wr) o') /\ fw_all_ses g = fw_all_ses (fw_view (w_heap wr) o') /\ fw_vs g = fw_vs (fw_view (w_heap wr) o')) ->
     current_fw {| w_heap := w_heap wr; w_fws := set_nth k {| fo_base := g; fo_all_thetas := fo_all_thetas o'; fo_all_ses := fo_all_ses o'; fo_vs := fo_vs o' |} (w_fws wr); w_obj := w_obj wr |} g).
  { intros g (G1 & G2 & G3). exists k. eexists. split; [exact Em|]. split; [cbn [w_fws]; rewrite set_nth_error_same; [reflexivity|apply nth_error_Some; congruence]|].
    unfold fw_view in *. cbn [fo_base fo_all_thetas fo_all_ses fo_vs w_heap] in *. cbn in G1, G2, G3. rewrite <- G1, <- G2, <- G3. destruct g; reflexivity. }
  split; [exists k, o'; auto|]. split; [exact Sr|]. split; [intros; unfold obj_confint; rewrite M; reflexivity|]. split; [intros; unfold obj_p_adjust; rewrite M; reflexivity|]. split.
  - intros wt mt nb w' H. unfold obj_bootstrap in H. rewrite M in H. cbv zeta in H. set (f1 := fw_view (w_heap wr) o') in *.
    destruct (bootstrap_m wt mt nb f1) as [g x] eqn:E. cbn [fst snd] in H. apply pair_equal_spec in H. destruct H as [<- ->]. exists g. split; [|reflexivity]. apply V.
    unfold bootstrap_m, m_bind, m_lift, m_set in E. destruct (check_bootstrap mt nb); [|discriminate]. destruct (require _ _ _); [|discriminate]. apply pair_equal_spec in E. destruct E as [<- _]. auto.
  - intros ppf mi a b c d e w' H. unfold obj_sensitivity in H. rewrite M in H. cbv zeta in H. set (f1 := fw_view (w_heap wr) o') in *.
    destruct (sensitivity_analysis_m ppf mi a b c d e f1) as [g x] eqn:E. cbn [fst snd] in H. apply pair_equal_spec in H. destruct H as [<- ->]. exists g. split; [|reflexivity]. apply V.
    unfold sensitivity_analysis_m, m_bind, m_lift, m_set in E. destruct (null_vec _ _); [|discriminate]. destruct (calc_sensitivity _ _ _ _ _ _); [|discriminate]. apply pair_equal_spec in E. destruct E as [<- _]. auto.
Qed.

(** C01: a rejected split has no effect. *)
Lemma rejected_split s asc w w' e : set_sample_splitting C s asc w = (w', Err e) -> w' = w.
Proof. intro H. destruct (set_inv C s asc w) as [(ck & sc & _ & _ & E)|(e' & E)]; rewrite E in H; [discriminate|]. congruence. Qed.

(** C39: setting a split clears the estimates. *)
Lemma set_clears s asc w w' : set_sample_splitting C s asc w = (w', Ok tt) ->
  all_nan (m_coef (w_obj w')) /\ all_nan (m_se (w_obj w')) /\ all_nan (hget (w_heap w') (m_all_coef (w_obj w'))) /\ all_nan (hget (w_heap w') (m_all_se (w_obj w'))) /\
  all_nan (m_psi (w_obj w')) /\ forall ppf cdf, obj_summary C ppf cdf w' = (w', Ok None).
Proof.
  intro H. destruct (set_inv C s asc w) as [(ck & sc & _ & _ & E)|(e' & E)]; rewrite E in H; [|discriminate]. apply pair_equal_spec in H. destruct H as [<- _].
  unfold set_result. match goal with |- context [fresh C ?x] => set (w1 := x) end.
  split; [intro; reflexivity|]. split; [intro; reflexivity|].
  split; [change (m_all_coef (w_obj (fresh C w1))) with (length (w_heap w1) + 1)%nat; rewrite hget_fresh1; intro; reflexivity|].
  split; [change (m_all_se (w_obj (fresh C w1))) with (length (w_heap w1) + 2)%nat; rewrite hget_fresh2; intro; reflexivity|].
  split; [intro; reflexivity|]. intros ppf cdf. unfold obj_summary. rewrite (andthen_eq _ _ (fresh C w1) (fresh C w1) (fresh C w1)) by reflexivity.
  match goal with |- context [forallb ?g ?l] => assert (F : forallb g l = true) by (apply forallb_forall; intros t _; reflexivity); rewrite F end. reflexivity.
Qed.

(** C41 *)
Lemma set_params_ok l t v w w' : reachable C w -> set_ml_nuisance_params C l t v w = (w', Ok tt) ->
  In l (c_learners C) /\ In t (c_dcols C) /\
  (forall l' t', (l', t') <> (l, t) -> m_params (w_obj w') l' t' = m_params (w_obj w) l' t') /\
  (forall r, (r < m_n_rep (w_obj w))%nat -> nth r (m_params (w_obj w') l t) None =
     match v with ParNone => None | ParDict p => Some (repeat p (m_n_folds (w_obj w))) | ParList ll => Some (nth r ll []) end) /\
  length (m_params (w_obj w') l t) = m_n_rep (w_obj w) /\
  m_smpls (w_obj w') = m_smpls (w_obj w) /\ m_n_rep (w_obj w') = m_n_rep (w_obj w) /\ m_n_folds (w_obj w') = m_n_folds (w_obj w).
Proof.
  intros R H. destruct (params_inv C l t v w) as [(ps & E & A1 & A2 & A3 & A4)|(e' & E & _)]; rewrite E in H; [|discriminate]. apply pair_equal_spec in H. destruct H as [<- _].
  split; [exact A1|]. split; [exact A2|]. cbn [w_obj with_params m_params m_smpls m_n_rep m_n_folds]. split; [|split; [|split; [|auto]]].
  - intros l' t' Hne. destruct (String.eqb_spec l' l) as [->|]; [|reflexivity]. destruct (String.eqb_spec t' t) as [->|]; [congruence|reflexivity].
  - intros r Hr. rewrite !String.eqb_refl. cbn [andb]. destruct v as [|p|ll].
    + rewrite A4. now rewrite nth_repeat.
    + rewrite A4. rewrite nth_indep with (d' := Some (repeat p (m_n_folds (w_obj w)))) by (now rewrite repeat_length). now rewrite nth_repeat.
    + destruct A4 as (B1 & B2 & ->). rewrite nth_indep with (d' := Some []) by (rewrite map_length; lia). apply map_nth.
  - rewrite !String.eqb_refl. exact A3.
Qed.
Lemma set_params_err l t v w w' e : set_ml_nuisance_params C l t v w = (w', Err e) -> w' = w /\
  (~ In l (c_learners C) \/ ~ In t (c_dcols C) \/ exists ll, v = ParList ll /\ ~ (length ll = m_n_rep (w_obj w) /\ forall x, In x ll -> length x = m_n_folds (w_obj w))).
Proof.
  intro H. destruct (params_inv C l t v w) as [(ps & E & _)|(e' & E & D)]; rewrite E in H; [discriminate|]. split; [congruence|exact D].
Qed.
Lemma set_params_reject l t v w : (~ In l (c_learners C) \/ ~ In t (c_dcols C) \/ exists ll, v = ParList ll /\ ~ (length ll = m_n_rep (w_obj w) /\ forall x, In x ll -> length x = m_n_folds (w_obj w))) ->
  exists e, set_ml_nuisance_params C l t v w = (w, Err e).
Proof.
  intro H. destruct (params_inv C l t v w) as [(ps & E & A1 & A2 & A3 & A4)|(e' & E & D)]; [|eauto]. exfalso. destruct H as [H|[H|(ll & -> & H)]]; [tauto|tauto|]. apply H. tauto.
Qed.
End Obj.

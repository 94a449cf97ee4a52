(** Construction of the model classes: concrete cases. *)
From Verif Require L_DataWitness.
From Verif Require Export L_InitSplit L_InitFit L_NestedSuccess L_ClusterSuccess L_ChecksWitness.
From Coq Require Import Lia Lra FunctionalExtensionality.
Local Open Scope R_scope.
Local Open Scope string_scope.

(** ** Data: eight rows *)
Definition w_a (i : nat) : R := INR (nth i [1; 1; 0; 1; 1; 1; 0; 1]%nat 0%nat).
Definition w_c (i : nat) : R := INR (nth i [0; 0; 2; 2; 4; 4; 6; 6]%nat 0%nat).
Definition i_cell (c : string) (i : nat) : M_Data.cell := M_Data.Num (
  if String.eqb c "d" then w_d i else if String.eqb c "z" then w_t i else if String.eqb c "z2" then w_d i else if String.eqb c "t" then w_t i
  else if String.eqb c "s" then w_t i else if String.eqb c "a" then w_a i else if String.eqb c "c" then w_c i else if String.eqb c "o" then 1 else INR i).
Definition i_frame : M_Data.frame := M_Data.mk_frame ["y"; "d"; "x"; "z"; "z2"; "t"; "s"; "a"; "c"; "o"; "ml_l"] 8 i_cell.
(** Outcome "y", covariate "x", the given treatments, instruments, time, selection and cluster variables. *)
Definition i_roles (d : list string) (z : option (list string)) (t s : option string) (cl : option (list string)) : M_Data.roles := M_Data.mk_roles "y" d ["x"] z t s cl.
Lemma i_number c : S_Data.number_column i_frame c.
Proof. intros i _. cbn. eexists. reflexivity. Qed.
Lemma i_usable r : M_Data.distinct ([M_Data.r_y r] ++ M_Data.r_d r ++ M_Data.r_x r) = true -> S_Data.well_formed i_frame r -> M_Data.r_d r <> [] -> S_Data.usable i_frame r M_Data.Strict.
Proof.
  intros _ W Hd. split; [apply L_Data.distinct_iff; reflexivity|]. split; [exact W|]. split; [exact Hd|]. split; intros c _; [|apply L_DataProps.number_allowed]; apply i_number.
Qed.
Definition i_data (r : M_Data.roles) (s : M_Data.ddata) : Prop := S_Data.constructed i_frame s /\ M_Data.dd_roles s = r /\ M_Data.dd_other s = true.
Ltac i_wf := split; [apply L_Data.distinct_iff; reflexivity|apply L_Data.subset_iff; reflexivity].
Lemma i_exists r : S_Data.well_formed i_frame r -> M_Data.r_d r <> [] -> exists s, i_data r s.
Proof.
  intros W Hd. destruct (L_DataWitness.construct_of i_frame r true M_Data.Strict) as (s & K & R & O & _); [|exists s; split; [exact K|auto]].
  split; [apply L_Data.distinct_iff; reflexivity|]. split; [exact W|]. split; [exact Hd|]. split; intros c _; [|apply L_DataProps.number_allowed]; apply i_number.
Qed.
Lemma i_reach r s : i_data r s -> S_Data.reachable i_frame s.
Proof. intros (K & _). now apply S_Data.R_new. Qed.
Lemma i_01 c (v : vec) : (forall i, i_cell c i = M_Data.Num (v i)) -> (forall i, (i < 8)%nat -> v i = 0 \/ v i = 1) -> S_Data.zero_one_column i_frame c.
Proof. intros Q H i Hi. cbn in Hi |- *. rewrite Q. destruct (H i Hi) as [->| ->]; auto. Qed.
Lemma w_t01 : forall i, (i < 8)%nat -> w_t i = 0 \/ w_t i = 1.
Proof. intros i Hi. eight i; cbn; lra. Qed.
Lemma w_d01 : forall i, (i < 8)%nat -> w_d i = 0 \/ w_d i = 1.
Proof. exact w_d_labels. Qed.
Lemma w_a01 : forall i, (i < 8)%nat -> w_a i = 0 \/ w_a i = 1.
Proof. intros i Hi. eight i; cbn; lra. Qed.
Lemma d_01 : S_Data.zero_one_column i_frame "d".
Proof. apply (i_01 "d" w_d); [reflexivity|exact w_d01]. Qed.
Lemma z_01 : S_Data.zero_one_column i_frame "z".
Proof. apply (i_01 "z" w_t); [reflexivity|exact w_t01]. Qed.
Lemma t_01 : S_Data.zero_one_column i_frame "t".
Proof. apply (i_01 "t" w_t); [reflexivity|exact w_t01]. Qed.

(** ** Learners: predictions are never exactly 0 or 1 *)
Definition q_predict (d : r_memo) (v : row) : R := 2 + Rsqr (r_predict d v).
Definition q_proba (d : r_memo) (v : row) : list R := map (fun _ => / (1 + INR (length (m_classes (r_in d))))) (m_classes (r_in d)).
Definition q_learner : learner r_memo row unit := {|
  ln_clone := ln_clone r_learner; ln_set := ln_set r_learner; ln_fit := ln_fit r_learner;
  ln_predict := fun d xs => map (q_predict d) xs; ln_proba := fun d xs => map (q_proba d) xs; ln_classes := ln_classes r_learner |}.
Lemma q_row : row_wise q_learner q_predict q_proba.
Proof. intros e xs. split; reflexivity. Qed.
Lemma q_clone : clone_ok q_learner.
Proof. split; [reflexivity|]. cbn. intros e p e' H. congruence. Qed.
Lemma q_classifier : classifier_ok q_learner q_proba.
Proof. intros e data m H. destruct (r_classifier e data m H) as (A & B & _). split; [exact A|]. split; [exact B|]. intro x. unfold q_proba. apply map_length. Qed.
Lemma q_can_fit (e : r_memo) p data : data <> [] -> exists m, fitted q_learner e p data m.
Proof. intro H. exists data. destruct p as [[]|]; cbn; [exists []; split; [reflexivity|]|]; (destruct data; [congruence|reflexivity]). Qed.
Lemma q_soft (mc : machinery r_memo unit) lrn : soft q_predict q_proba mc lrn.
Proof.
  intros e v. destruct (mc_proba mc lrn).
  - intros p H. apply nth_error_In in H. unfold q_proba in H. apply in_map_iff in H as (c & <- & Hc). assert (1 <= INR (length (m_classes (r_in e)))) by (destruct (m_classes (r_in e)); [destruct Hc|cbn [length]; rewrite S_INR; pose proof (pos_INR (length l)); lra]).
    split; [apply Rinv_neq_0_compat; lra|]. intro Z. assert (/ (1 + INR (length (m_classes (r_in e)))) < 1); [|lra]. rewrite <- Rinv_1 at 2. apply Rinv_lt_contravar; lra.
  - unfold q_predict. pose proof (Rle_0_sqr (r_predict e v)). split; lra.
Qed.
Lemma q_train (su : setup r_memo unit) name lrn y (G : nat -> Prop) a b : su_n su = 8%nat -> su_params su name = NoParams -> su_proba su lrn = false -> (a < 4)%nat -> (4 <= b < 8)%nat -> G a -> G b -> trainable q_learner q_proba su name lrn y G w_smpls.
Proof.
  intros En Ep Eq Ha Hb Ga Gb. constructor.
  - intros k p data _ _ H. apply q_can_fit, H.
  - rewrite Ep. discriminate.
  - rewrite En. intros h Hh. destruct Hh as [<- | [<- | []]]; [exists b|exists a]; (split; [lia|split; [assumption|cbn; lia]]).
  - intro Z. congruence.
  - intro Z. congruence.
Qed.

(** ** Learners and arguments *)
Definition reg : pylearner r_memo := {| ly_obj := []; ly_is_class := false; ly_fit := true; ly_set := true; ly_get := true; ly_predict := true; ly_proba := false; ly_classifier := false; ly_regressor := true |}.
Definition cls : pylearner r_memo := {| ly_obj := []; ly_is_class := false; ly_fit := true; ly_set := true; ly_get := true; ly_predict := true; ly_proba := true; ly_classifier := true; ly_regressor := false |}.
Lemma reg_values : predicts_values reg.
Proof. split; [repeat split|reflexivity]. Qed.
Lemma cls_proba : predicts_probabilities cls.
Proof. split; [repeat split|reflexivity]. Qed.
Lemma reg_outcome f s : outcome_learner f s reg.
Proof. split; [exact reg_values|discriminate]. Qed.
Definition i_rd : randomness := {| rd_order := fun _ _ _ => [1; 0]%nat; rd_models := false; rd_g0 := g_id; rd_perm0 := no_perm; rd_g := g_id; rd_perm := no_perm |}.
Lemma i_sound : sound_randomness i_rd.
Proof. split; [split; reflexivity|]. split; [intros r v l; reflexivity|]. split; [split; reflexivity|intros r v l; reflexivity]. Qed.
Lemma two_rows n v i j : (i < j < n)%nat -> v i = v j -> (2 <= rows_with n v (v i))%nat.
Proof.
  intros H Q. unfold rows_with. change 2%nat with (length [i; j]). apply NoDup_incl_length; [repeat constructor; cbn; intuition lia|].
  intros k Hk. apply filter_In. destruct Hk as [<-|[<-|[]]]; (split; [apply in_seq; lia|]); destruct (Req_EM_T _ _); congruence.
Qed.
Definition two_folds (r : pyval -> pyval -> pyval -> result (ctx unit * world unit)) := r (PInt 2) (PInt 1) (PBool true).
Lemma i_split v : (match v with None => True | Some u => exists i j, (i < j < 8)%nat /\ u i = u j end) -> split_args 8 (PInt 2) (PInt 1) (PBool true) v.
Proof.
  intro H. split; [reflexivity|]. split; [cbn; lia|]. split; [reflexivity|]. split; [cbn; lia|]. exists true. split; [reflexivity|]. intros _. cbv zeta. change (Z.to_nat (int_val (PInt 2))) with 2%nat. split; [lia|].
  destruct v as [u|]; [|exact Logic.I]. destruct H as (i & j & H & Q). exists i. split; [lia|]. eapply two_rows; eassumption.
Qed.
Lemma i_trim : trimming_ok (PStr "truncate") (PFloat (1 / 100)).
Proof. split; [reflexivity|]. exists (1 / 100). split; [reflexivity|lra]. Qed.
Lemma i_bool b : boolean (PBool b).
Proof. exists b. reflexivity. Qed.

(** ** After the constructor: the user sets the split of the other cases *)
Definition i_set : pysplit := SList [STup [IxInt [4; 5; 6; 7]%Z; IxInt [0; 1; 2; 3]%Z]; STup [IxInt [0; 1; 2; 3]%Z; IxInt [4; 5; 6; 7]%Z]].
Definition split_known (w : world unit) : Prop := m_smpls (w_obj w) = Some [w_smpls] /\ forall l t, m_params (w_obj w) l t = [None].
Lemma i_later (C : ctx unit) w0 : c_n C = 8%nat -> c_cluster C = None -> exists w, later C w0 w /\ split_known w.
Proof.
  intros Hn Hc. exists (run C [OSet i_set None] w0). split; [exists [OSet i_set None]; split; [intros o [<-|[]]; exact Logic.I|reflexivity]|].
  destruct C as [n dc cl st ls cc eo nu se]. cbn in Hn, Hc. subst n cl. split; reflexivity.
Qed.
Lemma i_learning w mc : split_known w -> mc_order mc = rd_order i_rd -> sound_learning q_learner q_predict q_proba mc w.
Proof.
  intros (Es & _) Q. constructor; [exact q_row|exact q_clone|]. intros sm r t l fs E Er. rewrite Es in E. injection E as <-. destruct r as [|[|r]]; [injection Er as <-|discriminate|discriminate]. rewrite Q. exact ex_sched.
Qed.
Lemma i_ready mc w t c name lrn y G : split_known w ->
  (forall su : setup r_memo unit, su_n su = 8%nat -> (forall nm, su_params su nm = NoParams) -> su_proba su = mc_proba mc -> trainable q_learner q_proba su name lrn y G w_smpls) ->
  ready q_learner q_proba mc w 8 t c name lrn y G.
Proof.
  intros (Es & Ep) H sm r fs E Er. rewrite Es in E. injection E as <-. destruct r as [|[|r]]; [injection Er as <-|discriminate|discriminate]. apply H; [reflexivity| |reflexivity].
  intro nm. cbn [setup_of su_params]. rewrite Ep. reflexivity.
Qed.
(** A regression on a group with rows in both halves. *)
Lemma i_regress mc w t c name lrn y (G : nat -> Prop) a b : split_known w -> mc_proba mc lrn = false -> (a < 4)%nat -> (4 <= b < 8)%nat -> G a -> G b -> ready q_learner q_proba mc w 8 t c name lrn y G.
Proof. intros K Q Ha Hb Ga Gb. apply i_ready; [exact K|]. intros su E1 E2 E3. apply (q_train su name lrn y G a b); auto. now rewrite E3. Qed.
(** A classification with both labels of the group in both halves. *)
Lemma i_classify mc w t c name lrn y (G : nat -> Prop) a0 a1 b0 b1 : split_known w -> (forall i, (i < 8)%nat -> y i = 0 \/ y i = 1) ->
  (a0 < 4)%nat -> (a1 < 4)%nat -> (4 <= b0 < 8)%nat -> (4 <= b1 < 8)%nat -> G a0 -> G a1 -> G b0 -> G b1 -> y a0 = 0 -> y a1 = 1 -> y b0 = 0 -> y b1 = 1 ->
  ready q_learner q_proba mc w 8 t c name lrn y G.
Proof.
  intros K Hy A0 A1 B0 B1 G0 G1 G2 G3 Y0 Y1 Y2 Y3. apply i_ready; [exact K|]. intros su E1 E2 E3. constructor.
  - intros k p data _ _ H. apply q_can_fit, H.
  - rewrite E2. discriminate.
  - rewrite E1. intros h Hh. destruct Hh as [<- | [<- | []]]; [exists b0|exists a0]; (split; [lia|split; [assumption|cbn; lia]]).
  - intros _. split; [exact q_classifier|]. rewrite E1. intros h i Hh Hi. destruct Hh as [<- | [<- | []]].
    + destruct (Hy i Hi) as [Q|Q]; [exists b0|exists b1]; (split; [lia|]); (split; [assumption|]); (split; [cbn; lia|congruence]).
    + destruct (Hy i Hi) as [Q|Q]; [exists a0|exists a1]; (split; [lia|]); (split; [assumption|]); (split; [cbn; lia|congruence]).
  - intros _. exists a0, a1. rewrite E1. split; [lia|]. split; [lia|]. rewrite Y0, Y1. lra.
Qed.
Lemma i_anything mc w t c name lrn : split_known w -> forall sm r fs, m_smpls (w_obj w) = Some sm -> nth_error sm r = Some fs ->
  learns_anything q_learner (setup_of mc 8 r t (fun l => nth r (m_params (w_obj w) l c) None) (fun _ => None)) name lrn fs.
Proof.
  intros (Es & Ep) sm r fs E Er. rewrite Es in E. injection E as <-. destruct r as [|[|r]]; [injection Er as <-|discriminate|discriminate]. split.
  - intros k p data _ _ H. apply q_can_fit, H.
  - cbn [setup_of su_params]. rewrite Ep. discriminate.
Qed.
(** The constructor returns, and after setting the split the estimation succeeds. *)
Definition fits_after (r : result (ctx unit * world unit)) : Prop :=
  exists C w0 w w', r = Ok (C, w0) /\ later C w0 w /\ split_known w /\ (forall mc, mc_order mc = rd_order i_rd -> sound_learning q_learner q_predict q_proba mc w) /\
    fit C PNone (PBool true) ExtNone (PBool false) w = (w', Ok tt).
Definition i_plain (d : list string) z t s : M_Data.roles := i_roles d z t s None.
Lemma fits_of r (C : ctx unit) w0 : r = Ok (C, w0) -> c_n C = 8%nat -> c_cluster C = None -> soundly_reached C w0 ->
  (forall w, split_known w -> soundly_reached C w -> (exists sm, m_smpls (w_obj w) = Some sm) -> exists w', fit C PNone (PBool true) ExtNone (PBool false) w = (w', Ok tt)) -> fits_after r.
Proof.
  intros E Hn Hc Sr H. destruct (i_later C w0 Hn Hc) as (w & Lt & K). destruct (H w K (reached_later _ _ _ Sr Lt)) as (w' & F); [destruct K as (K & _); eauto|].
  exists C, w0, w, w'. split; [exact E|]. split; [exact Lt|]. split; [exact K|]. split; [intros mc; apply i_learning, K|exact F].
Qed.
(** Classification labels of the split: nothing is missing in a train part. *)
Lemma i_labels_in mc w lrn y (G : nat -> Prop) : split_known w -> (forall h i, In h w_smpls -> (i < 8)%nat -> exists j, (j < 8)%nat /\ G j /\ In j (fst h) /\ y j = y i) -> labels_everywhere q_learner q_proba mc w 8 lrn y G.
Proof. intros (Es & _) H Pb. split; [exact q_classifier|]. intros sm fs h i E Hf. rewrite Es in E. injection E as <-. destruct Hf as [<-|[]]. apply H. Qed.
Lemma i_labels mc w lrn y : split_known w -> both_labels 8 y w_smpls -> labels_everywhere q_learner q_proba mc w 8 lrn y everyone.
Proof. intros K (A & B & _). apply i_labels_in; [exact K|]. intros h i Hh Hi. destruct (A h i Hh Hi) as (j & J1 & J2). exists j. split; [eapply B; eassumption|]. split; [exact Logic.I|]. split; assumption. Qed.

(** ** Cases *)
Definition rd1 : M_Data.roles := i_plain ["d"] None None None.
Definition rd2 : M_Data.roles := i_plain ["d"; "t"] None None None.
Definition ra1 : M_Data.roles := i_plain ["a"] None None None.
Definition rz1 : M_Data.roles := i_plain ["d"] (Some ["z"]) None None.
Definition rz2 : M_Data.roles := i_plain ["d"] (Some ["z"; "z2"]) None None.
Definition rt1 : M_Data.roles := i_plain ["d"] None (Some "t") None.
Definition rs1 : M_Data.roles := i_plain ["d"] None None (Some "s").
Definition rs2 : M_Data.roles := i_plain ["d"] (Some ["z"]) None (Some "s").
Definition rz3 : M_Data.roles := i_plain ["d"] (Some ["z"; "ml_l"]) None None.
Definition rs3 : M_Data.roles := i_plain ["c"] None None (Some "s").
Definition ro1 : M_Data.roles := i_plain ["o"] None None None.
Lemma s_exists r : In r [rd1; rd2; ra1; rz1; rz2; rt1; rs1; rs2; rz3; rs3; ro1] -> exists s, i_data r s /\ unclustered s.
Proof.
  intro H. assert (W : S_Data.well_formed i_frame r /\ M_Data.r_d r <> [] /\ M_Data.r_cl r = None).
  { cbn in H; repeat (destruct H as [<-|H]; [split; [i_wf|split; [discriminate|reflexivity]]|]); destruct H. }
  destruct W as (W & Hd & Hc). destruct (i_exists r W Hd) as (s & K & R & O). exists s. split; [split; auto|]. unfold unclustered. now rewrite R.
Qed.

Definition plr_case (r : M_Data.roles) (score : string) : Prop := exists s, i_data r s /\
  fits_after (plr_init q_learner i_rd i_frame s reg cls None (PInt 2) (PInt 1) (PStr score) (PBool true)).
Lemma ready_class mc w t c name lrn : split_known w -> forall v, v = w_d \/ v = w_t -> ready q_learner q_proba mc w 8 t c name lrn v everyone.
Proof.
  intros K v [->| ->]; [apply (i_classify mc w t c name lrn w_d everyone 0 1 4 5)|apply (i_classify mc w t c name lrn w_t everyone 0 2 4 6)]; try exact Logic.I; try lia; try assumption; try exact w_d01; try exact w_t01; cbn; lra.
Qed.
Lemma ready_any mc w t c name lrn v : split_known w -> mc_proba mc lrn = false -> ready q_learner q_proba mc w 8 t c name lrn v everyone.
Proof. intros K Q. apply (i_regress mc w t c name lrn v everyone 0 4); try exact Logic.I; try lia; assumption. Qed.
Lemma plr_cases score : score = "partialling out" \/ score = "IV-type" -> plr_case rd1 score /\ plr_case rd2 score.
Proof.
  intro Hs.
  assert (G : forall r, (r = rd1 \/ r = rd2) -> plr_case r score); [|split; apply G; auto].
  intros r Hr. assert (Hi : In r [rd1; rd2; ra1; rz1; rz2; rt1; rs1; rs2; rz3; rs3; ro1]) by (cbn; intuition auto). destruct (s_exists r Hi) as (s & K & Un); pose proof K as (Con & Rl & Ot); pose proof (i_reach _ _ K) as Re; exists s; split; [exact K|].
  assert (Dc : forall c, In c (M_Data.r_d (M_Data.dd_roles s)) -> c = "d" \/ c = "t"). { intros c Hc. rewrite Rl in Hc. destruct Hr as [->| ->]; cbn in Hc; intuition auto. }
  destruct (proj2 (plr_accepts q_learner i_rd i_frame s Con Un reg cls None (PInt 2) (PInt 1) (PStr score) (PBool true))) as ((C & w0) & E).
  { split; [unfold no_instruments; rewrite Rl; destruct Hr as [->| ->]; reflexivity|]. split; [apply i_split; exact Logic.I|]. split; [destruct Hs as [->| ->]; [left; reflexivity|right; split; [reflexivity|discriminate]]|].
    split; [exact reg_values|]. split; [exact cls_proba|]. intros _ c Hc. destruct (Dc c Hc) as [->| ->]; [exact d_01|exact t_01]. }
  destruct (plr_made q_learner i_rd i_frame s Re i_sound _ _ _ _ _ _ _ _ _ E) as (mc & bin & Ec & Sr & Od & R1 & R2 & R3). rewrite (plain_ctx i_frame s Re _ Un) in Ec. subst C.
  eapply fits_of; [exact E|reflexivity|reflexivity|exact Sr|]. intros w Kw Sw Sm.
  apply (plr_fit_success q_learner q_predict q_proba); try assumption; [cbn; lia|exact (some_treatment i_frame s Re)|apply i_learning; assumption|left; reflexivity|].
  intros t c Hc. split; [apply ready_any; [exact Kw|apply R1]|]. split.
  - apply (d_of_all i_frame s Re (fun v => ready q_learner q_proba mc w 8 t c "ml_m" "ml_m" v everyone)). intros c' Hc'. apply ready_class; [exact Kw|]. destruct (Dc c' Hc') as [->| ->]; [left|right]; reflexivity.
  - split; [intros I v; apply ready_any; [exact Kw|apply R3, I]|].
    intros _. apply q_soft.
Qed.
Lemma with_data r (Q : M_Data.ddata -> Prop) : In r [rd1; rd2; ra1; rz1; rz2; rt1; rs1; rs2; rz3; rs3; ro1] ->
  (forall s, S_Data.constructed i_frame s -> M_Data.dd_roles s = r -> S_Data.reachable i_frame s -> unclustered s -> Q s) -> exists s, i_data r s /\ Q s.
Proof. intros Hi H. destruct (s_exists r Hi) as (s & K & Un). pose proof K as (Con & Rl & _). exists s. split; [exact K|]. apply H; [exact Con|exact Rl|exact (i_reach _ _ K)|exact Un]. Qed.
Lemma group_d mc w t c name y b : split_known w -> mc_proba mc "ml_g" = false -> b = 0 \/ b = 1 -> ready q_learner q_proba mc w 8 t c name "ml_g" y (fun i => w_d i = b).
Proof. intros K Q [->| ->]; [apply (i_regress mc w t c name "ml_g" y (fun i => w_d i = 0) 0 4)|apply (i_regress mc w t c name "ml_g" y (fun i => w_d i = 1) 1 5)]; try assumption; try lia; cbn; lra. Qed.
Lemma group_t mc w t c name y b : split_known w -> mc_proba mc "ml_g" = false -> b = 0 \/ b = 1 -> ready q_learner q_proba mc w 8 t c name "ml_g" y (fun i => w_t i = b).
Proof. intros K Q [->| ->]; [apply (i_regress mc w t c name "ml_g" y (fun i => w_t i = 0) 0 4)|apply (i_regress mc w t c name "ml_g" y (fun i => w_t i = 1) 2 6)]; try assumption; try lia; cbn; lra. Qed.
Lemma group_dt mc w t c name y a b : split_known w -> mc_proba mc "ml_g" = false -> a = 0 \/ a = 1 -> b = 0 \/ b = 1 -> ready q_learner q_proba mc w 8 t c name "ml_g" y (fun i => w_d i = a /\ w_t i = b).
Proof.
  intros K Q [->| ->] [->| ->]; [apply (i_regress mc w t c name "ml_g" y (fun i => w_d i = 0 /\ w_t i = 0) 0 4)|apply (i_regress mc w t c name "ml_g" y (fun i => w_d i = 0 /\ w_t i = 1) 2 6)
    |apply (i_regress mc w t c name "ml_g" y (fun i => w_d i = 1 /\ w_t i = 0) 1 5)|apply (i_regress mc w t c name "ml_g" y (fun i => w_d i = 1 /\ w_t i = 1) 3 7)]; try assumption; try lia; cbn; split; lra.
Qed.
Lemma d_binary s : M_Data.r_d (M_Data.dd_roles s) = ["d"] -> binary_treatment i_frame s "d".
Proof. intro H. split; [exact H|exact d_01]. Qed.
Lemma is_d s c : M_Data.r_d (M_Data.dd_roles s) = ["d"] -> binary_treatment i_frame s c -> c = "d".
Proof. intros H (Q & _). rewrite H in Q. now injection Q. Qed.
Lemma d_split : split_args 8 (PInt 2) (PInt 1) (PBool true) (Some (col i_frame "d")).
Proof. apply i_split. exists 0%nat, 2%nat. split; [lia|reflexivity]. Qed.
Lemma dt_split c : c = "z" \/ c = "t" \/ c = "s" -> split_args 8 (PInt 2) (PInt 1) (PBool true) (Some (fun i => col i_frame "d" i + 2 * col i_frame c i)).
Proof. intro H. apply i_split. exists 0%nat, 4%nat. split; [lia|]. destruct H as [->|[->| ->]]; reflexivity. Qed.
Ltac begin_fit := eapply fits_of; [eassumption|reflexivity|reflexivity|eassumption|]; intros w Kw Sw Sm.
Ltac fit_base := try assumption; try (cbn; lia); try (apply i_learning; assumption); try (left; reflexivity); try (intros _; apply q_soft).

Definition irm_case (score : string) : Prop := exists s, i_data rd1 s /\
  fits_after (irm_init q_learner i_rd i_frame s reg cls (PInt 2) (PInt 1) (PStr score) WNone (PBool false) (PStr "truncate") (PFloat (1 / 100)) (PBool true)).
Lemma irm_cases score : score = "ATE" \/ score = "ATTE" -> irm_case score.
Proof.
  intro Hs. apply with_data; [cbn; tauto|]. intros s Con Rl Re Un.
  destruct (proj2 (irm_accepts q_learner i_rd i_frame s Con Un reg cls (PInt 2) (PInt 1) (PStr score) WNone (PBool false) (PStr "truncate") (PFloat (1 / 100)) (PBool true))) as ((C & w0) & E).
  { split; [unfold no_instruments; rewrite Rl; reflexivity|]. split; [exists "d"; split; [apply d_binary; rewrite Rl; reflexivity|exact d_split]|]. split; [destruct Hs as [->| ->]; [left|right]; split; try reflexivity; exact Logic.I|].
    split; [apply reg_outcome|]. split; [exact cls_proba|]. split; [apply i_bool|exact i_trim]. }
  destruct (irm_made q_learner i_rd i_frame s Re i_sound _ _ _ _ _ _ _ _ _ _ _ _ E) as (c & mc & nm & th & bo & st & Bt & Ec & Sr & Od & R1 & R2 & _). apply (is_d s c) in Bt; [subst c|rewrite Rl; reflexivity]. rewrite (plain_ctx i_frame s Re _ Un) in Ec. subst C.
  begin_fit. apply (irm_fit_success q_learner q_predict q_proba); fit_base; [apply (group_d mc w 0 "d" "ml_g0")|apply (group_d mc w 0 "d" "ml_g1")|apply ready_class]; try assumption; try (apply R1); try (left; reflexivity); right; reflexivity.
Qed.
Definition apo_case : Prop := exists s, i_data ra1 s /\
  fits_after (apo_init q_learner i_rd i_frame s reg cls (PInt 1) (PInt 2) (PInt 1) (PStr "APO") WNone (PBool false) (PStr "truncate") (PFloat (1 / 100)) (PBool true)).
Lemma a_rows : (5 <= rows_with 8 (col i_frame "a") 1)%nat.
Proof.
  assert (V : forall k, In k [0; 1; 3; 4; 5]%nat -> (k < 8)%nat /\ col i_frame "a" k = 1) by (intros k Hk; cbn in Hk; repeat (destruct Hk as [<-|Hk]; [split; [lia|reflexivity]|]); destruct Hk).
  unfold rows_with. apply (Nat.le_trans _ (length [0; 1; 3; 4; 5]%nat)); [cbn; lia|]. apply NoDup_incl_length; [repeat (apply NoDup_cons; [cbn [In]; lia|]); apply NoDup_nil|].
  intros k Hk. destruct (V k Hk) as (A & B). apply filter_In. split; [apply in_seq; lia|]. destruct (Req_EM_T _ _); [reflexivity|contradiction].
Qed.
Lemma w_a_whole : whole_numbers 8 (col i_frame "a").
Proof. intros i Hi. exists (Z.of_nat (nth i [1; 1; 0; 1; 1; 1; 0; 1]%nat 0%nat)). change (w_a i = IZR (Z.of_nat (nth i [1; 1; 0; 1; 1; 1; 0; 1]%nat 0%nat))). unfold w_a. apply INR_IZR_INZ. Qed.
Lemma lvl_a s : M_Data.c_d s = "a" -> forall i, (i < 8)%nat -> treated_at i_frame s (PInt 1) i = w_a i.
Proof.
  intros H i Hi. unfold treated_at. cbn [level_of]. rewrite H. change (col i_frame "a" i) with (w_a i). destruct (Req_EM_T _ _) as [Q|Q]; [symmetry; exact Q|]. destruct (w_a01 i Hi) as [Z|Z]; [symmetry; exact Z|contradiction].
Qed.
Lemma apo_cases : apo_case.
Proof.
  apply with_data; [cbn; tauto|]. intros s Con Rl Re Un.
  destruct (proj2 (apo_accepts q_learner i_rd i_frame s Con Un reg cls (PInt 1) (PInt 2) (PInt 1) (PStr "APO") WNone (PBool false) (PStr "truncate") (PFloat (1 / 100)) (PBool true))) as ((C & w0) & E).
  { split; [unfold no_instruments; rewrite Rl; reflexivity|]. split; [exists "a", 1; split; [rewrite Rl; reflexivity|]; split; [reflexivity|]; split; [exact a_rows|]; split; [intros _; exact w_a_whole|]; apply i_split; exists 0%nat, 1%nat; split; [lia|reflexivity]|].
    split; [reflexivity|]. split; [exact Logic.I|]. split; [apply reg_outcome|]. split; [exact cls_proba|]. split; [apply i_bool|exact i_trim]. }
  destruct (apo_made q_learner i_rd i_frame s Re i_sound _ _ _ _ _ _ _ _ _ _ _ _ _ E) as (c & mc & nm & th & bo & st & Dc & Ec & Sr & Ed & Od & R1 & R2 & _). rewrite Rl in Dc. injection Dc as <-. rewrite (plain_ctx i_frame s Re _ Un) in Ec. subst C.
  pose proof (lvl_a s Ed) as V. begin_fit. apply (apo_fit_success q_learner q_predict q_proba); fit_base.
  - apply (i_regress mc w 0 "a" "ml_g_d_lvl0" "ml_g" _ _ 2 6); try assumption; try lia; try apply R1; cbv beta; rewrite V by lia; cbn; lra.
  - apply (i_regress mc w 0 "a" "ml_g_d_lvl1" "ml_g" _ _ 0 4); try assumption; try lia; try apply R1; cbv beta; rewrite V by lia; cbn; lra.
  - apply (i_classify mc w 0 "a" "ml_m" "ml_m" _ everyone 2 0 6 4); try exact Logic.I; try assumption; try lia; try (rewrite V by lia; cbn; lra). intros i Hi. rewrite V by exact Hi. apply w_a01, Hi.
Qed.
Definition iivm_case : Prop := exists s, i_data rz1 s /\
  fits_after (iivm_init q_learner i_rd i_frame s reg cls cls (PInt 2) (PInt 1) (PStr "LATE") SgNone (PBool false) (PStr "truncate") (PFloat (1 / 100)) (PBool true)).
Lemma iivm_cases : iivm_case.
Proof.
  apply with_data; [cbn; tauto|]. intros s Con Rl Re Un.
  destruct (proj2 (iivm_accepts q_learner i_rd i_frame s Con Un reg cls cls (PInt 2) (PInt 1) (PStr "LATE") SgNone (PBool false) (PStr "truncate") (PFloat (1 / 100)) (PBool true))) as ((C & w0) & E).
  { split; [exists "d", "z"; split; [apply d_binary; rewrite Rl; reflexivity|]; split; [rewrite Rl; reflexivity|]; split; [exact z_01|apply dt_split; auto]|].
    split; [reflexivity|]. split; [apply reg_outcome|]. split; [exact cls_proba|]. split; [exact cls_proba|]. split; [apply i_bool|]. split; [exact i_trim|exact Logic.I]. }
  destruct (iivm_made q_learner i_rd i_frame s Re i_sound _ _ _ _ _ _ _ _ _ _ _ _ _ E) as (c & z & mc & nm & th & bo & at1 & nt1 & st & Bt & Ez & _ & Ec & Sr & Od & R1 & R2 & R3 & _). apply (is_d s c) in Bt; [subst c|rewrite Rl; reflexivity]. rewrite Rl in Ez. injection Ez as <-. rewrite (plain_ctx i_frame s Re _ Un) in Ec. subst C.
  begin_fit. apply (iivm_fit_success q_learner q_predict q_proba); fit_base.
  - apply (group_t mc w 0 "d" "ml_g0"); [assumption|apply R1|auto].
  - apply (group_t mc w 0 "d" "ml_g1"); [assumption|apply R1|auto].
  - apply ready_class; [assumption|right; reflexivity].
  - intros _. apply (i_classify mc w 0 "d" "ml_r0" "ml_r" w_d (fun i => w_t i = 0) 0 1 4 5); try assumption; try lia; try exact w_d01; cbn; lra.
  - intros _. apply (i_classify mc w 0 "d" "ml_r1" "ml_r" w_d (fun i => w_t i = 1) 2 3 6 7); try assumption; try lia; try exact w_d01; cbn; lra.
Qed.
Definition did_case (score : string) : Prop := exists s, i_data rd1 s /\
  fits_after (did_init q_learner i_rd i_frame s reg (Some cls) (PInt 2) (PInt 1) (PStr score) (PBool true) (PStr "truncate") (PFloat (1 / 100)) (PBool true)).
Lemma i_did_score score : score = "observational" \/ score = "experimental" -> did_score_ok (PStr score) (Some cls).
Proof. intros [->| ->]; [left; split; [reflexivity|exists cls; split; [reflexivity|exact cls_proba]]|right; reflexivity]. Qed.
Lemma did_cases score : score = "observational" \/ score = "experimental" -> did_case score.
Proof.
  intro Hs. apply with_data; [cbn; tauto|]. intros s Con Rl Re Un.
  destruct (proj2 (did_accepts q_learner i_rd i_frame s Con Un reg (Some cls) (PInt 2) (PInt 1) (PStr score) (PBool true) (PStr "truncate") (PFloat (1 / 100)) (PBool true))) as ((C & w0) & E).
  { split; [unfold no_instruments; rewrite Rl; reflexivity|]. split; [exists "d"; split; [apply d_binary; rewrite Rl; reflexivity|exact d_split]|]. split; [apply i_did_score, Hs|]. split; [apply reg_outcome|]. split; [apply i_bool|exact i_trim]. }
  destruct (did_made q_learner i_rd i_frame s Re i_sound _ _ _ _ _ _ _ _ _ _ _ E) as (c & mc & nm & th & st & Bt & Ec & Sr & Od & R1 & _). apply (is_d s c) in Bt; [subst c|rewrite Rl; reflexivity]. rewrite (plain_ctx i_frame s Re _ Un) in Ec. subst C.
  begin_fit. apply (did_fit_success q_learner q_predict q_proba); fit_base.
  - apply (group_d mc w 0 "d" "ml_g0"); [assumption|apply R1|auto].
  - apply (group_d mc w 0 "d" "ml_g1"); [assumption|apply R1|auto].
  - intros _. apply ready_class; [assumption|left; reflexivity].
Qed.
Definition cs_case (score : string) : Prop := exists s, i_data rt1 s /\
  fits_after (cs_init q_learner i_rd i_frame s reg (Some cls) (PInt 2) (PInt 1) (PStr score) (PBool true) (PStr "truncate") (PFloat (1 / 100)) (PBool true)).
Lemma cs_cases score : score = "observational" \/ score = "experimental" -> cs_case score.
Proof.
  intro Hs. apply with_data; [cbn; tauto|]. intros s Con Rl Re Un.
  destruct (proj2 (cs_accepts q_learner i_rd i_frame s Con Un reg (Some cls) (PInt 2) (PInt 1) (PStr score) (PBool true) (PStr "truncate") (PFloat (1 / 100)) (PBool true))) as ((C & w0) & E).
  { split; [unfold no_instruments; rewrite Rl; reflexivity|]. split; [exists "d", "t"; split; [apply d_binary; rewrite Rl; reflexivity|]; split; [rewrite Rl; reflexivity|]; split; [exact t_01|apply dt_split; auto]|]. split; [apply i_did_score, Hs|]. split; [apply reg_outcome|]. split; [apply i_bool|exact i_trim]. }
  destruct (cs_made q_learner i_rd i_frame s Re i_sound _ _ _ _ _ _ _ _ _ _ _ E) as (c & tc & mc & nm & th & st & Bt & Et & _ & Ec & Sr & Od & R1 & _). apply (is_d s c) in Bt; [subst c|rewrite Rl; reflexivity]. rewrite Rl in Et. injection Et as <-. rewrite (plain_ctx i_frame s Re _ Un) in Ec. subst C.
  begin_fit. apply (cs_fit_success q_learner q_predict q_proba); fit_base.
  - intros a b name H. apply (group_dt mc w 0 "d" name); [assumption|apply R1| |]; cbn in H; intuition congruence.
  - intros _. apply ready_class; [assumption|left; reflexivity].
Qed.
Definition ssm_case : Prop := exists s, i_data rs1 s /\
  fits_after (ssm_init q_learner i_rd i_frame s (fun _ _ => w_tts) reg cls cls (PInt 2) (PInt 1) (PStr "missing-at-random") (PBool false) (PStr "truncate") (PFloat (1 / 100)) (PBool true)).
Lemma i_active s : S_Data.reachable i_frame s -> M_Data.r_d (M_Data.dd_roles s) = ["d"] -> M_Data.c_d s = "d".
Proof. intros Re H. destruct (arrays_r i_frame s Re) as (_ & _ & _ & _ & _ & D). rewrite H in D. destruct D as [D|[]]. congruence. Qed.
Lemma ds_whole : whole_numbers 8 (fun i => col i_frame "d" i + 2 * col i_frame "s" i).
Proof. intros i Hi. change (exists z, w_d i + 2 * w_t i = IZR z). destruct (w_d01 i Hi) as [->| ->], (w_t01 i Hi) as [->| ->]; [exists 0%Z|exists 2%Z|exists 1%Z|exists 3%Z]; lra. Qed.
Lemma ssm_ok r score : (r = rs1 /\ score = "missing-at-random") \/ (r = rs2 /\ score = "nonignorable") -> forall s, S_Data.constructed i_frame s -> M_Data.dd_roles s = r -> S_Data.reachable i_frame s -> unclustered s ->
  succeeds (ssm_init q_learner i_rd i_frame s (fun _ _ => w_tts) reg cls cls (PInt 2) (PInt 1) (PStr score) (PBool false) (PStr "truncate") (PFloat (1 / 100)) (PBool true)).
Proof.
  intros Hr s Con Rl Re Un. apply (ssm_accepts q_learner i_rd i_frame s Con Un).
  assert (D : M_Data.r_d (M_Data.dd_roles s) = ["d"]) by (rewrite Rl; destruct Hr as [(-> & _)|(-> & _)]; reflexivity).
  split; [exists "s"; split; [rewrite Rl; destruct Hr as [(-> & _)|(-> & _)]; reflexivity|]; cbv zeta; rewrite (i_active s Re D); split; [intros _; exact ds_whole|apply dt_split; auto]|].
  split; [destruct Hr as [(-> & ->)|(-> & ->)]; [left; reflexivity|right; split; [reflexivity|unfold no_instruments; rewrite Rl; discriminate]]|].
  split; [apply reg_outcome|]. split; [exact cls_proba|]. split; [exact cls_proba|]. split; [apply i_bool|exact i_trim].
Qed.
Lemma d_of_d s t : S_Data.reachable i_frame s -> M_Data.r_d (M_Data.dd_roles s) = ["d"] -> d_of i_frame s t = w_d.
Proof. intros Re D. destruct (x_of_in i_frame s Re t) as (c & I & _ & -> & _). rewrite D in I. destruct I as [<-|[]]. reflexivity. Qed.
Lemma ssm_cases : ssm_case.
Proof.
  apply with_data; [cbn; tauto|]. intros s Con Rl Re Un. destruct (ssm_ok rs1 "missing-at-random" (or_introl (conj eq_refl eq_refl)) s Con Rl Re Un) as ((C & w0) & E).
  destruct (ssm_made q_learner i_rd i_frame s Re i_sound _ _ _ _ _ _ _ _ _ _ _ _ _ E) as (sel & mc & nm & th & st & Es & Ec & Sr & Od & R1 & R2 & R3 & _). rewrite Rl in Es. injection Es as <-. rewrite (plain_ctx i_frame s Re _ Un) in Ec. cbn [String.eqb Ascii.eqb Bool.eqb] in Ec. subst C.
  begin_fit. apply (ssm_fit_success q_learner q_predict q_proba); fit_base; [exact (some_treatment i_frame s Re)|]. intros t c Hc. rewrite d_of_d by (assumption || (rewrite Rl; reflexivity)).
  split; [apply ready_class; [assumption|right; reflexivity]|]. split; [apply ready_class; [assumption|left; reflexivity]|]. split; apply group_dt; try assumption; try apply R1; auto.
Qed.

Definition ssm_non_case : Prop := exists s, i_data rs2 s /\
  fits_after (ssm_init q_learner i_rd i_frame s (fun _ _ => w_tts) reg cls cls (PInt 2) (PInt 1) (PStr "nonignorable") (PBool false) (PStr "truncate") (PFloat (1 / 100)) (PBool true)).
Definition pliv_case (r : M_Data.roles) (score : string) : Prop := exists s, i_data r s /\
  fits_after (pliv_init q_learner i_rd i_frame s (fun _ _ => 0) reg reg reg (Some reg) (PInt 2) (PInt 1) (PStr score) (PBool true)).
Lemma pliv_ok r score : (r = rz1 /\ (score = "partialling out" \/ score = "IV-type")) \/ (r = rz2 /\ score = "partialling out") -> forall s, S_Data.constructed i_frame s -> M_Data.dd_roles s = r -> unclustered s ->
  succeeds (pliv_init q_learner i_rd i_frame s (fun _ _ => 0) reg reg reg (Some reg) (PInt 2) (PInt 1) (PStr score) (PBool true)).
Proof.
  intros Hr s Con Rl Un. apply (pliv_accepts q_learner i_rd i_frame s Con Un). split; [apply i_split; exact Logic.I|]. split; [exact reg_values|]. split; [exact reg_values|]. split; [exact reg_values|].
  rewrite Rl. destruct Hr as [(-> & Hs)|(-> & ->)].
  - exists "z", []. split; [reflexivity|]. destruct Hs as [->| ->]; [left; reflexivity|right]. split; [reflexivity|]. split; [reflexivity|]. exists reg. split; [reflexivity|exact reg_values].
  - exists "z", ["z2"]. split; [reflexivity|left; reflexivity].
Qed.
Lemma pliv_cases score : score = "partialling out" \/ score = "IV-type" -> pliv_case rz1 score.
Proof.
  intro Hs. apply with_data; [cbn; tauto|]. intros s Con Rl Re Un. destruct (pliv_ok rz1 score (or_introl (conj eq_refl Hs)) s Con Rl Un) as ((C & w0) & E).
  destruct (pliv_made q_learner i_rd i_frame s Re i_sound _ _ _ _ _ _ _ _ _ _ _ E) as (z & more & mc & Ez & _ & Ec & Sr & Od & R1 & R2 & R3 & R4). rewrite Rl in Ez. injection Ez as <- <-. rewrite (plain_ctx i_frame s Re _ Un) in Ec. subst C.
  begin_fit. apply (pliv_fit_success q_learner q_predict q_proba); fit_base; [exact (some_treatment i_frame s Re)|]. intros t c Hc.
  split; [apply ready_any; [exact Kw|apply R1]|]. split; [apply ready_any; [exact Kw|apply R2]|]. split; [apply ready_any; [exact Kw|apply R3]|]. intros I v. destruct (R4 I) as (l & _ & Rg). apply ready_any; [exact Kw|apply Rg].
Qed.
Lemma pliv_several_cases : pliv_case rz2 "partialling out".
Proof.
  apply with_data; [cbn; tauto|]. intros s Con Rl Re Un. destruct (pliv_ok rz2 "partialling out" (or_intror (conj eq_refl eq_refl)) s Con Rl Un) as ((C & w0) & E).
  destruct (pliv_made q_learner i_rd i_frame s Re i_sound _ _ _ _ _ _ _ _ _ _ _ E) as (z & more & mc & Ez & _ & Ec & Sr & Od & R1 & R2 & R3 & R4). rewrite Rl in Ez. injection Ez as <- <-. rewrite (plain_ctx i_frame s Re _ Un) in Ec. change (one_key _ _) with true in Ec. rewrite asserting_true in Ec. subst C.
  begin_fit. apply (pliv_several_fit_success q_learner q_predict q_proba); fit_base; [exact (some_treatment i_frame s Re)|]. intros t c Hc.
  split; [apply ready_any; [exact Kw|apply R1]|]. split; [intros name v Hv; apply ready_any; [exact Kw|apply R2]|apply ready_any; [exact Kw|apply R3]].
Qed.
Definition pliv_z_case : Prop := exists s, i_data rz2 s /\ fits_after (pliv_partial_z q_learner i_rd i_frame s (fun _ _ => 0) reg reg (PInt 2) (PInt 1) (PStr "partialling out") (PBool true)).
Lemma pliv_z_cases : pliv_z_case.
Proof.
  apply with_data; [cbn; tauto|]. intros s Con Rl Re Un.
  destruct (proj2 (pliv_z_accepts q_learner i_rd i_frame s Con Un (fun _ _ => 0) reg reg (PInt 2) (PInt 1) (PStr "partialling out") (PBool true) reg_values)) as ((C & w0) & E).
  { split; [apply i_split; exact Logic.I|]. split; [exact reg_values|]. split; [reflexivity|]. rewrite Rl. exists "z", ["z2"]. reflexivity. }
  destruct (pliv_z_made q_learner i_rd i_frame s Re i_sound _ _ _ _ _ _ _ _ _ E) as (mc & Ec & Sr & Od & R1). rewrite (plain_ctx i_frame s Re _ Un) in Ec. subst C.
  begin_fit. apply (pliv_z_fit_success q_learner q_predict q_proba); fit_base; [exact (some_treatment i_frame s Re)|]. intros t c Hc. apply ready_any; [exact Kw|apply R1].
Qed.
Definition pliv_xz_case : Prop := exists s, i_data rz2 s /\ fits_after (pliv_partial_xz q_learner i_rd i_frame s (fun _ _ => 0) reg reg reg (PInt 2) (PInt 1) (PStr "partialling out") (PBool true)).
Lemma pliv_xz_cases : pliv_xz_case.
Proof.
  apply with_data; [cbn; tauto|]. intros s Con Rl Re Un.
  destruct (proj2 (pliv_xz_accepts q_learner i_rd i_frame s Con Un (fun _ _ => 0) reg reg reg (PInt 2) (PInt 1) (PStr "partialling out") (PBool true))) as ((C & w0) & E).
  { split; [apply i_split; exact Logic.I|]. split; [exact reg_values|]. split; [exact reg_values|]. split; [exact reg_values|]. split; [reflexivity|]. rewrite Rl. exists "z", ["z2"]. reflexivity. }
  destruct (pliv_xz_made q_learner i_rd i_frame s Re i_sound _ _ _ _ _ _ _ _ _ _ E) as (mc & Ec & Sr & Od & R1 & R2 & R3). rewrite (plain_ctx i_frame s Re _ Un) in Ec. subst C.
  begin_fit. apply (pliv_xz_fit_success q_learner q_predict q_proba); fit_base; [exact (some_treatment i_frame s Re)| |].
  - intros sm fs h Es Hf Hh. rewrite (proj1 Kw) in Es. injection Es as <-. destruct Hf as [<-|[]]. destruct Hh as [<-|[<-|[]]]; discriminate.
  - intros t c Hc. split; [apply ready_any; [exact Kw|apply R1]|]. intros lrn sm r fs _ Es Er. exact (i_anything mc w t c lrn lrn Kw sm r fs Es Er).
Qed.
Lemma ssm_non_cases : ssm_non_case.
Proof.
  apply with_data; [cbn; tauto|]. intros s Con Rl Re Un. destruct (ssm_ok rs2 "nonignorable" (or_intror (conj eq_refl eq_refl)) s Con Rl Re Un) as ((C & w0) & E).
  destruct (ssm_made q_learner i_rd i_frame s Re i_sound _ _ _ _ _ _ _ _ _ _ _ _ _ E) as (sel & mc & nm & th & st & Es & Ec & Sr & Od & R1 & R2 & R3 & _). rewrite Rl in Es. injection Es as <-. rewrite (plain_ctx i_frame s Re _ Un) in Ec. cbn [String.eqb Ascii.eqb Bool.eqb] in Ec. subst C.
  begin_fit. apply (ssm_non_fit_success q_learner); fit_base; [exact (some_treatment i_frame s Re)|]. intros t c sm r fs Hc Em Er. rewrite d_of_d by (assumption || (rewrite Rl; reflexivity)).
  split; [|intros name lrn _; exact (i_anything mc w t c name lrn Kw sm r fs Em Er)].
  rewrite (proj1 Kw) in Em. injection Em as <-. destruct r as [|[|r]]; [injection Er as <-|discriminate|discriminate].
  intros h Hh. destruct Hh as [<-|[<-|[]]]; (split; [discriminate|]); [split; [exists 7%nat|exists 6%nat]|split; [exists 3%nat|exists 2%nat]]; (split; [cbn; tauto|]); (split; [cbn; lia|]); split; reflexivity.
Qed.

(** ** Clustered data: the split is drawn by the constructor *)
Definition rc1 : M_Data.roles := i_roles ["d"] None None None (Some ["c"]).
Definition rc2 : M_Data.roles := i_roles ["d"] (Some ["z"]) None None (Some ["c"]).
Definition w_codes : nat -> Z := fun i => Z.of_nat (nth i [0; 0; 2; 2; 4; 4; 6; 6]%nat 0%nat).
Lemma codes_c : value_codes (col i_frame "c") = w_codes.
Proof.
  apply functional_extensionality. intro i. unfold value_codes, w_codes. change (col i_frame "c") with w_c. f_equal.
  destruct (Nat.lt_ge_cases i 8) as [Hi|Hi].
  - eight i; cbn [first_row]; unfold w_c; cbn [nth]; repeat (match goal with |- context [Req_EM_T ?a ?b] => let q := fresh in destruct (Req_EM_T a b) as [q|q]; [try (apply INR_eq in q; discriminate)|try (exfalso; apply q; reflexivity)] end); reflexivity.
  - assert (Z : nth i [0; 0; 2; 2; 4; 4; 6; 6]%nat 0%nat = 0%nat) by (apply nth_overflow; cbn; lia). assert (V : w_c 0 = w_c i) by (unfold w_c; rewrite Z; reflexivity). rewrite Z. destruct i as [|i]; [lia|]. cbn [first_row]. destruct (Req_EM_T (w_c 0) (w_c (S i))); [reflexivity|contradiction].
Qed.
Lemma c_exists r : r = rc1 \/ r = rc2 -> exists s, i_data r s /\ M_Data.r_cl (M_Data.dd_roles s) = Some ["c"] /\ M_Data.r_d (M_Data.dd_roles s) = ["d"].
Proof.
  intro H. assert (W : S_Data.well_formed i_frame r /\ M_Data.r_d r <> [] /\ M_Data.r_cl r = Some ["c"] /\ M_Data.r_d r = ["d"]).
  { destruct H as [->| ->]; (split; [i_wf|split; [discriminate|split; reflexivity]]). }
  destruct W as (W & Hd & Hc & Hd2). destruct (i_exists r W Hd) as (s & K & R & O). exists s. split; [split; auto|]. rewrite R. auto.
Qed.
Lemma c_drawn s : S_Data.reachable i_frame s -> M_Data.r_cl (M_Data.dd_roles s) = Some ["c"] -> M_Data.r_d (M_Data.dd_roles s) = ["d"] ->
  exists w, @base_new unit i_rd i_frame s (PInt 2) (PInt 1) (PBool true) = Ok w /\ split_known w.
Proof.
  intros Re Hc Hd. unfold base_new, base_ctx. rewrite (clustered_ctx i_frame s Re _ ["c"] Hc), Hd. cbn [map]. rewrite codes_c.
  match goal with |- context [new_object ?C] => destruct (built_new C (PInt 2) (PInt 1) (PBool true) g_id no_perm (Some [w_smpls]) 1 2 2) as (w0 & N & _ & Es & En & _); [vm_compute; reflexivity|] end.
  exists w0. split; [exact N|]. split; [exact Es|]. apply new_inv in N. destruct N as (_ & _ & _ & _ & _ & _ & _ & _ & H). rewrite En in H. exact H.
Qed.
Definition plr_cl_case : Prop := exists s, i_data rc1 s /\ fits_after (plr_init q_learner i_rd i_frame s reg reg None (PInt 2) (PInt 1) (PStr "partialling out") (PBool true)).
Definition pliv_cl_case : Prop := exists s, i_data rc2 s /\ fits_after (pliv_init q_learner i_rd i_frame s (fun _ _ => 0) reg reg reg None (PInt 2) (PInt 1) (PStr "partialling out") (PBool true)).
Lemma plr_cl_cases : plr_cl_case.
Proof.
  destruct (c_exists rc1 (or_introl eq_refl)) as (s & K & Hc & Hd). pose proof K as (Con & Rl & _). pose proof (i_reach _ _ K) as Re. exists s. split; [exact K|]. destruct (c_drawn s Re Hc Hd) as (w & B & Kw).
  assert (E : exists C, plr_init q_learner i_rd i_frame s reg reg None (PInt 2) (PInt 1) (PStr "partialling out") (PBool true) = Ok (C, w)).
  { unfold plr_init. rewrite B. cbn [bind]. rewrite Rl. cbn. eexists. reflexivity. }
  destruct E as (C & E). destruct (plr_made q_learner i_rd i_frame s Re i_sound _ _ _ _ _ _ _ _ _ E) as (mc & bin & Ec & Sr & Od & R1 & R2 & R3). rewrite (clustered_ctx i_frame s Re _ ["c"] Hc) in Ec. subst C.
  assert (F : exists w', fit (clustered (map (fun c => value_codes (col i_frame c)) ["c"]) (plr_ctx q_learner mc (M_Data.frows i_frame) (M_Data.r_d (M_Data.dd_roles s)) ("partialling out" =? "IV-type")%string bin (x_of i_frame s) (outcome i_frame s) (d_of i_frame s)))
      PNone (PBool true) ExtNone (PBool false) w = (w', Ok tt)).
  { apply (plr_cl_fit_success q_learner q_predict q_proba); fit_base; [rewrite Hd; discriminate|discriminate|destruct Kw; eauto|]. intros t c Ht.
    split; [apply ready_any; [exact Kw|apply R1]|]. split; [apply ready_any; [exact Kw|apply R2]|]. split; [discriminate|intros _; apply q_soft]. }
  destruct F as (w' & F). eexists _, w, w, w'. split; [exact E|]. split; [exists []; split; [intros o []|reflexivity]|]. split; [exact Kw|]. split; [intros m; apply i_learning, Kw|exact F].
Qed.
Lemma pliv_cl_cases : pliv_cl_case.
Proof.
  destruct (c_exists rc2 (or_intror eq_refl)) as (s & K & Hc & Hd). pose proof K as (Con & Rl & _). pose proof (i_reach _ _ K) as Re. exists s. split; [exact K|]. destruct (c_drawn s Re Hc Hd) as (w & B & Kw).
  assert (E : exists C, pliv_init q_learner i_rd i_frame s (fun _ _ => 0) reg reg reg None (PInt 2) (PInt 1) (PStr "partialling out") (PBool true) = Ok (C, w)).
  { unfold pliv_init. rewrite B. destruct (arrays_r i_frame s Re) as (_ & Az & _). rewrite Az, Rl. cbn. eexists. reflexivity. }
  destruct E as (C & E). destruct (pliv_made q_learner i_rd i_frame s Re i_sound _ _ _ _ _ _ _ _ _ _ _ E) as (z & more & mc & Ez & _ & Ec & Sr & Od & R1 & R2 & R3 & R4). rewrite Rl in Ez. injection Ez as <- <-. rewrite (clustered_ctx i_frame s Re _ ["c"] Hc) in Ec. subst C.
  assert (F : exists w', fit (clustered (map (fun c => value_codes (col i_frame c)) ["c"]) (pliv_ctx q_learner mc (M_Data.frows i_frame) (M_Data.r_d (M_Data.dd_roles s)) ("partialling out" =? "IV-type")%string (x_of i_frame s) (outcome i_frame s) (d_of i_frame s) (col i_frame "z")))
      PNone (PBool true) ExtNone (PBool false) w = (w', Ok tt)).
  { apply (pliv_cl_fit_success q_learner q_predict q_proba); fit_base; [rewrite Hd; discriminate|discriminate|destruct Kw; eauto|]. intros t c Ht.
    split; [apply ready_any; [exact Kw|apply R1]|]. split; [apply ready_any; [exact Kw|apply R2]|]. split; [apply ready_any; [exact Kw|apply R3]|]. discriminate. }
  destruct F as (w' & F). eexists _, w, w, w'. split; [exact E|]. split; [exists []; split; [intros o []|reflexivity]|]. split; [exact Kw|]. split; [intros m; apply i_learning, Kw|exact F].
Qed.

(** ** Corners *)
(** An instrument called "ml_l": the call is accepted, no fit ever returns. *)
Lemma instrument_name : exists s C w0, i_data rz3 s /\
  pliv_init q_learner i_rd i_frame s (fun _ _ => 0) reg reg reg None (PInt 2) (PInt 1) (PStr "partialling out") (PBool true) = Ok (C, w0) /\
  forall w nj store ext sm w', later C w0 w -> fit C nj store ext sm w <> (w', Ok tt).
Proof.
  destruct (s_exists rz3) as (s & K & Un); [cbn; tauto|]. pose proof K as (Con & Rl & _). pose proof (i_reach _ _ K) as Re.
  destruct (proj2 (pliv_accepts q_learner i_rd i_frame s Con Un (fun _ _ => 0) reg reg reg None (PInt 2) (PInt 1) (PStr "partialling out") (PBool true))) as ((C & w0) & E).
  { split; [apply i_split; exact Logic.I|]. split; [exact reg_values|]. split; [exact reg_values|]. split; [exact reg_values|]. rewrite Rl. exists "z", ["ml_l"]. split; [reflexivity|left; reflexivity]. }
  exists s, C, w0. split; [exact K|]. split; [exact E|]. intros w nj store ext sm w' La.
  destruct (pliv_made q_learner i_rd i_frame s Re i_sound _ _ _ _ _ _ _ _ _ _ _ E) as (z & more & mc & Ez & _ & Ec & Sr & _). rewrite Rl in Ez. injection Ez as <- <-. rewrite (plain_ctx i_frame s Re _ Un) in Ec. change (one_key _ _) with false in Ec. subst C.
  apply asserting_fails; [exact (some_treatment i_frame s Re)|eapply reached_later; eassumption].
Qed.
(** A sample selection model with a treatment with four values is accepted. *)
Lemma cs_whole : whole_numbers 8 (fun i => col i_frame "c" i + 2 * col i_frame "s" i).
Proof. intros i Hi. change (exists z, w_c i + 2 * w_t i = IZR z). exists (Z.of_nat (nth i [0; 0; 2; 2; 4; 4; 6; 6]%nat 0%nat) + (if Req_EM_T (w_t i) 0 then 0 else 2))%Z. rewrite plus_IZR, <- INR_IZR_INZ. unfold w_c. destruct (w_t01 i Hi) as [Q|Q]; rewrite Q; destruct (Req_EM_T _ _); lra. Qed.
Lemma ssm_any_treatment : exists s, i_data rs3 s /\ ~ S_Data.zero_one_column i_frame "c" /\
  succeeds (ssm_init q_learner i_rd i_frame s (fun _ _ => w_tts) reg cls cls (PInt 2) (PInt 1) (PStr "missing-at-random") (PBool false) (PStr "truncate") (PFloat (1 / 100)) (PBool true)).
Proof.
  destruct (s_exists rs3) as (s & K & Un); [cbn; tauto|]. pose proof K as (Con & Rl & _). pose proof (i_reach _ _ K) as Re. exists s. split; [exact K|]. split.
  - intro Z. destruct (Z 2%nat) as [Q|Q]; [cbn; lia| |]; cbn in Q; injection Q as Q; unfold w_c in Q; cbn in Q; lra.
  - apply (ssm_accepts q_learner i_rd i_frame s Con Un). destruct (arrays_r i_frame s Re) as (_ & _ & _ & _ & _ & D). rewrite Rl in D. destruct D as [D|[]]. rewrite <- D.
    split; [exists "s"; split; [rewrite Rl; reflexivity|]; cbv zeta; split; [intros _; exact cs_whole|apply i_split; exists 0%nat, 1%nat; split; [lia|reflexivity]]|].
    split; [left; reflexivity|]. split; [apply reg_outcome|]. split; [exact cls_proba|]. split; [exact cls_proba|]. split; [apply i_bool|exact i_trim].
Qed.
(** Without a selection variable the call fails with an AttributeError. *)
Lemma ssm_no_selection : exists s, i_data rd1 s /\
  ssm_init q_learner i_rd i_frame s (fun _ _ => w_tts) reg cls cls (PInt 2) (PInt 1) (PStr "missing-at-random") (PBool false) (PStr "truncate") (PFloat (1 / 100)) (PBool true) = Err AttributeError.
Proof.
  apply with_data; [cbn; tauto|]. intros s Con Rl Re Un. destruct (proj2 (@base_new_args unit i_rd i_frame s (Cl i_frame s Con Un) (PInt 2) (PInt 1) (PBool true)) (i_split None Logic.I)) as (w & B).
  unfold ssm_init. rewrite B. cbn [bind]. destruct (arrays_r i_frame s Re) as (_ & _ & _ & As & _). rewrite As, Rl.
  assert (T : trimming_arg (PStr "truncate") (PFloat (1 / 100)) = Ok (1 / 100)) by (apply trimming_iff; split; [reflexivity|]; split; [reflexivity|lra]). rewrite T. reflexivity.
Qed.
(** Weights that are no arrays. *)
Lemma weights_no_array : exists s, i_data rd1 s /\
  irm_init q_learner i_rd i_frame s reg cls (PInt 2) (PInt 1) (PStr "ATE") (WDict Wrong Wrong false) (PBool false) (PStr "truncate") (PFloat (1 / 100)) (PBool true) = Err AttributeError.
Proof.
  apply with_data; [cbn; tauto|]. intros s Con Rl Re Un.
  assert (A : succeeds (irm_init q_learner i_rd i_frame s reg cls (PInt 2) (PInt 1) (PStr "ATE") WNone (PBool false) (PStr "truncate") (PFloat (1 / 100)) (PBool true))).
  { apply (irm_accepts q_learner i_rd i_frame s Con Un). split; [unfold no_instruments; rewrite Rl; reflexivity|]. split; [exists "d"; split; [apply d_binary; rewrite Rl; reflexivity|exact d_split]|]. split; [left; split; [reflexivity|exact Logic.I]|].
    split; [apply reg_outcome|]. split; [exact cls_proba|]. split; [apply i_bool|exact i_trim]. }
  destruct A as (o & A). unfold irm_init in A |- *. revert A. destruct (base_new _ _ _ _ _ _) as [w|]; [|discriminate]. cbn [bind]. destruct (no_z s); [|discriminate]. destruct (one_treat s && _); [|discriminate]. cbn [require]. change (check_score (PStr "ATE") ["ATE"; "ATTE"]) with (Ok "ATE"). cbn [bind].
  destruct (redraw _ _ _ _ _ _); [|discriminate]. cbn [bind]. destruct (check_learner reg _ _); [|discriminate]. cbn [bind]. destruct (check_learner cls _ _); [|discriminate]. cbn [bind]. destruct (check_outcome _ _); [|discriminate]. cbn [bind]. destruct (check_bool _); [|discriminate]. cbn [bind]. destruct (trimming_arg _ _); [|discriminate]. cbn [bind]. cbv zeta. intros _.
  match goal with |- context [check_weights ?a ?b ?c ?d] => replace (check_weights a b c d) with (@Err unit AttributeError) end; reflexivity.
Qed.
(** A regressor for the propensity score is refused. *)
Lemma regressor_refused : exists s, i_data rd1 s /\ unclustered s /\ exists e, irm_init q_learner i_rd i_frame s reg reg (PInt 2) (PInt 1) (PStr "ATE") WNone (PBool false) (PStr "truncate") (PFloat (1 / 100)) (PBool true) = Err e.
Proof.
  destruct (s_exists rd1) as (s & K & Un); [cbn; tauto|]. pose proof K as (Con & _). exists s. split; [exact K|]. split; [exact Un|].
  destruct (irm_init _ _ _ _ _ _ _ _ _ _ _ _ _ _) as [o|e] eqn:Q; [exfalso|eauto].
  apply (ex_intro (fun o => _ = Ok o)) in Q. apply (irm_accepts q_learner i_rd i_frame s Con Un) in Q as (_ & _ & _ & _ & (_ & Q) & _). discriminate.
Qed.

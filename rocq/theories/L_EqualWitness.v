(** Different formulations of one estimation problem: concrete fits on ten rows. *)
From Verif Require Export L_EqualFit2 L_InitWitness.
From Verif Require Import L_FitSuccess L_FitSuccess2 L_InitAccept L_DataProps.
From Coq Require Import Lia Lra Permutation.
Local Open Scope R_scope.
Local Open Scope string_scope.

(** A classifier that gives each of two classes the probability 1/2. *)
Definition h_proba (d : r_memo) (v : row) : list R := map (fun _ => / 2) (m_classes (r_in d)).
Definition h_learner : learner r_memo row unit := {|
  ln_clone := ln_clone r_learner; ln_set := ln_set r_learner; ln_fit := ln_fit r_learner;
  ln_predict := fun d xs => map (q_predict d) xs; ln_proba := fun d xs => map (h_proba d) xs; ln_classes := ln_classes r_learner |}.
Lemma h_half e v p : nth_error (h_proba e v) 1 = Some p -> p = / 2.
Proof. intro H. apply nth_error_In in H. unfold h_proba in H. apply in_map_iff in H as (c & <- & _). reflexivity. Qed.
Lemma h_symmetric : label_symmetric h_learner h_proba.
Proof. intros e data m m' _ _ _ v p p' H H'. rewrite (h_half _ _ _ H), (h_half _ _ _ H'). lra. Qed.
Lemma h_classifier : classifier_ok h_learner h_proba.
Proof. intros e data m H. destruct (r_classifier e data m H) as (A & B & _). split; [exact A|]. split; [exact B|]. intro x. unfold h_proba. apply map_length. Qed.
Lemma h_soft (mc : machinery r_memo unit) lrn : soft q_predict h_proba mc lrn.
Proof.
  intros e v. destruct (mc_proba mc lrn); [intros p H; rewrite (h_half _ _ _ H); split; lra|]. unfold q_predict. pose proof (Rle_0_sqr (r_predict e v)). split; lra.
Qed.
(** Ten rows: "z" repeats the treatment "d", "e" is its opposite. *)
Definition h_d (i : nat) : R := if Nat.even i then 0 else 1.
Definition h_cell (c : string) (i : nat) : M_Data.cell := M_Data.Num (if String.eqb c "d" then h_d i else if String.eqb c "z" then h_d i else if String.eqb c "e" then 1 - h_d i else INR i).
Definition h_frame : M_Data.frame := M_Data.mk_frame ["y"; "d"; "x"; "z"; "e"] 10 h_cell.
Definition h_data (r : M_Data.roles) (s : M_Data.ddata) : Prop := S_Data.constructed h_frame s /\ M_Data.dd_roles s = r /\ M_Data.dd_other s = true.
Lemma h_exists r : In r [i_roles ["d"] None None None None; i_roles ["e"] None None None None; i_roles ["d"] (Some ["z"]) None None None] -> exists s, h_data r s.
Proof.
  intro H. assert (W : S_Data.well_formed h_frame r /\ M_Data.r_d r <> []) by (cbn in H; repeat (destruct H as [<-|H]; [split; [i_wf|discriminate]|]); destruct H). destruct W as (W & Hd).
  destruct (L_DataWitness.construct_of h_frame r true M_Data.Strict) as (s & K & R & O & _); [|exists s; split; auto].
  assert (N : forall c, S_Data.number_column h_frame c) by (intros c i _; cbn; eexists; reflexivity).
  split; [apply L_Data.distinct_iff; reflexivity|]. split; [exact W|]. split; [exact Hd|]. split; intros c _; [|apply number_allowed]; apply N.
Qed.
Lemma h_d01 i : h_d i = 0 \/ h_d i = 1.
Proof. unfold h_d. destruct (Nat.even i); auto. Qed.
Lemma h_01 c : c = "d" \/ c = "z" \/ c = "e" -> S_Data.zero_one_column h_frame c.
Proof.
  intros H i Hi. destruct H as [->|[->| ->]]; [change (M_Data.Num (h_d i) = M_Data.Num 0 \/ M_Data.Num (h_d i) = M_Data.Num 1)|change (M_Data.Num (h_d i) = M_Data.Num 0 \/ M_Data.Num (h_d i) = M_Data.Num 1)|change (M_Data.Num (1 - h_d i) = M_Data.Num 0 \/ M_Data.Num (1 - h_d i) = M_Data.Num 1)]; destruct (h_d01 i) as [->| ->]; auto; [right|left]; f_equal; ring.
Qed.
(** The split: rows 0 to 4 and rows 5 to 9. *)
Definition h_smpls : list fold := [([5; 6; 7; 8; 9], [0; 1; 2; 3; 4]); ([0; 1; 2; 3; 4], [5; 6; 7; 8; 9])]%nat.
Definition h_set : pysplit := SList [STup [IxInt [5; 6; 7; 8; 9]%Z; IxInt [0; 1; 2; 3; 4]%Z]; STup [IxInt [0; 1; 2; 3; 4]%Z; IxInt [5; 6; 7; 8; 9]%Z]].
Definition h_known (w : world unit) : Prop := m_smpls (w_obj w) = Some [h_smpls] /\ forall l t, m_params (w_obj w) l t = [None].
Lemma h_later (C : ctx unit) w0 : c_n C = 10%nat -> c_cluster C = None -> exists w, later C w0 w /\ h_known w.
Proof.
  intros Hn Hc. exists (run C [OSet h_set None] w0). split; [exists [OSet h_set None]; split; [intros o [<-|[]]; exact Logic.I|reflexivity]|].
  destruct C as [n dc cl st ls cc eo nu se]. cbn in Hn, Hc. subst n cl. split; reflexivity.
Qed.
Lemma h_reliable w : h_known w -> reliable h_learner q_predict h_proba i_rd w.
Proof.
  intros (Es & _). constructor; [intros e xs; split; reflexivity|exact q_clone|]. intros sm r t l fs E Er. rewrite Es in E. injection E as <-. destruct r as [|[|r]]; [injection Er as <-|discriminate|discriminate]. exact ex_sched.
Qed.
Lemma h_ready mc w t c name lrn y (G : nat -> Prop) a b : h_known w -> (a < 5)%nat -> (5 <= b < 10)%nat -> G a -> G b ->
  (mc_proba mc lrn = true -> forall i, (i < 10)%nat -> exists j k, (j < 5)%nat /\ (5 <= k < 10)%nat /\ G j /\ G k /\ y j = y i /\ y k = y i) -> (mc_proba mc lrn = true -> y 0%nat <> y 1%nat) ->
  ready h_learner h_proba mc w 10 t c name lrn y G.
Proof.
  intros (Es & Ep) Ha Hb Ga Gb Hy H2 sm r fs E Er. rewrite Es in E. injection E as <-. destruct r as [|[|r]]; [injection Er as <-|discriminate|discriminate]. constructor.
  - intros k p data _ _ H. exists data. destruct p as [[]|]; cbn; [exists []; split; [reflexivity|]|]; (destruct data; [congruence|reflexivity]).
  - cbn [setup_of su_params]. rewrite Ep. discriminate.
  - intros h Hh. cbn [setup_of su_n]. destruct Hh as [<- | [<- | []]]; [exists b|exists a]; (split; [lia|split; [assumption|cbn; lia]]).
  - intro Q. cbn [setup_of su_proba] in Q. split; [exact h_classifier|]. cbn [setup_of su_n]. intros h i Hh Hi. destruct (Hy Q i Hi) as (j & k & J & K & Gj & Gk & Yj & Yk).
    destruct Hh as [<- | [<- | []]]; [exists k|exists j]; (split; [lia|]); (split; [assumption|]); (split; [cbn; lia|assumption]).
  - intro Q. exists 0%nat, 1%nat. cbn [setup_of su_n]. split; [lia|]. split; [lia|exact (H2 Q)].
Qed.
Lemma h_class mc w t c name lrn y : h_known w -> y = h_d \/ y = (fun i => 1 - h_d i) -> ready h_learner h_proba mc w 10 t c name lrn y everyone.
Proof.
  intros K Hy. apply (h_ready mc w t c name lrn y everyone 0 5); try exact Logic.I; try lia; [exact K| |].
  - intros _ i _. destruct (h_d01 i) as [Q|Q]; [exists 0%nat, 6%nat|exists 1%nat, 5%nat]; (split; [lia|]); (split; [lia|]); (split; [exact Logic.I|]); (split; [exact Logic.I|]); destruct Hy as [->| ->]; rewrite Q; cbn; split; ring.
  - intros _ Q. destruct Hy as [->| ->]; cbn in Q; lra.
Qed.
Lemma h_group mc w t c name lrn y v b : h_known w -> mc_proba mc lrn = false -> v = h_d \/ v = (fun i => 1 - h_d i) -> b = 0 \/ b = 1 -> ready h_learner h_proba mc w 10 t c name lrn y (fun i => v i = b).
Proof.
  intros K Q Hv Hb. assert (X : v 0%nat = b /\ v 6%nat = b \/ v 1%nat = b /\ v 5%nat = b) by (destruct Hv as [->| ->], Hb as [->| ->]; cbn; lra).
  destruct X as [(X & Y)|(X & Y)]; [apply (h_ready mc w t c name lrn y _ 0 6)|apply (h_ready mc w t c name lrn y _ 1 5)]; try lia; try assumption; intro Z; congruence.
Qed.
Lemma h_seen w : h_known w -> labels_seen h_learner h_proba true w 10 h_d everyone.
Proof.
  intros (Es & _) _. split; [exact h_classifier|]. intros sm fs h i E Hf Hh _. rewrite Es in E. injection E as <-. destruct Hf as [<-|[]].
  destruct (h_d01 i) as [Q|Q]; destruct Hh as [<-|[<-|[]]]; [exists 6%nat|exists 0%nat|exists 5%nat|exists 1%nat]; (split; [lia|]); (split; [exact Logic.I|]); (split; [cbn; lia|]); rewrite Q; reflexivity.
Qed.
Lemma h_split v : split_args 10 (PInt 2) (PInt 1) (PBool false) v.
Proof. split; [reflexivity|]. split; [cbn; lia|]. split; [reflexivity|]. split; [cbn; lia|]. exists false. split; [reflexivity|discriminate]. Qed.
Lemma h_both : both_groups 10 h_d.
Proof. split; [exists 0%nat|exists 1%nat]; (split; [lia|reflexivity]). Qed.

(** The fits *)
Definition h_fit (r : result (ctx unit * world unit)) (w0 w w1 : world unit) (F : framework) : Prop :=
  exists C, r = Ok (C, w0) /\ later C w0 w /\ fit C PNone (PBool true) ExtNone (PBool false) w = (w1, Ok tt) /\ current_fw w1 F.
Definition h_irm s := irm_init h_learner i_rd h_frame s reg cls (PInt 2) (PInt 1) (PStr "ATE") WNone (PBool false) (PStr "truncate") (PFloat (1 / 100)) (PBool false).
Definition h_apo lvl s := apo_init h_learner i_rd h_frame s reg cls (PInt lvl) (PInt 2) (PInt 1) (PStr "APO") WNone (PBool false) (PStr "truncate") (PFloat (1 / 100)) (PBool false).
Definition h_takers : list (string * pyval) := [("always_takers", PBool false); ("never_takers", PBool false)].
Definition h_iivm s := iivm_init h_learner i_rd h_frame s reg cls cls (PInt 2) (PInt 1) (PStr "LATE") (SgDict h_takers) (PBool false) (PStr "truncate") (PFloat (1 / 100)) (PBool false).
Definition h_plr s := plr_init h_learner i_rd h_frame s reg reg None (PInt 2) (PInt 1) (PStr "partialling out") (PBool false).
Definition h_pliv s := pliv_init h_learner i_rd h_frame s (fun _ v => Rsum v) reg reg reg None (PInt 2) (PInt 1) (PStr "partialling out") (PBool false).
(** The constructor returns and the fit succeeds. *)
Definition h_runs (r : result (ctx unit * world unit)) : Prop :=
  exists C w0 w w1, r = Ok (C, w0) /\ later C w0 w /\ h_known w /\ (0 < m_n_rep (w_obj w0))%nat /\ fit C PNone (PBool true) ExtNone (PBool false) w = (w1, Ok tt).
Lemma h_runs_of r (C : ctx unit) w0 : r = Ok (C, w0) -> c_n C = 10%nat -> c_cluster C = None -> soundly_reached C w0 ->
  (forall w, h_known w -> soundly_reached C w -> (exists sm, m_smpls (w_obj w) = Some sm) -> exists w', fit C PNone (PBool true) ExtNone (PBool false) w = (w', Ok tt)) -> h_runs r.
Proof.
  intros E Hn Hc Sr H. destruct (h_later C w0 Hn Hc) as (w & Lt & K). destruct (H w K (reached_later _ _ _ Sr Lt)) as (w' & F); [destruct K as (K & _); eauto|].
  exists C, w0, w, w'. split; [exact E|]. split; [exact Lt|]. split; [exact K|]. split; [exact (wf_rep _ _ (reachable_wf _ _ (reached_reachable _ _ Sr)))|exact F].
Qed.
Lemma h_trim : trimming_ok (PStr "truncate") (PFloat (1 / 100)).
Proof. exact i_trim. Qed.
Lemma h_col c v : (c = "d" /\ v = h_d \/ c = "e" /\ v = (fun i => 1 - h_d i) \/ c = "z" /\ v = h_d) -> col h_frame c = v.
Proof. intros [(-> & ->)|[(-> & ->)|(-> & ->)]]; reflexivity. Qed.
Lemma h_irm_runs c s : c = "d" \/ c = "e" -> h_data (i_roles [c] None None None None) s -> h_runs (h_irm s).
Proof.
  intros Hc (Con & Ro & Ot). pose proof (S_Data.R_new _ _ Con) as Re. assert (Un : unclustered s) by (unfold unclustered; rewrite Ro; reflexivity).
  destruct (proj2 (irm_accepts h_learner i_rd h_frame s Con Un reg cls (PInt 2) (PInt 1) (PStr "ATE") WNone (PBool false) (PStr "truncate") (PFloat (1 / 100)) (PBool false))) as ((C & w0) & E).
  { split; [unfold no_instruments; rewrite Ro; reflexivity|]. split; [exists c; split; [split; [rewrite Ro; reflexivity|apply h_01; tauto]|apply h_split]|]. split; [left; split; [reflexivity|exact Logic.I]|].
    split; [apply reg_outcome|]. split; [exact cls_proba|]. split; [apply i_bool|exact i_trim]. }
  destruct (irm_made h_learner i_rd h_frame s Re i_sound _ _ _ _ _ _ _ _ _ _ _ _ E) as (c' & mc & nm & th & bo & st & (Bt & _) & Ec & Sr & Od & R1 & R2 & _). rewrite Ro in Bt. injection Bt as <-. rewrite (plain_ctx h_frame s Re _ Un) in Ec. subst C.
  eapply h_runs_of; [exact E|reflexivity|reflexivity|exact Sr|]. intros w Kw Sw Sm.
  assert (Cv : col h_frame c = h_d \/ col h_frame c = (fun i => 1 - h_d i)) by (destruct Hc as [->| ->]; [left|right]; reflexivity).
  apply (irm_fit_success h_learner q_predict h_proba); try assumption; [cbn; lia|apply (reliable_sound _ _ _ _ i_rd _ Od), h_reliable, Kw|left; reflexivity|apply (h_group mc w 0 c "ml_g0" "ml_g" _ _ 0 Kw (proj2 R1) Cv); auto|apply (h_group mc w 0 c "ml_g1" "ml_g" _ _ 1 Kw (proj2 R1) Cv); auto|apply (h_class mc w 0 c "ml_m" "ml_m" _ Kw Cv)|intros _; apply h_soft].
Qed.
Lemma h_rows (z : Z) : z = 0%Z \/ z = 1%Z -> (5 <= rows_with 10 (col h_frame "d") (IZR z))%nat.
Proof.
  intro Hz. set (l := if Z.eqb z 0 then [0; 2; 4; 6; 8]%nat else [1; 3; 5; 7; 9]%nat).
  assert (V : forall k, In k l -> (k < 10)%nat /\ col h_frame "d" k = IZR z) by (unfold l; intros k Hk; destruct Hz as [->| ->]; cbn in Hk; repeat (destruct Hk as [<-|Hk]; [split; [lia|reflexivity]|]); destruct Hk).
  unfold rows_with. apply (Nat.le_trans _ (length l)); [unfold l; destruct Hz as [->| ->]; cbn; lia|]. apply NoDup_incl_length; [unfold l; destruct Hz as [->| ->]; cbn [Z.eqb]; repeat (apply NoDup_cons; [cbn [In]; lia|]); apply NoDup_nil|].
  intros k Hk. destruct (V k Hk) as (A & B). apply filter_In. split; [apply in_seq; lia|]. destruct (Req_EM_T _ _); [reflexivity|contradiction].
Qed.
Lemma h_level z s : M_Data.c_d s = "d" -> z = 0%Z \/ z = 1%Z -> forall i, treated_at h_frame s (PInt z) i = if Z.eqb z 0 then 1 - h_d i else h_d i.
Proof.
  intros H Hz i. unfold treated_at. cbn [level_of]. rewrite H. change (col h_frame "d" i) with (h_d i). destruct Hz as [->| ->]; cbn [Z.eqb]; destruct (h_d01 i) as [->| ->]; destruct (Req_EM_T _ _); lra.
Qed.
Lemma h_apo_runs z s : z = 0%Z \/ z = 1%Z -> h_data (i_roles ["d"] None None None None) s -> h_runs (h_apo z s).
Proof.
  intros Hz (Con & Ro & Ot). pose proof (S_Data.R_new _ _ Con) as Re. assert (Un : unclustered s) by (unfold unclustered; rewrite Ro; reflexivity).
  destruct (proj2 (apo_accepts h_learner i_rd h_frame s Con Un reg cls (PInt z) (PInt 2) (PInt 1) (PStr "APO") WNone (PBool false) (PStr "truncate") (PFloat (1 / 100)) (PBool false))) as ((C & w0) & E).
  { split; [unfold no_instruments; rewrite Ro; reflexivity|]. split; [exists "d", (IZR z); split; [rewrite Ro; reflexivity|]; split; [reflexivity|]; split; [exact (h_rows z Hz)|]; split; [discriminate|apply h_split]|]. split; [reflexivity|]. split; [exact Logic.I|].
    split; [apply reg_outcome|]. split; [exact cls_proba|]. split; [apply i_bool|exact i_trim]. }
  destruct (apo_made h_learner i_rd h_frame s Re i_sound _ _ _ _ _ _ _ _ _ _ _ _ _ E) as (c & mc & nm & th & bo & st & Bt & Ec & Sr & Cd & Od & R1 & R2 & _). rewrite Ro in Bt. injection Bt as <-. rewrite (plain_ctx h_frame s Re _ Un) in Ec. subst C.
  eapply h_runs_of; [exact E|reflexivity|reflexivity|exact Sr|]. intros w Kw Sw Sm.
  assert (Cv : treated_at h_frame s (PInt z) = h_d \/ treated_at h_frame s (PInt z) = (fun i => 1 - h_d i)) by (destruct Hz as [->| ->]; [right|left]; apply FunctionalExtensionality.functional_extensionality; intro i; [exact (h_level 0 s Cd (or_introl eq_refl) i)|exact (h_level 1 s Cd (or_intror eq_refl) i)]).
  apply (apo_fit_success h_learner q_predict h_proba); try assumption; [cbn; lia|apply (reliable_sound _ _ _ _ i_rd _ Od), h_reliable, Kw|left; reflexivity|apply (h_group mc w 0 "d" "ml_g_d_lvl0" "ml_g" _ _ 0 Kw (proj2 R1) Cv); auto|apply (h_group mc w 0 "d" "ml_g_d_lvl1" "ml_g" _ _ 1 Kw (proj2 R1) Cv); auto|apply (h_class mc w 0 "d" "ml_m" "ml_m" _ Kw Cv)|intros _; apply h_soft].
Qed.
Lemma h_iivm_runs s : h_data (i_roles ["d"] (Some ["z"]) None None None) s -> h_runs (h_iivm s).
Proof.
  intros (Con & Ro & Ot). pose proof (S_Data.R_new _ _ Con) as Re. assert (Un : unclustered s) by (unfold unclustered; rewrite Ro; reflexivity).
  destruct (proj2 (iivm_accepts h_learner i_rd h_frame s Con Un reg cls cls (PInt 2) (PInt 1) (PStr "LATE") (SgDict h_takers) (PBool false) (PStr "truncate") (PFloat (1 / 100)) (PBool false))) as ((C & w0) & E).
  { split; [exists "d", "z"; split; [split; [rewrite Ro; reflexivity|apply h_01; tauto]|]; split; [rewrite Ro; reflexivity|]; split; [apply h_01; tauto|apply h_split]|]. split; [reflexivity|].
    split; [apply reg_outcome|]. split; [exact cls_proba|]. split; [exact cls_proba|]. split; [apply i_bool|]. split; [exact i_trim|]. split; [intro k; cbn; firstorder congruence|]. intros k v [->| ->] Q; injection Q as <-; eexists; reflexivity. }
  destruct (iivm_made h_learner i_rd h_frame s Re i_sound _ _ _ _ _ _ _ _ _ _ _ _ _ E) as (c & zc & mc & nm & th & bo & a1 & n1 & st & (Bt & _) & Bz & _ & Ec & Sr & Od & R1 & R2 & R3 & _ & _ & _ & Sg). rewrite Ro in Bt, Bz. injection Bt as <-. injection Bz as <-. injection Sg as <- <-. rewrite (plain_ctx h_frame s Re _ Un) in Ec. subst C.
  eapply h_runs_of; [exact E|reflexivity|reflexivity|exact Sr|]. intros w Kw Sw Sm.
  apply (iivm_fit_success h_learner q_predict h_proba); try assumption; [cbn; lia|apply (reliable_sound _ _ _ _ i_rd _ Od), h_reliable, Kw|left; reflexivity|apply (h_group mc w 0 "d" "ml_g0" "ml_g" _ h_d 0 Kw (proj2 R1)); auto|apply (h_group mc w 0 "d" "ml_g1" "ml_g" _ h_d 1 Kw (proj2 R1)); auto|apply (h_class mc w 0 "d" "ml_m" "ml_m" h_d Kw); auto|discriminate|discriminate|intros _; apply h_soft].
Qed.
Lemma h_any mc w t c name lrn y : h_known w -> mc_proba mc lrn = false -> ready h_learner h_proba mc w 10 t c name lrn y everyone.
Proof. intros K Q. apply (h_ready mc w t c name lrn y everyone 0 5); try exact Logic.I; try lia; try assumption; intro Z; congruence. Qed.
Lemma h_plr_runs s : h_data (i_roles ["d"] None None None None) s -> h_runs (h_plr s).
Proof.
  intros (Con & Ro & Ot). pose proof (S_Data.R_new _ _ Con) as Re. assert (Un : unclustered s) by (unfold unclustered; rewrite Ro; reflexivity).
  destruct (proj2 (plr_accepts h_learner i_rd h_frame s Con Un reg reg None (PInt 2) (PInt 1) (PStr "partialling out") (PBool false))) as ((C & w0) & E).
  { split; [unfold no_instruments; rewrite Ro; reflexivity|]. split; [apply h_split|]. split; [left; reflexivity|]. split; [exact reg_values|]. split; [repeat split; auto|discriminate]. }
  destruct (plr_made h_learner i_rd h_frame s Re i_sound _ _ _ _ _ _ _ _ _ E) as (mc & bin & Ec & Sr & Od & R1 & R2 & _). rewrite (plain_ctx h_frame s Re _ Un) in Ec. subst C.
  eapply h_runs_of; [exact E|reflexivity|reflexivity|exact Sr|]. intros w Kw Sw Sm.
  apply (plr_fit_success h_learner q_predict h_proba); try assumption; [cbn; lia|exact (some_treatment _ s Re)|apply (reliable_sound _ _ _ _ i_rd _ Od), h_reliable, Kw|left; reflexivity|].
  intros t c Hc. split; [exact (h_any _ _ _ _ _ _ _ Kw (proj2 R1))|]. split; [exact (h_any _ _ _ _ _ _ _ Kw (proj2 R2))|]. split; [discriminate|intros _; apply h_soft].
Qed.
Lemma h_pliv_runs s : h_data (i_roles ["d"] (Some ["z"]) None None None) s -> h_runs (h_pliv s).
Proof.
  intros (Con & Ro & Ot). pose proof (S_Data.R_new _ _ Con) as Re. assert (Un : unclustered s) by (unfold unclustered; rewrite Ro; reflexivity).
  destruct (proj2 (pliv_accepts h_learner i_rd h_frame s Con Un (fun _ v => Rsum v) reg reg reg None (PInt 2) (PInt 1) (PStr "partialling out") (PBool false))) as ((C & w0) & E).
  { split; [apply h_split|]. split; [exact reg_values|]. split; [exact reg_values|]. split; [exact reg_values|]. exists "z", []. split; [rewrite Ro; reflexivity|left; reflexivity]. }
  destruct (pliv_made h_learner i_rd h_frame s Re i_sound _ _ _ _ _ _ _ _ _ _ _ E) as (z & more & mc & Bz & _ & Ec & Sr & Od & R1 & R2 & R3 & _). rewrite Ro in Bz. injection Bz as <- <-. rewrite (plain_ctx h_frame s Re _ Un) in Ec. subst C.
  eapply h_runs_of; [exact E|reflexivity|reflexivity|exact Sr|]. intros w Kw Sw Sm.
  apply (pliv_fit_success h_learner q_predict h_proba); try assumption; [cbn; lia|exact (some_treatment _ s Re)|apply (reliable_sound _ _ _ _ i_rd _ Od), h_reliable, Kw|left; reflexivity|].
  intros t c Hc. split; [exact (h_any _ _ _ _ _ _ _ Kw (proj2 R1))|]. split; [exact (h_any _ _ _ _ _ _ _ Kw (proj2 R2))|]. split; [exact (h_any _ _ _ _ _ _ _ Kw (proj2 R3))|discriminate].
Qed.

Lemma h_problem s s' w w' : M_Data.r_y (M_Data.dd_roles s) = "y" -> M_Data.r_y (M_Data.dd_roles s') = "y" -> h_known w -> h_known w' -> same_problem h_frame s w h_frame s' w'.
Proof. intros R R' (K & _) (K' & _). constructor; [reflexivity|intros i _; unfold outcome; rewrite R, R'; reflexivity|congruence]. Qed.
Lemma h_matched w w' c l c' l' : h_known w -> h_known w' -> matched w w' ExtNone ExtNone c l c' l' 0.
Proof.
  intros (_ & K) (_ & K'). left. split; [intros e (el & il & a & Q & _); discriminate Q|]. split; [intros e (el & il & a & Q & _); discriminate Q|]. rewrite K, K'. reflexivity.
Qed.
Lemma h_mirrored w w' c l c' l' : h_known w -> h_known w' -> mirrored h_learner h_proba w w' ExtNone ExtNone c l c' l' 0.
Proof.
  intros (_ & K) (_ & K'). left. split; [intros e (el & il & a & Q & _); discriminate Q|]. split; [intros e (el & il & a & Q & _); discriminate Q|]. split; [rewrite K, K'; reflexivity|exact h_symmetric].
Qed.
(** Learned probabilities of this classifier are 1/2. *)
Lemma h_bounds mc w x y fs m0 m c : runs_on mc "ml_m" cls true -> used_prediction h_learner q_predict h_proba mc w 10 ExtNone 0 0 c "ml_m" "ml_m" x y whole_train fs m0 -> clipped 10 true (1 / 100) m0 m -> forall d, off_bounds 10 (ps_adjust 10 m d false).
Proof.
  intros (_ & Q) (_ & U) Cp d i Hi. cbn [ps_adjust]. destruct U as (cd & _ & V); [intros e (el & il & a & Z & _); discriminate Z|].
  destruct (V i Hi) as (k & h & rows & p & mm & _ & _ & _ & _ & X). cbn [setup_of su_proba] in X. rewrite Q in X. apply h_half in X. rewrite (Cp i Hi), X. unfold Rmin, Rmax. repeat destruct (Rle_dec _ _); split; lra.
Qed.
Definition swap_case : Prop := exists s s' w0 w w1 w0' w' w1' F F',
  h_data (i_roles ["d"] None None None None) s /\ h_data (i_roles ["e"] None None None None) s' /\ h_fit (h_irm s) w0 w w1 F /\ h_fit (h_irm s') w0' w' w1' F' /\ signed F F' 0 0 (-1).
Lemma swap_holds : swap_case.
Proof.
  destruct (h_exists (i_roles ["d"] None None None None)) as (s & D); [cbn; tauto|]. destruct (h_exists (i_roles ["e"] None None None None)) as (s' & D'); [cbn; tauto|].
  destruct (h_irm_runs "d" s) as (C & w0 & w & w1 & E & Lt & K & Np & Ff); [auto|exact D|]. destruct (h_irm_runs "e" s') as (C' & w0' & w' & w1' & E' & Lt' & K' & Np' & Ff'); [auto|exact D'|].
  pose proof D as (Con & Ro & Ot). pose proof D' as (Con' & Ro' & Ot').
  destruct (irm_swapped r_memo unit h_learner q_predict h_proba i_rd i_rd h_frame h_frame s s' "d" "e" reg cls WNone false (PInt 2) (PInt 2) (PInt 1) (PInt 1) (PBool false) (PBool false) (PStr "truncate") (PStr "truncate") (1 / 100) C C' w0 w0' w w' PNone PNone (PBool true) (PBool true) ExtNone ExtNone (PBool false) (PBool false) w1 w1') as (mc & F & F' & sm & R2 & Dn & Dn' & H); try assumption.
  - exact (S_Data.R_new _ _ Con).
  - unfold unclustered; rewrite Ro; reflexivity.
  - exact i_sound.
  - cbn. lia.
  - exact (S_Data.R_new _ _ Con').
  - unfold unclustered; rewrite Ro'; reflexivity.
  - exact i_sound.
  - apply h_reliable, K.
  - apply h_reliable, K'.
  - apply h_problem; [rewrite Ro|rewrite Ro'| |]; auto.
  - rewrite Ro. reflexivity.
  - rewrite Ro'. reflexivity.
  - intros i _. reflexivity.
  - intros i _. unfold covariates. rewrite Ro, Ro', Ot, Ot'. reflexivity.
  - exact h_both.
  - intro Q. discriminate Q.
  - intro Q. discriminate Q.
  - exact (h_seen w K).
  - exists s, s', w0, w, w1, w0', w', w1', F, F'. split; [exact D|]. split; [exact D'|]. split; [exists C; split; [exact E|]; split; [exact Lt|]; split; [exact Ff|apply Dn]|]. split; [exists C'; split; [exact E'|]; split; [exact Lt'|]; split; [exact Ff'|apply Dn']|].
    assert (sm = [h_smpls]) as -> by (destruct K as (K & _); destruct Dn as (_ & _ & _ & Es & _); congruence).
    destruct (H 0%nat h_smpls eq_refl Np Np') as (m0 & m & U & Cp & Q); [apply h_matched; assumption|apply h_matched; assumption|apply h_mirrored; assumption|].
    apply Q. exact (h_bounds mc w _ _ _ m0 m "d" R2 U Cp _).
Qed.
Definition contrast_case : Prop := exists s w0 w w1 F w01 wa1 w1' F1 w00 wa0 w0' F0,
  h_data (i_roles ["d"] None None None None) s /\ h_fit (h_irm s) w0 w w1 F /\ h_fit (h_apo 1 s) w01 wa1 w1' F1 /\ h_fit (h_apo 0 s) w00 wa0 w0' F0 /\ difference_of 10 0 0 F F1 F0.
Lemma contrast_holds : contrast_case.
Proof.
  destruct (h_exists (i_roles ["d"] None None None None)) as (s & D); [cbn; tauto|].
  destruct (h_irm_runs "d" s) as (C & w0 & w & w1 & E & Lt & K & Np & Ff); [auto|exact D|]. destruct (h_apo_runs 1 s) as (C1 & w01 & wa1 & w1' & E1 & Lt1 & K1 & Np1 & Ff1); [auto|exact D|]. destruct (h_apo_runs 0 s) as (C0 & w00 & wa0 & w0' & E0 & Lt0 & K0 & Np0 & Ff0); [auto|exact D|].
  pose proof D as (Con & Ro & Ot).
  destruct (apo_contrast r_memo unit h_learner q_predict h_proba i_rd i_rd i_rd h_frame s "d" reg cls (PStr "APO") (PStr "APO") WNone false (PInt 2) (PInt 2) (PInt 2) (PInt 1) (PInt 1) (PInt 1) (PBool false) (PBool false) (PBool false) (PStr "truncate") (PStr "truncate") (PStr "truncate") (1 / 100) C C1 C0 w0 w01 w00 w wa1 wa0 PNone PNone PNone (PBool true) (PBool true) (PBool true) ExtNone ExtNone ExtNone (PBool false) (PBool false) (PBool false) w1 w1' w0') as (mc & F & F1 & F0 & sm & R2 & Dn & Dn1 & Dn0 & H); try assumption; try exact i_sound.
  - exact (S_Data.R_new _ _ Con).
  - unfold unclustered; rewrite Ro; reflexivity.
  - cbn. lia.
  - apply h_reliable, K.
  - apply h_reliable, K1.
  - apply h_reliable, K0.
  - apply h_problem; rewrite ?Ro; auto.
  - apply h_problem; rewrite ?Ro; auto.
  - rewrite Ro. reflexivity.
  - exact h_both.
  - intro Q. discriminate Q.
  - intro Q. discriminate Q.
  - exact (h_seen w K).
  - exists s, w0, w, w1, F, w01, wa1, w1', F1, w00, wa0, w0', F0. split; [exact D|]. split; [exists C; split; [exact E|]; split; [exact Lt|]; split; [exact Ff|apply Dn]|]. split; [exists C1; split; [exact E1|]; split; [exact Lt1|]; split; [exact Ff1|apply Dn1]|]. split; [exists C0; split; [exact E0|]; split; [exact Lt0|]; split; [exact Ff0|apply Dn0]|].
    assert (sm = [h_smpls]) as -> by (destruct K as (K & _); destruct Dn as (_ & _ & _ & Es & _); congruence).
    destruct (H 0%nat h_smpls eq_refl Np Np1 Np0) as (m0 & m & U & Cp & Q); [apply h_matched; assumption|apply h_matched; assumption|apply h_matched; assumption|apply h_mirrored; assumption|].
    apply Q. exact (h_bounds mc w _ _ _ m0 m "d" R2 U Cp _).
Qed.
Definition compliance_case : Prop := exists s s' w0 w w1 w0' w' w1' F F',
  h_data (i_roles ["d"] None None None None) s /\ h_data (i_roles ["d"] (Some ["z"]) None None None) s' /\ h_fit (h_irm s) w0 w w1 F /\ h_fit (h_iivm s') w0' w' w1' F' /\ signed F F' 0 0 1.
Lemma compliance_holds : compliance_case.
Proof.
  destruct (h_exists (i_roles ["d"] None None None None)) as (s & D); [cbn; tauto|]. destruct (h_exists (i_roles ["d"] (Some ["z"]) None None None)) as (s' & D'); [cbn; tauto|].
  destruct (h_irm_runs "d" s) as (C & w0 & w & w1 & E & Lt & K & Np & Ff); [auto|exact D|]. destruct (h_iivm_runs s') as (C' & w0' & w' & w1' & E' & Lt' & K' & Np' & Ff'); [exact D'|].
  pose proof D as (Con & Ro & Ot). pose proof D' as (Con' & Ro' & Ot').
  destruct (iivm_compliance r_memo unit h_learner q_predict h_proba i_rd i_rd h_frame h_frame s s' "d" "d" "z" reg cls cls (PStr "LATE") h_takers false (PInt 2) (PInt 2) (PInt 1) (PInt 1) (PBool false) (PBool false) (PStr "truncate") (PStr "truncate") (1 / 100) C C' w0 w0' w w' PNone PNone (PBool true) (PBool true) ExtNone ExtNone (PBool false) (PBool false) w1 w1') as (mc & F & F' & sm & R2 & Dn & Dn' & H); try assumption; try exact i_sound; try reflexivity.
  - exact (S_Data.R_new _ _ Con).
  - unfold unclustered; rewrite Ro; reflexivity.
  - cbn. lia.
  - exact (S_Data.R_new _ _ Con').
  - unfold unclustered; rewrite Ro'; reflexivity.
  - apply h_reliable, K.
  - apply h_reliable, K'.
  - apply h_problem; [rewrite Ro|rewrite Ro'| |]; auto.
  - rewrite Ro. reflexivity.
  - rewrite Ro'. reflexivity.
  - rewrite Ro'. reflexivity.
  - intros i _. unfold covariates. rewrite Ro, Ro', Ot, Ot'. reflexivity.
  - intro Q. discriminate Q.
  - intro Q. discriminate Q.
  - exact (h_seen w K).
  - exists s, s', w0, w, w1, w0', w', w1', F, F'. split; [exact D|]. split; [exact D'|]. split; [exists C; split; [exact E|]; split; [exact Lt|]; split; [exact Ff|apply Dn]|]. split; [exists C'; split; [exact E'|]; split; [exact Lt'|]; split; [exact Ff'|apply Dn']|].
    assert (sm = [h_smpls]) as -> by (destruct K as (K & _); destruct Dn as (_ & _ & _ & Es & _); congruence).
    destruct (H 0%nat h_smpls eq_refl Np) as (m0 & m & U & Cp & Q); [intros k _; apply h_matched; assumption|].
    apply Q. exact (h_bounds mc w _ _ _ m0 m "d" R2 U Cp _).
Qed.
Definition own_case : Prop := exists s s' w0 w w1 w0' w' w1' F F',
  h_data (i_roles ["d"] None None None None) s /\ h_data (i_roles ["d"] (Some ["z"]) None None None) s' /\ h_fit (h_plr s) w0 w w1 F /\ h_fit (h_pliv s') w0' w' w1' F' /\ signed F F' 0 0 1.
Lemma own_holds : own_case.
Proof.
  destruct (h_exists (i_roles ["d"] None None None None)) as (s & D); [cbn; tauto|]. destruct (h_exists (i_roles ["d"] (Some ["z"]) None None None)) as (s' & D'); [cbn; tauto|].
  destruct (h_plr_runs s) as (C & w0 & w & w1 & E & Lt & K & Np & Ff); [exact D|]. destruct (h_pliv_runs s') as (C' & w0' & w' & w1' & E' & Lt' & K' & Np' & Ff'); [exact D'|].
  pose proof D as (Con & Ro & Ot). pose proof D' as (Con' & Ro' & Ot').
  destruct (pliv_own_instrument r_memo unit h_learner q_predict h_proba i_rd i_rd h_frame h_frame s s' "z" (fun _ v => Rsum v) reg reg None None (PInt 2) (PInt 2) (PInt 1) (PInt 1) (PBool false) (PBool false) C C' w0 w0' w w' PNone PNone (PBool true) (PBool true) ExtNone ExtNone (PBool false) (PBool false) w1 w1') as (mc & F & F' & sm & R2 & Dn & Dn' & H); try assumption; try exact i_sound; try reflexivity.
  - exact (S_Data.R_new _ _ Con).
  - unfold unclustered; rewrite Ro; reflexivity.
  - cbn. lia.
  - exact (S_Data.R_new _ _ Con').
  - unfold unclustered; rewrite Ro'; reflexivity.
  - apply h_reliable, K.
  - rewrite Ro'. reflexivity.
  - apply h_reliable, K'.
  - apply h_problem; [rewrite Ro|rewrite Ro'| |]; auto.
  - exists s, s', w0, w, w1, w0', w', w1', F, F'. split; [exact D|]. split; [exact D'|]. split; [exists C; split; [exact E|]; split; [exact Lt|]; split; [exact Ff|apply Dn]|]. split; [exists C'; split; [exact E'|]; split; [exact Lt'|]; split; [exact Ff'|apply Dn']|].
    assert (sm = [h_smpls]) as -> by (destruct K as (K & _); destruct Dn as (_ & _ & _ & Es & _); congruence).
    destruct (H 0%nat 0%nat 0%nat h_smpls "d" "d" eq_refl) as (m & U & Q); try (apply h_matched; assumption); [rewrite Ro; reflexivity|rewrite Ro'; reflexivity|reflexivity|reflexivity|intros i _; unfold covariates; rewrite Ro, Ro', Ot, Ot'; reflexivity|].
    destruct Q as (Q1 & Q2); [|split; [rewrite Rmult_1_l; exact Q1|exact Q2]].
    destruct U as (_ & U). destruct U as (cd & _ & V); [intros e (el & il & a & Z & _); discriminate Z|]. destruct (V 0%nat ltac:(cbn; lia)) as (k & h & rows & p & mm & _ & _ & _ & _ & X). cbn [setup_of su_proba] in X. destruct R2 as (_ & R2). rewrite R2 in X.
    apply Rgt_not_eq, sumf_pos; [intros; apply pow2_ge_0|]. exists 0%nat. split; [cbn; lia|]. rewrite <- Rsqr_pow2. apply Rsqr_pos_lt. rewrite X. change (col h_frame "d" 0%nat) with 0. unfold q_predict. pose proof (Rle_0_sqr (r_predict mm (covariates h_frame s "d" 0%nat))). lra.
Qed.

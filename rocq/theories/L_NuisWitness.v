(** A concrete learner on feature rows, an example that meets the assumptions,
    and the first-stage leak of the IV-type scores. *)
From Verif Require Export L_NuisFit L_CrossExamples.
From Coq Require Import Lia Lra.
Local Open Scope R_scope.
Local Open Scope res_scope.
Local Open Scope string_scope.

(** Learners on rows of numbers through the sum of the row. *)
Definition r_memo := list (row * R).
Definition r_in (d : r_memo) : memo := map (fun p => (Rsum (fst p), snd p)) d.
Definition r_predict (d : r_memo) (v : row) : R := m_predict (r_in d) (Rsum v).
Definition r_proba (d : r_memo) (v : row) : list R := m_proba (r_in d) (Rsum v).
Definition r_learner : learner r_memo row unit := {|
  ln_clone := fun _ => []; ln_set := fun e _ => Ok e;
  ln_fit := fun _ d => match d with [] => Err ValueError | _ => Ok d end;
  ln_predict := fun d xs => map (r_predict d) xs; ln_proba := fun d xs => map (r_proba d) xs; ln_classes := fun d => m_classes (r_in d) |}.
Lemma r_row : row_wise r_learner r_predict r_proba.
Proof. intros e xs. split; reflexivity. Qed.
Lemma r_clone : clone_ok r_learner.
Proof. split; [reflexivity|]. cbn. intros e p e' H. congruence. Qed.
Lemma r_classifier : classifier_ok r_learner r_proba.
Proof.
  intros e data m H. cbn in *. assert (m = data /\ data <> []) as (-> & Hne) by (destruct data; [discriminate|split; [congruence|discriminate]]).
  destruct (m_classifier [] (r_in data) (r_in data)) as (A & B & C); [cbn; destruct data; [congruence|reflexivity]|]. split; [exact A|]. split; [|intro v; apply C].
  intro c. cbn in B. rewrite B. unfold r_in. split.
  - intros (x & Hx). apply in_map_iff in Hx. destruct Hx as ([v b] & Q & Hv). injection Q as _ Q. cbn in Q. subst b. exists v. exact Hv.
  - intros (x & Hx). exists (Rsum x). apply in_map_iff. exists (x, INR c). split; [reflexivity|exact Hx].
Qed.
Lemma r_fitted p data m : fitted r_learner [] p data m -> m = data.
Proof. destruct p as [q|]; cbn; [intros (e & _ & H)|intro H]; destruct data; congruence. Qed.
Lemma r_fits n x proba y (smpls : list fold) k : (k < length smpls)%nat -> fst (nth k smpls ([], [])) <> [] -> exists m, fits r_learner [] x smpls NoParams (used n proba (YVec y)) k m.
Proof.
  intros Hk Hne. set (v := if proba then encode n y else y). exists (train_rows x v (nth k smpls ([], []))), None, (train_rows x v (nth k smpls ([], []))).
  split; [reflexivity|]. split; [unfold v; destruct proba; reflexivity|]. cbn [fitted r_learner ln_fit ln_clone].
  unfold train_rows. destruct (fst (nth k smpls ([], []))); [congruence|reflexivity].
Qed.

(** Setup: the fold tasks run in reverse order; classifier for ml_m if [pb]. *)
Definition r_setup (n : nat) (pb : bool) : setup r_memo unit :=
  {| su_n := n; su_order := fun _ => [1; 0]%nat; su_learner := fun _ => []; su_proba := fun l => pb && String.eqb l "ml_m"; su_params := fun _ => NoParams; su_ext := fun _ => None; su_models := false |}.
Definition both_labels (n : nat) (y : vec) (smpls : list fold) : Prop := labels_in_train n y smpls /\ train_in_range n smpls /\ (2 <= length (labels n y))%nat.
Lemma r_total n pb name lrn x y smpls : partition_of n smpls -> length smpls = 2%nat -> (forall h : fold, In h smpls -> fst h <> []) -> (su_proba (r_setup n pb) lrn = true -> both_labels n y smpls) ->
  exists h, fit_nuis r_learner (r_setup n pb) name lrn x y smpls = Ok h.
Proof.
  intros Hp Hl Hne Hpr. assert (Hs : smpls <> []) by (intro Z; rewrite Z in Hl; discriminate).
  assert (H : exists r, cv_predict r_learner [1; 0]%nat [] n x (YVec y) smpls NoParams (su_proba (r_setup n pb) lrn) false false = Ok r).
  { rewrite (cv_cases r_learner [1; 0]%nat [] n x (YVec y) smpls NoParams _ false false Hp Hs). cbn [is_fast is_list_params is_fold_target orb negb].
    apply (fast_def r_learner r_predict r_proba r_row r_clone [] n x smpls NoParams Hp [1; 0]%nat y); [rewrite Hl; exact ex_sched|reflexivity|lia| |].
    - intros k Hk. apply r_fits; [exact Hk|]. apply Hne, nth_In, Hk.
    - intros Hq k m xi Hk Hm. destruct (Hpr Hq) as (A & B & D). rewrite Hq in Hm.
      destruct (classes_full r_learner r_proba [] n x smpls NoParams y k m r_classifier A B Hk Hm) as [Q1 Q2].
      unfold eorow. rewrite Q1, seq_length, Nat.eqb_refl, Q2. exact D. }
  destruct H as [r H]. unfold fit_nuis. cbn [r_setup su_order su_learner su_n su_params su_models]. rewrite H. eexists. reflexivity.
Qed.

(** Eight rows, two folds. *)
Definition w_smpls : list fold := [([4; 5; 6; 7], [0; 1; 2; 3]); ([0; 1; 2; 3], [4; 5; 6; 7])]%nat.
Definition w_x (i : nat) : row := [INR i].
Definition w_y (i : nat) : R := INR i.
Definition w_d (i : nat) : R := INR (nth i [0; 1; 0; 1; 0; 1; 0; 1]%nat 0%nat).
Definition w_t (i : nat) : R := INR (nth i [0; 0; 1; 1; 0; 0; 1; 1]%nat 0%nat).
Lemma w_part : partition_of 8 w_smpls.
Proof. unfold partition_of. cbn. apply NoDup_Permutation; [repeat constructor; cbn; intuition lia|repeat constructor; cbn; intuition lia|]. intro i. cbn. tauto. Qed.
Lemma w_range : train_in_range 8 w_smpls.
Proof. intros h i Hh Hi. destruct Hh as [<- | [<- | []]]; cbn in Hi; lia. Qed.
Lemma w_setting pb : setting r_learner r_predict r_proba (r_setup 8 pb) w_smpls.
Proof. constructor; [exact r_row|exact r_clone|exact w_part|exact w_range|intro l; exact ex_sched]. Qed.
Lemma w_avoids : avoids w_smpls.
Proof. intros h i Hh. destruct Hh as [<- | [<- | []]]; cbn; lia. Qed.
Ltac eight i := destruct i as [|[|[|[|[|[|[|[|i]]]]]]]]; [..|exfalso; lia].
Lemma w_group (G : nat -> Prop) (c : nat -> bool) a b : (a < 4)%nat -> (4 <= b < 8)%nat -> c a = true -> c b = true -> forall h : fold, In h (cond_smpls 8 c w_smpls) -> fst h <> [].
Proof.
  intros Ha Hb Ca Cb h Hh. unfold cond_smpls in Hh. apply in_map_iff in Hh. destruct Hh as (h0 & <- & Hh0). cbn [fst]. intro Z.
  assert (Q : forall j, In j (fst h0) -> (j < 8)%nat -> c j = true -> False).
  { intros j H1 H2 H3. assert (In j (intersect_where 8 c (fst h0))) by (apply L_ClusterSplit.intersect_in; auto). rewrite Z in H. contradiction. }
  destruct Hh0 as [<- | [<- | []]]; [apply (Q b)|apply (Q a)]; cbn [fst]; auto; cbn; lia.
Qed.
Lemma w_both v : (forall i, (i < 8)%nat -> v i = 0 \/ v i = 1) -> (exists a b, (a < 4)%nat /\ (b < 4)%nat /\ v a = 0 /\ v b = 1) -> (exists a b, (4 <= a < 8)%nat /\ (4 <= b < 8)%nat /\ v a = 0 /\ v b = 1) -> both_labels 8 v w_smpls.
Proof.
  intros Hv (a & b & A1 & A2 & A3 & A4) (a' & b' & B1 & B2 & B3 & B4). split; [|split; [exact w_range|]].
  - intros h i Hh Hi. destruct Hh as [<- | [<- | []]]; cbn [fst]; destruct (Hv i Hi) as [-> | ->]; [exists a'|exists b'|exists a|exists b]; (split; [cbn; lia|assumption]).
  - destruct (labels_spec 8 v) as (_ & M). assert (H0 : In 0 (labels 8 v)) by (apply M; exists a; split; [lia|exact A3]). assert (H1 : In 1 (labels 8 v)) by (apply M; exists b; split; [lia|exact A4]).
    destruct (labels 8 v) as [|u [|u' l]]; cbn in *; [contradiction| |lia]. destruct H0 as [H0|[]], H1 as [H1|[]]. lra.
Qed.
Lemma w_d_both : both_labels 8 w_d w_smpls.
Proof. apply w_both; [intros i Hi; eight i; cbn; lra|exists 0%nat, 1%nat|exists 4%nat, 5%nat]; repeat split; try lia; cbn; lra. Qed.
Lemma w_t_both : both_labels 8 w_t w_smpls.
Proof. apply w_both; [intros i Hi; eight i; cbn; lra|exists 0%nat, 2%nat|exists 4%nat, 6%nat]; repeat split; try lia; cbn; lra. Qed.
Lemma w_labels pb lrn y G : (forall h i, In h w_smpls -> (i < 8)%nat -> exists j, (j < 8)%nat /\ G j /\ In j (fst h) /\ y j = y i) -> labels_ok r_learner r_proba (r_setup 8 pb) lrn y G w_smpls.
Proof. intros H _. split; [exact r_classifier|exact H]. Qed.
Lemma w_all_labels pb lrn y : both_labels 8 y w_smpls -> labels_ok r_learner r_proba (r_setup 8 pb) lrn y everyone w_smpls.
Proof. intros (A & B & _). apply w_labels. intros h i Hh Hi. destruct (A h i Hh Hi) as (j & J1 & J2). exists j. split; [eapply B; eassumption|]. split; [exact Logic.I|]. split; assumption. Qed.
Lemma no_labels pb lrn y G : lrn <> "ml_m" -> labels_ok r_learner r_proba (r_setup 8 pb) lrn y G w_smpls.
Proof. intros H Z. cbn in Z. apply andb_prop in Z. destruct Z as (_ & Z). apply String.eqb_eq in Z. congruence. Qed.

(** One nuisance function on all rows, or on a group. *)
Lemma w_all pb name lrn x y : (su_proba (r_setup 8 pb) lrn = true -> both_labels 8 y w_smpls) ->
  exists h, fit_nuis r_learner (r_setup 8 pb) name lrn x y w_smpls = Ok h /\ finite_on w_smpls h = true.
Proof.
  intro Hp. destruct (r_total 8 pb name lrn x y w_smpls w_part eq_refl) as (h & Eh); [intros h Hh; destruct Hh as [<- | [<- | []]]; discriminate|exact Hp|]. exists h. split; [exact Eh|].
  assert (Lo : labels_ok r_learner r_proba (r_setup 8 pb) lrn y (fun _ => True) w_smpls) by (intro Z; apply (w_all_labels pb lrn y (Hp Z) Z)).
  apply (fit_all r_learner r_predict r_proba) in Eh; [|apply w_setting|exact Lo]. destruct Eh as (_ & K & _).
  apply forallb_forall. intros i Hi. rewrite (K i); [reflexivity|]. apply (Permutation_in _ w_part) in Hi. apply in_seq in Hi. cbn. lia.
Qed.
Lemma w_sub pb name lrn x y c (G : nat -> Prop) a b : (forall i, c i = true <-> G i) -> (a < 4)%nat -> (4 <= b < 8)%nat -> G a -> G b -> lrn <> "ml_m" ->
  exists h, fit_nuis r_learner (r_setup 8 pb) name lrn x y (sub (r_setup 8 pb) c w_smpls) = Ok h /\ finite_on w_smpls h = true.
Proof.
  intros HG Ha Hb Ga Gb Hm. destruct (r_total 8 pb name lrn x y (cond_smpls 8 c w_smpls)) as (h & Eh).
  - unfold partition_of. rewrite sub_flat. exact w_part.
  - reflexivity.
  - apply (w_group G c a b Ha Hb); apply HG; assumption.
  - intro Z. exfalso. cbn in Z. apply andb_prop in Z. destruct Z as (_ & Z). apply String.eqb_eq in Z. congruence.
  - exists h. split; [exact Eh|]. apply (fit_sub r_learner r_predict r_proba (r_setup 8 pb) _ _ _ _ _ G) in Eh; [|exact HG|apply w_setting|apply no_labels; exact Hm]. destruct Eh as (_ & K & _).
    apply forallb_forall. intros i Hi. rewrite (K i); [reflexivity|]. apply (Permutation_in _ w_part) in Hi. apply in_seq in Hi. cbn. lia.
Qed.
Ltac use_all pb name lrn x y := let h := fresh "h" in let Eh := fresh "Eh" in let Ef := fresh "Ef" in
  destruct (w_all pb name lrn x y) as (h & Eh & Ef); [try (intros; exact w_d_both); try (intros; exact w_t_both); try (intro; discriminate)|unfold or_ext, fit_checked; cbn [r_setup su_ext]; rewrite Eh; cbn [bind]; rewrite ?Ef; cbn [require bind]].
Ltac use_sub pb name lrn x y c G a b := let h := fresh "h" in let Eh := fresh "Eh" in let Ef := fresh "Ef" in
  destruct (w_sub pb name lrn x y c G a b) as (h & Eh & Ef); [first [apply is01_iff|apply is01_2_iff]|lia|lia|cbn; lra|cbn; lra|discriminate|unfold or_ext, fit_checked; cbn [r_setup su_ext]; rewrite Eh; cbn [bind]; rewrite ?Ef; cbn [require bind]].
Lemma w_plr iv y d : both_labels 8 d w_smpls -> exists out, plr_nuis r_learner (r_setup 8 true) iv false w_x y d w_smpls = Ok out.
Proof.
  intro Hd. unfold plr_nuis. cbn [r_setup su_ext andb]. rewrite andb_false_r. use_all true "ml_l" "ml_l" w_x y. use_all true "ml_m" "ml_m" w_x d; [intros _; exact Hd|]. cbn [andb negb require].
  destruct iv; [|eexists; reflexivity]. cbv zeta. match goal with |- context [fit_nuis _ _ "ml_g" "ml_g" ?x ?y _] => use_all true "ml_g" "ml_g" x y end. eexists. reflexivity.
Qed.
Ltac g_group y name c b i j := use_sub true name "ml_g" w_x y (is01 c b) (fun k : nat => c k = b) i j.
Lemma w_irm norm tr thr w y : exists out, irm_nuis r_learner (r_setup 8 true) false norm false tr thr w w_x y w_d w_smpls = Ok out.
Proof. unfold irm_nuis. g_group y "ml_g0" w_d 0 0%nat 4%nat. g_group y "ml_g1" w_d 1 1%nat 5%nat. use_all true "ml_m" "ml_m" w_x w_d. eexists. reflexivity. Qed.
Lemma w_apo norm tr thr w y : exists out, apo_nuis r_learner (r_setup 8 true) norm false tr thr w w_x y w_d w_d w_smpls = Ok out.
Proof.
  unfold apo_nuis, apo_ext. cbn [r_setup su_ext]. g_group y "ml_g_d_lvl1" w_d 1 1%nat 5%nat. use_sub true "ml_g_d_lvl0" "ml_g" (fun i => w_d i :: w_x i) y (is01 w_d 0) (fun i => w_d i = 0) 0%nat 4%nat.
  use_all true "ml_m" "ml_m" w_x w_d. eexists. reflexivity.
Qed.
Lemma w_iivm norm tr thr y : exists out, iivm_nuis r_learner (r_setup 8 true) norm false true false tr thr w_x y w_t w_d w_smpls = Ok out.
Proof.
  unfold iivm_nuis. g_group y "ml_g0" w_t 0 0%nat 4%nat. g_group y "ml_g1" w_t 1 2%nat 6%nat. use_all true "ml_m" "ml_m" w_x w_t.
  use_sub true "ml_r0" "ml_r" w_x w_d (is01 w_t 0) (fun i => w_t i = 0) 0%nat 4%nat. eexists. reflexivity.
Qed.
Lemma w_did obs norm tr thr y : exists out, did_nuis r_learner (r_setup 8 true) obs norm tr thr w_x y w_d w_smpls = Ok out.
Proof.
  unfold did_nuis. g_group y "ml_g0" w_d 0 0%nat 4%nat. g_group y "ml_g1" w_d 1 1%nat 5%nat. destruct obs; [|eexists; reflexivity].
  use_all true "ml_m" "ml_m" w_x w_d. eexists. reflexivity.
Qed.
Ltac g_cell y name a b i j := use_sub true name "ml_g" w_x y (is01_2 w_d w_t a b) (fun k : nat => w_d k = a /\ w_t k = b) i j.
Lemma w_cs obs norm tr thr y : exists out, cs_nuis r_learner (r_setup 8 true) obs norm tr thr w_x y w_d w_t w_smpls = Ok out.
Proof.
  unfold cs_nuis. g_cell y "ml_g_d0_t0" 0 0 0%nat 4%nat. g_cell y "ml_g_d0_t1" 0 1 2%nat 6%nat. g_cell y "ml_g_d1_t0" 1 0 1%nat 5%nat. g_cell y "ml_g_d1_t1" 1 1 3%nat 7%nat.
  destruct obs; [|eexists; reflexivity]. use_all true "ml_m" "ml_m" w_x w_d. eexists. reflexivity.
Qed.
Lemma w_pliv iv y : exists out, pliv_x_nuis r_learner (r_setup 8 true) iv w_x y w_d w_t w_smpls = Ok out.
Proof.
  unfold pliv_x_nuis. use_all true "ml_l" "ml_l" w_x y. use_all true "ml_m" "ml_m" w_x w_t. use_all true "ml_r" "ml_r" w_x w_d.
  destruct iv; [|eexists; reflexivity]. cbv zeta. match goal with |- context [fit_nuis _ _ "ml_g" "ml_g" ?x ?y _] => use_all true "ml_g" "ml_g" x y end. eexists. reflexivity.
Qed.
Lemma w_pliv_several proj y : exists out, pliv_xs_nuis r_learner (r_setup 8 true) proj w_x y w_d [("z1", w_t); ("z2", w_d)] w_smpls = Ok out.
Proof.
  unfold pliv_xs_nuis. use_all true "ml_l" "ml_l" w_x y. cbn [map_res fst snd append]. use_all true "ml_m_z1" "ml_m" w_x w_t. use_all true "ml_m_z2" "ml_m" w_x w_d. cbn [map_res bind].
  use_all true "ml_r" "ml_r" w_x w_d. eexists. reflexivity.
Qed.
Lemma w_pliv_z y : exists out, pliv_z_nuis r_learner (r_setup 8 true) w_x (fun i => [w_t i]) y w_d w_smpls = Ok out.
Proof. unfold pliv_z_nuis. cbv zeta. match goal with |- context [fit_checked _ _ "ml_r" "ml_r" ?x ?y _ _] => use_all true "ml_r" "ml_r" x y end. eexists. reflexivity. Qed.
Lemma w_ssm norm tr thr y : exists out, ssm_mar_nuis r_learner (r_setup 8 true) norm tr thr w_x y w_d w_t w_smpls = Ok out.
Proof.
  unfold ssm_mar_nuis. cbv zeta. match goal with |- context [fit_checked _ _ "ml_pi" "ml_pi" ?x ?y _ _] => use_all true "ml_pi" "ml_pi" x y end. use_all true "ml_m" "ml_m" w_x w_d.
  g_cell y "ml_g_d1" 1 1 3%nat 7%nat. g_cell y "ml_g_d0" 0 1 2%nat 6%nat. eexists. reflexivity.
Qed.
(** Projection and nested cases. *)
Lemma w_manual name x (y : target) wt : (wt = true -> exists v, y = YVec v) -> (forall k, (k < 2)%nat -> exists data, data <> [] /\ train_data x y k (nth k w_smpls ([], [])) data) -> wt = true \/ is_fold_target y = true ->
  exists r, cv_predict r_learner [1; 0]%nat [] 8 x y w_smpls NoParams false wt false = Ok r /\ finite_on w_smpls {| h_preds := cv_preds r; h_targets := name |} = true.
Proof.
  intros Hy Hd Hw. assert (Hs : w_smpls <> []) by discriminate.
  assert (H : exists r, cv_predict r_learner [1; 0]%nat [] 8 x y w_smpls NoParams false wt false = Ok r).
  { rewrite (cv_cases r_learner [1; 0]%nat [] 8 x y w_smpls NoParams false wt false w_part Hs).
    assert (M : exists r, cv_manual r_learner [1; 0]%nat [] 8 x y w_smpls NoParams false wt false true = Ok r).
    { apply (manual_def r_learner r_predict r_proba r_row [] 8 x w_smpls NoParams); [exact ex_sched|discriminate|exact Hy|exact Logic.I| |discriminate].
      intros k Hk. destruct (Hd k Hk) as (data & Hne & T). exists data, None, data. split; [reflexivity|]. split; [destruct y; exact T|]. cbn. destruct data; [congruence|reflexivity]. }
    destruct y as [v|l]; [|exact M]. destruct Hw as [->|Hw]; [|discriminate]. exact M. }
  destruct H as (r & H). exists r. split; [exact H|]. pose proof (own_fold r_learner r_predict r_proba r_row r_clone _ _ _ _ _ _ _ _ _ _ w_part ex_sched H) as O.
  apply forallb_forall. intros i Hi. apply (Permutation_in _ w_part) in Hi. apply in_seq in Hi. destruct (O i) as (k & h & p & data & m & _ & _ & _ & _ & V); [lia|]. cbn [h_preds]. rewrite V. reflexivity.
Qed.
Lemma w_pliv_xz y : exists out, pliv_xz_nuis r_learner (r_setup 8 true) w_x (fun i => [w_t i]) y w_d w_smpls = Ok out.
Proof.
  unfold pliv_xz_nuis. cbv zeta. use_all true "ml_l" "ml_l" w_x y. cbn [r_setup su_order su_learner su_n su_params su_models].
  set (xz := fun i => (w_x i ++ [w_t i])%list). destruct (w_manual None xz (YVec w_d) true) as (rm & Em & _); [eauto| |auto|].
  { intros k Hk. eexists. split; [|reflexivity]. destruct k as [|[|]]; [discriminate|discriminate|lia]. }
  destruct (w_manual (cv_targets rm) xz (YVec w_d) true) as (rm' & Em' & Ff); [eauto| |auto|].
  { intros k Hk. eexists. split; [|reflexivity]. destruct k as [|[|]]; [discriminate|discriminate|lia]. }
  assert (rm' = rm) by congruence. subst rm'. rewrite Em. cbn [bind]. rewrite Ff. cbn [require].
  destruct (cv_train_spec r_learner r_predict r_proba r_row r_clone _ _ _ _ _ _ _ _ _ w_part ex_sched Em) as (tr & tgs & T1 & T2 & T3). rewrite T1.
  set (tp := map (map (fun r => nth 0 r 0)) tr).
  assert (Hd : forall k, (k < 2)%nat -> exists data, data <> [] /\ train_data w_x (YFolds tp) k (nth k w_smpls ([], [])) data).
  { intros k Hk. destruct (T3 k (nth k w_smpls ([], []))) as (m & p & _ & _ & T4 & _); [apply nth_error_nth'; exact Hk|].
    eexists. split; [|exists (map (fun j => r_predict m (xz j)) (fst (nth k w_smpls ([], [])))); split; [|split; [apply map_length|reflexivity]]].
    - destruct k as [|[|]]; [discriminate|discriminate|lia].
    - unfold tp. rewrite nth_error_map, T4. cbn [option_map]. rewrite map_map. reflexivity. }
  destruct (w_manual None w_x (YFolds tp) false) as (rr & Er & _); [discriminate|exact Hd|auto|]. destruct (w_manual (cv_targets rr) w_x (YFolds tp) false) as (rr' & Er' & Fr); [discriminate|exact Hd|auto|].
  assert (rr' = rr) by congruence. subst rr'. rewrite Er. cbn [bind]. rewrite Fr. cbn [require]. eexists. reflexivity.
Qed.
(** Halves: rows 0, 1 modulo 4 and rows 2, 3 modulo 4. *)
Definition w_tts (rows : list nat) (_ : list R) : list nat * list nat := (filter (fun j => Nat.ltb (j mod 4) 2) rows, filter (fun j => negb (Nat.ltb (j mod 4) 2)) rows).
Lemma w_halving : halving w_tts.
Proof.
  intros rows st. cbn [w_tts fst snd]. split; [intros j H; apply filter_In in H; tauto|]. split; [intros j H; apply filter_In in H; tauto|].
  intros j H H'. apply filter_In in H, H'. destruct H as (_ & H), H' as (_ & H'). rewrite H in H'. discriminate.
Qed.
Lemma r_predict01 e xs : exists p, predict01 r_learner e xs = Ok p.
Proof.
  unfold predict01. destruct (forallb _ _) eqn:B; [|eexists; reflexivity]. cbn [r_learner ln_proba] in *. unfold col1. induction xs as [|v xs IH]; [eexists; reflexivity|].
  cbn [map forallb] in B. apply andb_prop in B as (B1 & B2). destruct (IH B2) as (p & Ep). cbn [map map_res]. rewrite Ep. apply Nat.eqb_eq in B1. destruct (r_proba e v) as [|a [|b [|]]]; cbn in B1; try lia. cbn. eexists. reflexivity.
Qed.
Lemma r_fit_ok (e : r_memo) data : data <> [] -> ln_fit r_learner e data = Ok data.
Proof. destruct data; [congruence|reflexivity]. Qed.
Lemma map_nonempty {A B} (h : A -> B) l : l <> [] -> map h l <> [].
Proof. destruct l; [congruence|discriminate]. Qed.
Lemma w_inter c train j : In j train -> (j < 8)%nat -> c j = true -> intersect_where 8 c train <> [].
Proof. intros A B D Z. assert (In j (intersect_where 8 c train)) by (apply L_ClusterSplit.intersect_in; auto). rewrite Z in H. contradiction. Qed.
Lemma w_ssm_fold y k : (k < 2)%nat -> exists r, ssm_fold r_learner (r_setup 8 true) w_tts w_x (fun i => [w_t i]) y w_d (fun _ => 1) w_smpls k = Ok r.
Proof.
  intro Hk. unfold ssm_fold. destruct (nth_error w_smpls k) as [h|] eqn:Eh; [|apply nth_error_None in Eh; cbn in Eh; lia]. cbn [r_setup su_n su_params su_learner fold_params bind prepare r_learner ln_clone].
  assert (A : fst (w_tts (fst h) (map (fun i => w_d i + 2 * 1) (fst h))) <> [] /\ exists a b, In a (snd (w_tts (fst h) (map (fun i => w_d i + 2 * 1) (fst h)))) /\ In b (snd (w_tts (fst h) (map (fun i => w_d i + 2 * 1) (fst h)))) /\
     (a < 8)%nat /\ (b < 8)%nat /\ w_d a = 1 /\ w_d b = 0).
  { destruct k as [|[|]]; [| |lia]; injection Eh as <-; (split; [discriminate|]); [exists 7%nat, 6%nat|exists 3%nat, 2%nat]; cbn; repeat split; try lia; auto. }
  destruct A as (A & a & b & Ha & Hb & La & Lb & Da & Db). cbv zeta. rewrite r_fit_ok by (apply map_nonempty; exact A). cbn [bind].
  match goal with |- context [predict01 r_learner ?e ?xs] => destruct (r_predict01 e xs) as (pp & ->) end. cbn [bind].
  rewrite r_fit_ok by (apply map_nonempty; intro Z; rewrite Z in Ha; contradiction). cbn [bind].
  match goal with |- context [predict01 r_learner ?e ?xs] => destruct (r_predict01 e xs) as (mp & ->) end. cbn [bind].
  rewrite r_fit_ok by (apply map_nonempty, (w_inter _ _ a Ha La); apply is01_2_iff; split; [exact Da|reflexivity]). cbn [bind].
  rewrite r_fit_ok by (apply map_nonempty, (w_inter _ _ b Hb Lb); apply is01_2_iff; split; [exact Db|reflexivity]). cbn [bind]. eexists. reflexivity.
Qed.
Lemma w_ssm_non norm tr thr y : exists out, ssm_non_nuis r_learner (r_setup 8 true) w_tts (length w_smpls) norm tr thr w_x (fun i => [w_t i]) y w_d (fun _ => 1) w_smpls = Ok out.
Proof.
  unfold ssm_non_nuis. change (seq 0 (length w_smpls)) with [0; 1]%nat. cbn [map_res]. destruct (w_ssm_fold y 0) as (r0 & ->); [lia|]. destruct (w_ssm_fold y 1) as (r1 & ->); [lia|]. cbn [bind]. eexists. reflexivity.
Qed.

(** ** The leak of the first stage: one row per fold *)
Definition t_smpls : list fold := [([1], [0]); ([0], [1])]%nat.
Definition t_x (i : nat) : row := [].
Definition t_d (i : nat) : R := match i with O => 0 | _ => 1 end.
Definition t_y (a : R) (i : nat) : R := match i with O => a | _ => 0 end.
Lemma t_part : partition_of 2 t_smpls.
Proof. apply Permutation_refl. Qed.
Lemma t_setting : setting r_learner r_predict r_proba (r_setup 2 false) t_smpls.
Proof. constructor; [exact r_row|exact r_clone|exact t_part| |intro l; exact ex_sched]. intros h i Hh Hi. destruct Hh as [<- | [<- | []]]; cbn in *; lia. Qed.
Lemma t_avoids : avoids t_smpls.
Proof. intros h i Hh. destruct Hh as [<- | [<- | []]]; cbn; lia. Qed.
Lemma t_nolabels lrn y G : labels_ok r_learner r_proba (r_setup 2 false) lrn y G t_smpls.
Proof. intro Z. discriminate. Qed.
Lemma t_total name lrn x y : exists h, fit_nuis r_learner (r_setup 2 false) name lrn x y t_smpls = Ok h /\ finite_on t_smpls h = true.
Proof.
  destruct (r_total 2 false name lrn x y t_smpls t_part eq_refl) as (h & Eh); [intros h Hh; destruct Hh as [<- | [<- | []]]; discriminate|discriminate|]. exists h. split; [exact Eh|].
  apply (fit_all r_learner r_predict r_proba) in Eh; [|apply t_setting|apply t_nolabels]. destruct Eh as (_ & K & _). apply forallb_forall. intros i Hi. rewrite (K i); [reflexivity|]. cbn in *. lia.
Qed.
(** Every prediction is the other row's target. *)
Lemma t_crossed name lrn y v : cross_fitted r_learner r_predict r_proba (r_setup 2 false) name lrn t_x y whole_train t_smpls v -> v 0%nat = y 1%nat /\ v 1%nat = y 0%nat.
Proof.
  intros (c & C1 & C2). cbn in C1. subst c. split.
  - destruct (C2 0%nat) as (k & h & rows & p & m & (T1 & T2 & _) & -> & _ & F & V); [cbn; lia|]. apply r_fitted in F. subst m. cbn in V. rewrite V.
    destruct k as [|[|k]]; [injection T1 as <-|injection T1 as <-; cbn in T2; lia|destruct k; discriminate]. cbn. unfold r_predict, m_predict. cbn. ring.
  - destruct (C2 1%nat) as (k & h & rows & p & m & (T1 & T2 & _) & -> & _ & F & V); [cbn; lia|]. apply r_fitted in F. subst m. cbn in V. rewrite V.
    destruct k as [|[|k]]; [injection T1 as <-; cbn in T2; lia|injection T1 as <-|destruct k; discriminate]. cbn. unfold r_predict, m_predict. cbn. ring.
Qed.
Ltac t_all name lrn x y := let h := fresh "h" in let Eh := fresh "Eh" in let Ef := fresh "Ef" in
  destruct (t_total name lrn x y) as (h & Eh & Ef); unfold or_ext, fit_checked; cbn [r_setup su_ext]; rewrite Eh; cbn [bind]; rewrite ?Ef; cbn [require bind].
Lemma t_plr y : exists out, plr_nuis r_learner (r_setup 2 false) true false t_x y t_d t_smpls = Ok out.
Proof.
  unfold plr_nuis. cbn [r_setup su_ext andb]. t_all "ml_l" "ml_l" t_x y. t_all "ml_m" "ml_m" t_x t_d. cbn [andb negb require].
  cbv zeta. match goal with |- context [fit_nuis _ _ "ml_g" "ml_g" ?x ?y _] => t_all "ml_g" "ml_g" x y end. eexists. reflexivity.
Qed.
Lemma t_pliv y : exists out, pliv_x_nuis r_learner (r_setup 2 false) true t_x y t_d t_d t_smpls = Ok out.
Proof.
  unfold pliv_x_nuis. t_all "ml_l" "ml_l" t_x y. t_all "ml_m" "ml_m" t_x t_d. t_all "ml_r" "ml_r" t_x t_d.
  cbv zeta. match goal with |- context [fit_nuis _ _ "ml_g" "ml_g" ?x ?y _] => t_all "ml_g" "ml_g" x y end. eexists. reflexivity.
Qed.
(** The prediction for row 0 is its own outcome. *)
Lemma t_own y l m r theta gg : l 0%nat = y 1%nat -> l 1%nat = y 0%nat -> m 0%nat = t_d 1 -> m 1%nat = t_d 0 -> r 0%nat = t_d 1 -> r 1%nat = t_d 0 -> slope_of (r_setup 2 false) y t_d t_d l r m theta -> gg 0%nat = y 1%nat - theta * t_d 1 -> gg 0%nat = y 0%nat.
Proof.
  intros L0 L1 M0 M1 R0 R1 S G. unfold slope_of, sumf in S. cbn [r_setup su_n seq map Rsum fold_right] in S. rewrite L0, L1, M0, M1, R0, R1 in S. cbn [t_d] in *. rewrite G.
  assert (Q : theta * 2 = 2 * (y 1%nat - y 0%nat)). { transitivity (theta * ((0 - 1) * (0 - 1) + ((1 - 0) * (1 - 0) + 0))); [ring|]. cbn in S. rewrite S; [ring|lra]. } lra.
Qed.
Lemma plr_iv_own y out : plr_nuis r_learner (r_setup 2 false) true false t_x y t_d t_smpls = Ok out -> no_preds out "ml_g" 0%nat = Some (y 0%nat).
Proof.
  intro H. apply (plr_iv_type r_learner r_predict r_proba) in H; [|apply t_setting|intros _; apply t_nolabels|intros _; apply t_nolabels|intros v _; apply t_nolabels].
  destruct H as (m & gg & N1 & _ & R2 & (l & theta & N2 & _ & Sl & N3) & _). apply t_crossed in N1, N2, N3. destruct N1, N2, N3. rewrite (R2 0%nat) by (cbn; lia). f_equal. eapply t_own; eassumption.
Qed.
Lemma pliv_iv_own y out : pliv_x_nuis r_learner (r_setup 2 false) true t_x y t_d t_d t_smpls = Ok out -> no_preds out "ml_g" 0%nat = Some (y 0%nat).
Proof.
  intro H. apply (pliv_iv_type r_learner r_predict r_proba) in H; [|apply t_setting|intros; try intros _; apply t_nolabels..].
  destruct H as (l & m & r & gg & theta & N1 & N2 & N3 & Sl & N4 & _ & _ & _ & R4 & _). unfold nuisance in *. cbn [r_setup su_ext] in *. apply t_crossed in N1, N2, N3, N4. destruct N1, N2, N3, N4.
  rewrite (R4 0%nat) by (cbn; lia). f_equal. apply (t_own y l m r theta gg); assumption.
Qed.
(** C73 *)
Lemma plr_leak : exists (L : learner r_memo row unit) f g su x d smpls, setting L f g su smpls /\ avoids smpls /\ (0 < su_n su)%nat /\
  forall a, exists y out, (forall i, i <> 0%nat -> y i = 0) /\ y 0%nat = a /\ plr_nuis L su true false x y d smpls = Ok out /\ no_preds out "ml_g" 0%nat = Some a.
Proof.
  exists r_learner, r_predict, r_proba, (r_setup 2 false), t_x, t_d, t_smpls. split; [apply t_setting|]. split; [apply t_avoids|]. split; [cbn; lia|]. intro a. destruct (t_plr (t_y a)) as (out & H).
  exists (t_y a), out. split; [intros [|i] Hi; [congruence|reflexivity]|]. split; [reflexivity|]. split; [exact H|]. apply (plr_iv_own (t_y a) out H).
Qed.
Lemma pliv_leak : exists (L : learner r_memo row unit) f g su x d z smpls, setting L f g su smpls /\ avoids smpls /\ (0 < su_n su)%nat /\
  forall a, exists y out, (forall i, i <> 0%nat -> y i = 0) /\ y 0%nat = a /\ pliv_x_nuis L su true x y d z smpls = Ok out /\ no_preds out "ml_g" 0%nat = Some a.
Proof.
  exists r_learner, r_predict, r_proba, (r_setup 2 false), t_x, t_d, t_d, t_smpls. split; [apply t_setting|]. split; [apply t_avoids|]. split; [cbn; lia|]. intro a. destruct (t_pliv (t_y a)) as (out & H).
  exists (t_y a), out. split; [intros [|i] Hi; [congruence|reflexivity]|]. split; [reflexivity|]. split; [exact H|]. apply (pliv_iv_own (t_y a) out H).
Qed.

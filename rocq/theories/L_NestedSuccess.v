(** Nested nuisance estimation succeeds when its learners can be trained. *)
From Verif Require Export S_FitSuccess L_FitSuccess2.
From Coq Require Import Lia Lra.
Local Open Scope R_scope.
Local Open Scope res_scope.
Local Open Scope string_scope.

Lemma predict01_total {E X P} (L : learner E X P) e xs : exists p, predict01 L e xs = Ok p.
Proof.
  unfold predict01. destruct (forallb _ _) eqn:B; [|eexists; reflexivity]. unfold col1. induction (ln_proba L e xs) as [|r l IH]; [eexists; reflexivity|].
  cbn [forallb] in B. apply andb_prop in B as (B1 & B2). destruct (IH B2) as (p & Ep). cbn [map_res]. rewrite Ep. apply Nat.eqb_eq in B1. destruct r as [|a [|c r]]; cbn in B1; try lia. cbn. eexists. reflexivity.
Qed.
Section Nested.
Context {E P : Type}.
Variable L : learner E row P.
Variables (f : E -> row -> R) (g : E -> row -> list R).
Variable su : setup E P.
Notation n := (su_n su).

Lemma manual_total name lrn x (y : target) wt smpls : (0 < n)%nat -> setting L f g su smpls -> (wt = true -> exists v, y = YVec v) -> wt = true \/ is_fold_target y = true ->
  learns_anything L su name lrn smpls -> (forall k, (k < length smpls)%nat -> exists data, data <> [] /\ train_data x y k (nth k smpls ([], [])) data) ->
  exists r, cv_predict L (su_order su name) (su_learner su lrn) n x y smpls (su_params su name) false wt (su_models su) = Ok r /\ finite_on smpls {| h_preds := cv_preds r; h_targets := cv_targets r |} = true.
Proof.
  intros Hn S Hy Hw (F1 & F2) Hd. pose proof S as [S1 S2 S3 S4 S5]. assert (Hs : smpls <> []) by (eapply some_fold; eassumption).
  assert (H : exists r, cv_predict L (su_order su name) (su_learner su lrn) n x y smpls (su_params su name) false wt (su_models su) = Ok r).
  { rewrite cv_cases by assumption.
    assert (M : exists r, cv_manual L (su_order su name) (su_learner su lrn) n x y smpls (su_params su name) false wt (su_models su) true = Ok r).
    { apply (manual_def L f g S1 (su_learner su lrn) n x smpls (su_params su name)); [apply S5|discriminate|exact Hy| | |discriminate].
      - destruct (su_params su name) as [| |l] eqn:Q; [trivial|trivial|]. exact (F2 l eq_refl).
      - intros k Hk. destruct (Hd k Hk) as (data & Hne & T). destruct (param_exists (su_params su name) (length smpls) k Hk F2) as (p & Hp).
        destruct (F1 k p data Hk Hp Hne) as (m & Hm). exists m, p, data. split; [exact Hp|]. split; [destruct y; exact T|exact Hm]. }
    destruct y as [v|l]; [|exact M]. destruct Hw as [->|Hw]; [|discriminate]. replace (is_fast (su_params su name) (YVec v) true (su_models su)) with false; [exact M|].
    unfold is_fast. cbn. destruct (is_list_params (su_params su name)); reflexivity. }
  destruct H as (r & H). exists r. split; [exact H|].
  pose proof (own_fold L f g S1 S2 _ _ _ _ _ _ _ _ _ _ S3 (S5 _) H) as O.
  apply forallb_forall. intros i Hi. apply (Permutation_in _ S3) in Hi. apply in_seq in Hi. destruct (O i) as (k & h & p & data & m & _ & _ & _ & _ & V); [lia|]. cbn [h_preds]. rewrite V. reflexivity.
Qed.
Lemma pliv_xz_success x zrow y d smpls : (0 < n)%nat -> setting L f g su smpls -> (forall h, In h smpls -> fst h <> []) ->
  trainable L g su "ml_l" "ml_l" y everyone smpls -> learns_anything L su "ml_m" "ml_m" smpls -> learns_anything L su "ml_r" "ml_r" smpls ->
  exists out, pliv_xz_nuis L su x zrow y d smpls = Ok out.
Proof.
  intros Hn S Hne Tl Fm Fr. pose proof S as [S1 S2 S3 S4 S5]. unfold pliv_xz_nuis. cbv zeta. destruct (all_total L f g su "ml_l" "ml_l" x y smpls Hn S Tl) as (h & Eh & _ & Ef). unfold fit_checked. rewrite Eh. cbn [bind]. rewrite Ef. cbn [require bind].
  set (xz := fun i => (x i ++ zrow i)%list). destruct (manual_total "ml_m" "ml_m" xz (YVec d) true smpls Hn S) as (rm & Em & Fm'); [eauto|auto|exact Fm| |].
  { intros k Hk. eexists. split; [|reflexivity]. unfold train_rows. apply map_nonempty, Hne, nth_In, Hk. }
  rewrite Em. cbn [bind]. rewrite Fm'. cbn [require].
  destruct (cv_train_spec L f g S1 S2 _ _ _ _ _ _ _ _ _ S3 (S5 _) Em) as (tr & tgs & T1 & T2 & T3). rewrite T1.
  set (tp := map (map (fun r => nth 0 r 0)) tr).
  destruct (manual_total "ml_r" "ml_r" x (YFolds tp) false smpls Hn S) as (rr & Er & Fr'); [discriminate|auto|exact Fr| |].
  { intros k Hk. destruct (T3 k (nth k smpls ([], []))) as (m & p & _ & _ & T4 & _); [apply nth_error_nth'; exact Hk|].
    eexists. split; [|exists (map (fun j => f m (xz j)) (fst (nth k smpls ([], [])))); split; [|split; [apply map_length|reflexivity]]].
    - specialize (Hne _ (nth_In smpls ([], []) Hk)). destruct (fst (nth k smpls ([], []))); [congruence|discriminate].
    - unfold tp. rewrite nth_error_map, T4. cbn [option_map]. rewrite map_map. reflexivity. }
  rewrite Er. cbn [bind]. rewrite Fr'. cbn [require]. eexists. reflexivity.
Qed.
Lemma model_total name lrn smpls k data : learns_anything L su name lrn smpls -> (k < length smpls)%nat -> data <> [] ->
  exists p e m, fold_params (su_params su name) k = Ok p /\ prepare L (su_learner su lrn) p = Ok e /\ ln_fit L e data = Ok m.
Proof.
  intros (F1 & F2) Hk Hd. destruct (param_exists (su_params su name) (length smpls) k Hk F2) as (p & Hp). destruct (F1 k p data Hk Hp Hd) as (m & Hm). exists p.
  assert (Q : fold_params (su_params su name) k = Ok p). { destruct (su_params su name) as [|q|l]; cbn in *; subst; try reflexivity. destruct Hp as (q & -> & ->). reflexivity. }
  destruct p as [q|]; cbn in Hm; [destruct Hm as (e & E1 & E2); exists e, m|exists (ln_clone L (su_learner su lrn)), m]; auto.
Qed.
Ltac model name lrn dt F Hk := let p := fresh "p" in let e := fresh "e" in let m := fresh "m" in let Q1 := fresh "Q" in let Q2 := fresh "Q" in let Q3 := fresh "Q" in
  destruct (model_total name lrn _ _ dt F Hk) as (p & e & m & Q1 & Q2 & Q3); [|rewrite Q1; cbn [bind]; rewrite Q2; cbn [bind]; rewrite Q3; cbn [bind]].
Lemma ssm_fold_success tts x zrow y d s smpls k : halves_usable n tts d s smpls -> learns_anything L su "ml_pi" "ml_pi" smpls -> learns_anything L su "ml_m" "ml_m" smpls ->
  learns_anything L su "ml_g_d1" "ml_g" smpls -> learns_anything L su "ml_g_d0" "ml_g" smpls -> (k < length smpls)%nat -> exists r, ssm_fold L su tts x zrow y d s smpls k = Ok r.
Proof.
  intros Hh Fp Fm F1 F0 Hk. unfold ssm_fold. destruct (nth_error smpls k) as [h|] eqn:Eh; [|apply nth_error_None in Eh; lia]. cbv zeta.
  destruct (Hh h (nth_error_In _ _ Eh)) as (A & (a & Ha & La & Da & Sa) & c & Hc & Lc & Dc & Sc).
  assert (B : forall v j, In j (snd (tts (fst h) (map (fun i => d i + 2 * s i) (fst h)))) -> (j < n)%nat -> d j = v -> s j = 1 -> intersect_where n (is01_2 d s v 1) (snd (tts (fst h) (map (fun i => d i + 2 * s i) (fst h)))) <> []).
  { intros v j J1 J2 J3 J4 Z. assert (In j (intersect_where n (is01_2 d s v 1) (snd (tts (fst h) (map (fun i => d i + 2 * s i) (fst h)))))) by (apply L_ClusterSplit.intersect_in; pose proof (proj2 (is01_2_iff d s v 1 j) (conj J3 J4)); auto). rewrite Z in H. contradiction. }
  match goal with |- context [ln_fit L _ (map ?hh (fst ?hv))] => model "ml_pi" "ml_pi" (map hh (fst hv)) Fp Hk end; [apply map_nonempty, A|].
  match goal with |- context [predict01 L ?e ?xs] => destruct (predict01_total L e xs) as (pp & ->) end. cbn [bind].
  match goal with |- context [ln_fit L _ (map ?hh (snd ?hv))] => model "ml_m" "ml_m" (map hh (snd hv)) Fm Hk end; [apply map_nonempty; intro Z; rewrite Z in Ha; contradiction|].
  match goal with |- context [predict01 L ?e ?xs] => destruct (predict01_total L e xs) as (mp & ->) end. cbn [bind].
  match goal with |- context [ln_fit L _ (map ?hh (intersect_where n (is01_2 d s 1 1) ?hv))] => model "ml_g_d1" "ml_g" (map hh (intersect_where n (is01_2 d s 1 1) hv)) F1 Hk end; [apply map_nonempty; exact (B 1 a Ha La Da Sa)|].
  match goal with |- context [ln_fit L _ (map ?hh (intersect_where n (is01_2 d s 0 1) ?hv))] => model "ml_g_d0" "ml_g" (map hh (intersect_where n (is01_2 d s 0 1) hv)) F0 Hk end; [apply map_nonempty; exact (B 0 c Hc Lc Dc Sc)|].
  eexists. reflexivity.
Qed.
Lemma ssm_non_success tts norm tr thr x zrow y d s smpls : halves_usable n tts d s smpls -> learns_anything L su "ml_pi" "ml_pi" smpls -> learns_anything L su "ml_m" "ml_m" smpls ->
  learns_anything L su "ml_g_d1" "ml_g" smpls -> learns_anything L su "ml_g_d0" "ml_g" smpls -> exists out, ssm_non_nuis L su tts (length smpls) norm tr thr x zrow y d s smpls = Ok out.
Proof.
  intros Hh Fp Fm F1 F0. unfold ssm_non_nuis. destruct (proj2 (map_res_ok_all (ssm_fold L su tts x zrow y d s smpls) (seq 0 (length smpls)))) as (rs & ->).
  - intros k Hk. apply in_seq in Hk. apply ssm_fold_success; try assumption. lia.
  - cbn [bind]. eexists. reflexivity.
Qed.
End Nested.

(** Complete fits. *)
Section NestedFit.
Context {E P : Type}.
Variable L : learner E row P.
Variables (f : E -> row -> R) (g : E -> row -> list R).
Variable mc : machinery E P.
Lemma pliv_xz_fit_success n dcols x zrow y d w nj b b' : let C := pliv_xz_ctx L mc n dcols x zrow y d in
  (0 < n)%nat -> dcols <> [] -> soundly_reached C w -> sound_learning L f g mc w -> no_jobs_or_int nj -> (exists sm, m_smpls (w_obj w) = Some sm) ->
  (forall sm fs h, m_smpls (w_obj w) = Some sm -> In fs sm -> In h fs -> fst h <> []) ->
  (forall t col, nth_error dcols t = Some col -> ready L g mc w n t col "ml_l" "ml_l" y everyone /\
     forall lrn sm r fs, lrn = "ml_m" \/ lrn = "ml_r" -> m_smpls (w_obj w) = Some sm -> nth_error sm r = Some fs -> learns_anything L (setup_of mc n r t (fun l => nth r (m_params (w_obj w) l col) None) (fun _ => None)) lrn lrn fs) ->
  exists w', fit C nj (PBool b) ExtNone (PBool b') w = (w', Ok tt).
Proof.
  intros C Hn Hd Hw HL Hj Hs Hne H. apply fit_if_nuis; [destruct dcols; [congruence|cbn; lia]|apply reachable_wf, reached_reachable, Hw|reflexivity|exact Logic.I|exact Hj|exact Hs|].
  intros sm r t fs Es Er Ht. cbn [C pliv_xz_ctx c_dcols c_nuis] in *. destruct (nth_error dcols t) as [col|] eqn:Et; [|apply nth_error_None in Et; lia].
  rewrite (nth_error_nth _ _ _ Et). destruct (H t col Et) as (H0 & H1).
  apply (pliv_xz_success L f g); [exact Hn|apply (rep_setting L f g mc C w sm r t fs); try assumption; discriminate|intros h Hh; exact (Hne sm fs h Es (nth_error_In _ _ Er) Hh)|exact (H0 sm r fs Es Er)|apply (H1 "ml_m" sm); auto|apply (H1 "ml_r" sm); auto].
Qed.
Lemma ssm_non_fit_success n tts dcols norm tr thr x zrow y d s strata w nj b b' : let C := ssm_non_ctx L mc n tts dcols norm tr thr x zrow y d s strata in
  dcols <> [] -> soundly_reached C w -> no_jobs_or_int nj -> (exists sm, m_smpls (w_obj w) = Some sm) ->
  (forall t col sm r fs, nth_error dcols t = Some col -> m_smpls (w_obj w) = Some sm -> nth_error sm r = Some fs -> halves_usable n (tts r t) (d t) s fs /\
     forall name lrn, In (name, lrn) [("ml_pi", "ml_pi"); ("ml_m", "ml_m"); ("ml_g_d1", "ml_g"); ("ml_g_d0", "ml_g")] -> learns_anything L (setup_of mc n r t (fun l => nth r (m_params (w_obj w) l col) None) (fun _ => None)) name lrn fs) ->
  exists w', fit C nj (PBool b) ExtNone (PBool b') w = (w', Ok tt).
Proof.
  intros C Hd Hw Hj Hs H. apply fit_if_nuis; [destruct dcols; [congruence|cbn; lia]|apply reachable_wf, reached_reachable, Hw|reflexivity|exact Logic.I|exact Hj|exact Hs|].
  intros sm r t fs Es Er Ht. cbn [C ssm_non_ctx c_dcols c_nuis] in *. destruct (nth_error dcols t) as [col|] eqn:Et; [|apply nth_error_None in Et; lia].
  rewrite (nth_error_nth _ _ _ Et). destruct (H t col sm r fs Et Es Er) as (H0 & H1).
  apply ssm_non_success; [exact H0|apply H1; cbn; auto..].
Qed.
End NestedFit.

(** Models whose score is a function of the user: fits succeed; concrete cases. *)
From Verif Require Import L_Data L_DataOps L_DataProps L_Success L_FitSuccess.
From Verif Require Export L_InitAllWitness L_CallableEnd L_InitWitness.
From Coq Require Import Lia Lra.
Local Open Scope R_scope.
Local Open Scope res_scope.
Local Open Scope string_scope.

Section Success.
Context {E P : Type}.
Variable L : learner E row P.
Variables (f : E -> row -> R) (g : E -> row -> list R).
Variable mc : machinery E P.
Ltac nuis_in := intros sm r t fs Es Er Ht.
Lemma plr_call_success user n dcols hg bin x y d w nj b b' : let C := plr_call_ctx L mc user n dcols hg bin x y d in
  (forall y d l m gg fs, exists e, user y d l m gg fs = Ok e) ->
  (0 < n)%nat -> dcols <> [] -> soundly_reached C w -> sound_learning L f g mc w -> no_jobs_or_int nj -> (exists sm, m_smpls (w_obj w) = Some sm) ->
  (forall t col, nth_error dcols t = Some col -> ready L g mc w n t col "ml_l" "ml_l" y everyone /\ ready L g mc w n t col "ml_m" "ml_m" (d t) everyone /\
     (hg = true -> forall v, ready L g mc w n t col "ml_g" "ml_g" v everyone) /\ (bin t = true -> soft f g mc "ml_m")) ->
  exists w', fit C nj (PBool b) ExtNone (PBool b') w = (w', Ok tt).
Proof.
  intros C Hu Hn Hd Hw HL Hj Hs H. apply fit_if_nuis; [destruct dcols; [congruence|cbn; lia]|apply reachable_wf, reached_reachable, Hw|reflexivity|exact Logic.I|exact Hj|exact Hs|].
  nuis_in. cbn [C plr_call_ctx c_dcols c_nuis] in *. destruct (nth_error dcols t) as [col|] eqn:Et; [|apply nth_error_None in Et; lia].
  rewrite (nth_error_nth _ _ _ Et). destruct (H t col Et) as (H1 & H2 & H3 & H4). unfold plr_call_nuis.
  match goal with |- context [or_ext ?S "ml_l" _] => set (su := S) end.
  assert (St : setting L f g su fs) by (apply (rep_setting L f g mc C w sm r t fs); try assumption; discriminate).
  destruct (get_all L f g su "ml_l" "ml_l" (x t) y fs Hn St) as (h1 & -> & _); [intros _; exact (H1 sm r fs Es Er)|]. cbn [bind].
  destruct (m_total L f g su "ml_m" "ml_m" (x t) (d t) fs Hn St) as (h2 & -> & _ & B2); [intros _; exact (H2 sm r fs Es Er)|]. cbn [bind].
  rewrite (check_passes f g su (bin t) h2 "ml_m" "ml_m"); [|intro Q; exact (fun e v => H4 Q e v)|exact B2]. cbn [negb require].
  destruct hg.
  - cbv zeta. match goal with |- context [or_ext su "ml_g" (fit_checked _ _ _ _ _ ?v _ _)] => destruct (get_all L f g su "ml_g" "ml_g" (x t) v fs Hn St) as (h3 & -> & _); [intros _; exact (H3 eq_refl v sm r fs Es Er)|] end.
    cbn [bind]. match goal with |- context [user ?a1 ?a2 ?a3 ?a4 ?a5 ?a6] => destruct (Hu a1 a2 a3 a4 a5 a6) as (e & ->) end. eexists. reflexivity.
  - cbn [bind]. match goal with |- context [user ?a1 ?a2 ?a3 ?a4 ?a5 ?a6] => destruct (Hu a1 a2 a3 a4 a5 a6) as (e & ->) end. eexists. reflexivity.
Qed.
Lemma pliv_call_success user n dcols hg x y d z w nj b b' : let C := pliv_call_ctx L mc user n dcols hg x y d z in
  (forall y z d l m r gg fs, exists e, user y z d l m r gg fs = Ok e) ->
  (0 < n)%nat -> dcols <> [] -> soundly_reached C w -> sound_learning L f g mc w -> no_jobs_or_int nj -> (exists sm, m_smpls (w_obj w) = Some sm) ->
  (forall t col, nth_error dcols t = Some col -> ready L g mc w n t col "ml_l" "ml_l" y everyone /\ ready L g mc w n t col "ml_m" "ml_m" z everyone /\ ready L g mc w n t col "ml_r" "ml_r" (d t) everyone /\
     (hg = true -> forall v, ready L g mc w n t col "ml_g" "ml_g" v everyone)) ->
  exists w', fit C nj (PBool b) ExtNone (PBool b') w = (w', Ok tt).
Proof.
  intros C Hu Hn Hd Hw HL Hj Hs H. apply fit_if_nuis; [destruct dcols; [congruence|cbn; lia]|apply reachable_wf, reached_reachable, Hw|reflexivity|exact Logic.I|exact Hj|exact Hs|].
  nuis_in. cbn [C pliv_call_ctx c_dcols c_nuis] in *. destruct (nth_error dcols t) as [col|] eqn:Et; [|apply nth_error_None in Et; lia].
  rewrite (nth_error_nth _ _ _ Et). destruct (H t col Et) as (H1 & H2 & H4 & H3). unfold pliv_call_nuis.
  match goal with |- context [or_ext ?S "ml_l" _] => set (su := S) end.
  assert (St : setting L f g su fs) by (apply (rep_setting L f g mc C w sm r t fs); try assumption; discriminate).
  destruct (get_all L f g su "ml_l" "ml_l" (x t) y fs Hn St) as (h1 & -> & _); [intros _; exact (H1 sm r fs Es Er)|]. cbn [bind].
  destruct (get_all L f g su "ml_m" "ml_m" (x t) z fs Hn St) as (h2 & -> & _); [intros _; exact (H2 sm r fs Es Er)|]. cbn [bind].
  destruct (get_all L f g su "ml_r" "ml_r" (x t) (d t) fs Hn St) as (h4 & -> & _); [intros _; exact (H4 sm r fs Es Er)|]. cbn [bind].
  destruct hg.
  - cbv zeta. match goal with |- context [or_ext su "ml_g" (fit_checked _ _ _ _ _ ?v _ _)] => destruct (get_all L f g su "ml_g" "ml_g" (x t) v fs Hn St) as (h3 & -> & _); [intros _; exact (H3 eq_refl v sm r fs Es Er)|] end.
    cbn [bind]. match goal with |- context [user ?a1 ?a2 ?a3 ?a4 ?a5 ?a6 ?a7 ?a8] => destruct (Hu a1 a2 a3 a4 a5 a6 a7 a8) as (e & ->) end. eexists. reflexivity.
  - cbn [bind]. match goal with |- context [user ?a1 ?a2 ?a3 ?a4 ?a5 ?a6 ?a7 ?a8] => destruct (Hu a1 a2 a3 a4 a5 a6 a7 a8) as (e & ->) end. eexists. reflexivity.
Qed.
Lemma irm_call_success user n dcol norm (bin : bool) tr thr x y d strata w nj b b' : let C := irm_call_ctx L mc user n dcol norm bin tr thr x y d strata in
  (forall y d g0 g1 m fs, exists e, user y d g0 g1 m fs = Ok e) ->
  (0 < n)%nat -> soundly_reached C w -> sound_learning L f g mc w -> no_jobs_or_int nj -> (exists sm, m_smpls (w_obj w) = Some sm) ->
  ready L g mc w n 0 dcol "ml_g0" "ml_g" y (fun i => d i = 0) -> ready L g mc w n 0 dcol "ml_g1" "ml_g" y (fun i => d i = 1) -> ready L g mc w n 0 dcol "ml_m" "ml_m" d everyone ->
  (bin = true -> soft f g mc "ml_g") -> exists w', fit C nj (PBool b) ExtNone (PBool b') w = (w', Ok tt).
Proof.
  intros C Hu Hn Hw HL Hj Hs H0 H1 Hm Hb. apply fit_if_nuis; [cbn; lia|apply reachable_wf, reached_reachable, Hw|reflexivity|exact Logic.I|exact Hj|exact Hs|].
  nuis_in. cbn [C irm_call_ctx c_dcols c_nuis length] in *. assert (t = 0%nat) as -> by lia. cbn [nth]. unfold irm_call_nuis.
  match goal with |- context [or_ext ?S "ml_g0" _] => set (su := S) end.
  assert (St : setting L f g su fs) by (apply (rep_setting L f g mc C w sm r 0 fs); try assumption; discriminate).
  assert (A : exists h, or_ext su "ml_g0" (let! h := fit_checked L su "ml_g0" "ml_g" x y (sub su (is01 d 0) fs) fs in require (negb (bin && binary_preds (su_n su) h)) ValueError (Ok (mask (is01 d 0) h))) = Ok h).
  { destruct (g_total L f g su "ml_g0" "ml_g" x y (is01 d 0) _ fs (is01_iff d 0) Hn St) as (h & Eh & K & B); [intros _; exact (H0 sm r fs Es Er)|]. unfold or_ext in *. destruct (su_ext su "ml_g0") as [v|]; [eexists; reflexivity|].
    destruct (fit_checked L su "ml_g0" "ml_g" x y (sub su (is01 d 0) fs) fs) as [h'|]; [|discriminate]. cbn [bind] in *. injection Eh as <-.
    change (binary_preds (su_n su) (mask (is01 d 0) h')) with (binary_preds (su_n su) h') in B. rewrite (check_passes f g su bin h' "ml_g0" "ml_g" (fun Q e v => Hb Q e v) B). eexists. reflexivity. }
  destruct A as (g0 & ->). cbn [bind]. destruct (g_total L f g su "ml_g1" "ml_g" x y (is01 d 1) _ fs (is01_iff d 1) Hn St) as (g1 & -> & K1 & B1); [intros _; exact (H1 sm r fs Es Er)|]. cbn [bind].
  rewrite (check_passes f g su bin g1 "ml_g1" "ml_g" (fun Q e v => Hb Q e v) B1). cbn [negb require]. destruct (get_all L f g su "ml_m" "ml_m" x d fs Hn St) as (m & -> & _); [intros _; exact (Hm sm r fs Es Er)|]. cbn [bind]. cbv zeta.
  match goal with |- context [user ?a1 ?a2 ?a3 ?a4 ?a5 ?a6] => destruct (Hu a1 a2 a3 a4 a5 a6) as (e & ->) end. eexists. reflexivity.
Qed.
Lemma iivm_call_success user n dcol norm (bin at_ nt : bool) tr thr x y z d strata w nj b b' : let C := iivm_call_ctx L mc user n dcol norm bin at_ nt tr thr x y z d strata in
  (forall y z d g0 g1 m r0 r1 fs, exists e, user y z d g0 g1 m r0 r1 fs = Ok e) ->
  (0 < n)%nat -> soundly_reached C w -> sound_learning L f g mc w -> no_jobs_or_int nj -> (exists sm, m_smpls (w_obj w) = Some sm) ->
  ready L g mc w n 0 dcol "ml_g0" "ml_g" y (fun i => z i = 0) -> ready L g mc w n 0 dcol "ml_g1" "ml_g" y (fun i => z i = 1) -> ready L g mc w n 0 dcol "ml_m" "ml_m" z everyone ->
  (at_ = true -> ready L g mc w n 0 dcol "ml_r0" "ml_r" d (fun i => z i = 0)) -> (nt = true -> ready L g mc w n 0 dcol "ml_r1" "ml_r" d (fun i => z i = 1)) ->
  (bin = true -> soft f g mc "ml_g") -> exists w', fit C nj (PBool b) ExtNone (PBool b') w = (w', Ok tt).
Proof.
  intros C Hu Hn Hw HL Hj Hs H0 H1 Hm Q0 Q1 Hb. apply fit_if_nuis; [cbn; lia|apply reachable_wf, reached_reachable, Hw|reflexivity|exact Logic.I|exact Hj|exact Hs|].
  nuis_in. cbn [C iivm_call_ctx c_dcols c_nuis length] in *. assert (t = 0%nat) as -> by lia. cbn [nth]. unfold iivm_call_nuis. cbv zeta.
  match goal with |- context [or_ext ?S "ml_g0" _] => set (su := S) end.
  assert (St : setting L f g su fs) by (apply (rep_setting L f g mc C w sm r 0 fs); try assumption; discriminate).
  destruct (g_total L f g su "ml_g0" "ml_g" x y (is01 z 0) _ fs (is01_iff z 0) Hn St) as (g0 & -> & K0 & B0); [intros _; exact (H0 sm r fs Es Er)|]. cbn [bind]. rewrite (check_passes f g su bin g0 "ml_g0" "ml_g" (fun Q e v => Hb Q e v) B0). cbn [negb require bind].
  destruct (g_total L f g su "ml_g1" "ml_g" x y (is01 z 1) _ fs (is01_iff z 1) Hn St) as (g1 & -> & K1 & B1); [intros _; exact (H1 sm r fs Es Er)|]. cbn [bind]. rewrite (check_passes f g su bin g1 "ml_g1" "ml_g" (fun Q e v => Hb Q e v) B1). cbn [negb require bind].
  destruct (get_all L f g su "ml_m" "ml_m" x z fs Hn St) as (m & -> & _); [intros _; exact (Hm sm r fs Es Er)|]. cbn [bind].
  assert (A : forall name bb (have : bool) dflt, (have = true -> obtainable L g su name "ml_r" d (fun i => z i = bb) fs) ->
     exists h, (let! h := if have then or_ext su name (fit_nuis L su name "ml_r" x d (sub su (is01 z bb) fs)) else Ok (const_hat dflt) in
       if match su_ext su name with Some _ => true | None => false end then Ok h else require (finite_on fs h) ValueError (Ok (mask (is01 z bb) h))) = Ok h).
  { intros name bb have dflt T. destruct have.
    - unfold or_ext. destruct (su_ext su name) as [v|] eqn:Ex; [eexists; reflexivity|]. destruct (sub_total L f g su name "ml_r" x d (is01 z bb) _ fs (is01_iff z bb) Hn St (T eq_refl Ex)) as (h & -> & _ & F). cbn [bind]. rewrite F. eexists. reflexivity.
    - cbn [bind]. destruct (su_ext su name); [eexists; reflexivity|]. assert (F : finite_on fs (const_hat dflt) = true) by (apply forallb_forall; reflexivity). rewrite F. eexists. reflexivity. }
  destruct (A "ml_r0" 0 at_ 0) as (r0 & ->); [intros Q _; exact (Q0 Q sm r fs Es Er)|]. cbn [bind]. destruct (A "ml_r1" 1 nt 1) as (r1 & ->); [intros Q _; exact (Q1 Q sm r fs Es Er)|]. cbn [bind].
  match goal with |- context [user ?a1 ?a2 ?a3 ?a4 ?a5 ?a6 ?a7 ?a8 ?a9] => destruct (Hu a1 a2 a3 a4 a5 a6 a7 a8 a9) as (e & ->) end. eexists. reflexivity.
Qed.
End Success.

(** ** Cases *)
Definition my_iv_score : pliv_user := fun y z d l m r _ _ => Ok {| el_a := fun i => - ((z i - m i) * (d i - r i)); el_b := fun i => (z i - m i) * (y i - l i) |}.
Definition my_aipw : irm_user := fun y d g0 g1 m _ => Ok {| el_a := fun _ => -1; el_b := fun i => g1 i - g0 i + d i * (y i - g1 i) / m i - (1 - d i) * (y i - g0 i) / (1 - m i) |}.
Definition my_late : iivm_user := fun y z d g0 g1 m r0 r1 _ => Ok {| el_a := fun i => - (r1 i - r0 i); el_b := fun i => g1 i - g0 i |}.
Definition plr_call_case (ml_g : option (pylearner r_memo)) : Prop := exists s, i_data rd1 s /\ fits_after (plr_call_init q_learner i_rd i_frame s my_partialling_out reg cls ml_g (PInt 2) (PInt 1) (PBool true)).
Lemma plr_call_cases : plr_call_case None /\ plr_call_case (Some reg).
Proof.
  assert (G : forall ml_g, ml_g = None \/ ml_g = Some reg -> plr_call_case ml_g); [|split; apply G; auto].
  intros ml_g Hg. apply with_data; [cbn; tauto|]. intros s Con Rl Re Un. assert (Dc : forall c, In c (M_Data.r_d (M_Data.dd_roles s)) -> c = "d") by (intros c Hc; rewrite Rl in Hc; destruct Hc as [<-|[]]; reflexivity).
  destruct (proj2 (plr_call_accepts q_learner i_rd i_frame s Con my_partialling_out reg cls ml_g (PInt 2) (PInt 1) (PBool true))) as ((C & w0) & E).
  { split; [unfold no_instruments; rewrite Rl; reflexivity|]. split; [apply plain_split; [exact Un|apply i_split; exact Logic.I|exact Logic.I]|]. split; [exact reg_values|]. split; [exact cls_proba|].
    split; [intros l Hl; destruct Hg as [->| ->]; [discriminate|injection Hl as <-; exact reg_values]|]. intros _ c Hc. rewrite (Dc c Hc). exact d_01. }
  destruct (plr_call_made q_learner i_rd i_frame s Re i_sound _ _ _ _ _ _ _ _ _ E) as (mc & bin & hg & Ec & Sr & Od & R1 & R2 & R3). rewrite (plain_ctx i_frame s Re _ Un) in Ec. subst C.
  begin_fit. apply (plr_call_success q_learner q_predict q_proba); fit_base; [intros; eexists; reflexivity|exact (some_treatment i_frame s Re)|].
  intros t c Hc. split; [apply ready_any; [exact Kw|apply R1]|]. split.
  - apply (d_of_all i_frame s Re (fun v => ready q_learner q_proba mc w 8 t c "ml_m" "ml_m" v everyone)). intros c' Hc'. rewrite (Dc c' Hc'). apply ready_class; [exact Kw|left; reflexivity].
  - split; [|intros _; apply q_soft]. intros I v. apply ready_any; [exact Kw|]. unfold given_g in R3. destruct ml_g; [apply R3|congruence].
Qed.
Definition pliv_call_case (r : M_Data.roles) (ml_g : option (pylearner r_memo)) : Prop := exists s, i_data r s /\ fits_after (pliv_call_init q_learner i_rd i_frame s my_iv_score (fun _ _ => 0) reg reg reg ml_g (PInt 2) (PInt 1) (PBool true)).
Lemma pliv_call_ok r ml_g : r = rz1 \/ r = rz2 -> ml_g = None \/ ml_g = Some reg -> forall s, S_Data.constructed i_frame s -> M_Data.dd_roles s = r -> unclustered s ->
  succeeds (pliv_call_init q_learner i_rd i_frame s my_iv_score (fun _ _ => 0) reg reg reg ml_g (PInt 2) (PInt 1) (PBool true)).
Proof.
  intros Hr Hg s Con Rl Un. apply (pliv_call_accepts q_learner i_rd i_frame s Con). split; [apply plain_split; [exact Un|apply i_split; exact Logic.I|exact Logic.I]|]. split; [exact reg_values|]. split; [exact reg_values|]. split; [exact reg_values|].
  split; [intros l Hl; destruct Hg as [->| ->]; [discriminate|injection Hl as <-; exact reg_values]|]. rewrite Rl. destruct Hr as [->| ->]; cbn; eauto.
Qed.
Lemma pliv_call_cases : pliv_call_case rz1 None /\ pliv_call_case rz1 (Some reg).
Proof.
  assert (G : forall ml_g, ml_g = None \/ ml_g = Some reg -> pliv_call_case rz1 ml_g); [|split; apply G; auto].
  intros ml_g Hg. apply with_data; [cbn; tauto|]. intros s Con Rl Re Un. destruct (pliv_call_ok rz1 ml_g (or_introl eq_refl) Hg s Con Rl Un) as ((C & w0) & E).
  destruct (pliv_call_made q_learner i_rd i_frame s Re i_sound _ _ _ _ _ _ _ _ _ _ _ E) as (z & more & mc & hg & Ez & Ec & Sr & Od & R1 & R2 & R4 & R3). rewrite Rl in Ez. injection Ez as <- <-. rewrite (plain_ctx i_frame s Re _ Un) in Ec. subst C.
  begin_fit. apply (pliv_call_success q_learner q_predict q_proba); fit_base; [intros; eexists; reflexivity|exact (some_treatment i_frame s Re)|].
  intros t c Hc. split; [apply ready_any; [exact Kw|apply R1]|]. split; [apply ready_any; [exact Kw|apply R2]|]. split; [apply ready_any; [exact Kw|apply R4]|].
  intros I v. apply ready_any; [exact Kw|]. unfold given_g in R3. destruct ml_g; [apply R3|congruence].
Qed.
Definition irm_call_case : Prop := exists s, i_data rd1 s /\
  fits_after (irm_call_init q_learner i_rd i_frame s my_aipw reg cls (PInt 2) (PInt 1) WNone (PBool false) (PStr "truncate") (PFloat (1 / 100)) (PBool true)).
Lemma irm_call_ok wa : weights_ok wa ScCallable 8 1 -> forall s, S_Data.constructed i_frame s -> M_Data.dd_roles s = rd1 -> unclustered s ->
  succeeds (irm_call_init q_learner i_rd i_frame s my_aipw reg cls (PInt 2) (PInt 1) wa (PBool false) (PStr "truncate") (PFloat (1 / 100)) (PBool true)).
Proof.
  intros Hw s Con Rl Un. apply (irm_call_accepts q_learner i_rd i_frame s Con). split; [unfold no_instruments; rewrite Rl; reflexivity|]. split; [exists "d"; split; [apply d_binary; rewrite Rl; reflexivity|apply plain_split; [exact Un|exact d_split|apply zero_one_whole, d_01]]|]. split; [exact Hw|].
  split; [apply reg_outcome|]. split; [exact cls_proba|]. split; [apply i_bool|exact i_trim].
Qed.
Lemma irm_call_cases : irm_call_case.
Proof.
  apply with_data; [cbn; tauto|]. intros s Con Rl Re Un. destruct (irm_call_ok WNone Logic.I s Con Rl Un) as ((C & w0) & E).
  destruct (irm_call_made q_learner i_rd i_frame s Re i_sound _ _ _ _ _ _ _ _ _ _ _ _ E) as (c & mc & nm & th & bo & st & Bt & Ec & Sr & Od & R1 & R2 & _). apply (is_d s c) in Bt; [subst c|rewrite Rl; reflexivity]. rewrite (plain_ctx i_frame s Re _ Un) in Ec. subst C.
  begin_fit. apply (irm_call_success q_learner q_predict q_proba); fit_base; [intros; eexists; reflexivity|apply (group_d mc w 0 "d" "ml_g0")|apply (group_d mc w 0 "d" "ml_g1")|apply ready_class]; try assumption; try (apply R1); try (left; reflexivity); right; reflexivity.
Qed.
Definition iivm_call_case : Prop := exists s, i_data rz1 s /\
  fits_after (iivm_call_init q_learner i_rd i_frame s my_late reg cls cls (PInt 2) (PInt 1) SgNone (PBool false) (PStr "truncate") (PFloat (1 / 100)) (PBool true)).
Lemma iivm_call_cases : iivm_call_case.
Proof.
  apply with_data; [cbn; tauto|]. intros s Con Rl Re Un.
  destruct (proj2 (iivm_call_accepts q_learner i_rd i_frame s Con my_late reg cls cls (PInt 2) (PInt 1) SgNone (PBool false) (PStr "truncate") (PFloat (1 / 100)) (PBool true))) as ((C & w0) & E).
  { split; [exists "d", "z"; split; [apply d_binary; rewrite Rl; reflexivity|]; split; [rewrite Rl; reflexivity|]; split; [exact z_01|apply plain_split; [exact Un|apply dt_split; auto|apply sum_whole; apply zero_one_whole; [exact d_01|exact z_01]]]|].
    split; [apply reg_outcome|]. split; [exact cls_proba|]. split; [exact cls_proba|]. split; [apply i_bool|]. split; [exact i_trim|exact Logic.I]. }
  destruct (iivm_call_made q_learner i_rd i_frame s Re i_sound _ _ _ _ _ _ _ _ _ _ _ _ _ E) as (c & z & mc & nm & th & bo & at1 & nt1 & st & Bt & Ez & _ & Ec & Sr & Od & R1 & R2 & R3 & _). apply (is_d s c) in Bt; [subst c|rewrite Rl; reflexivity]. rewrite Rl in Ez. injection Ez as <-. rewrite (plain_ctx i_frame s Re _ Un) in Ec. subst C.
  begin_fit. apply (iivm_call_success q_learner q_predict q_proba); fit_base.
  - intros; eexists; reflexivity.
  - apply (group_t mc w 0 "d" "ml_g0"); [assumption|apply R1|auto].
  - apply (group_t mc w 0 "d" "ml_g1"); [assumption|apply R1|auto].
  - apply ready_class; [assumption|right; reflexivity].
  - intros _. apply (i_classify mc w 0 "d" "ml_r0" "ml_r" w_d (fun i => w_t i = 0) 0 1 4 5); try assumption; try lia; try exact w_d01; cbn; lra.
  - intros _. apply (i_classify mc w 0 "d" "ml_r1" "ml_r" w_d (fun i => w_t i = 1) 2 3 6 7); try assumption; try lia; try exact w_d01; cbn; lra.
Qed.
(** Refutations. *)
Lemma several_accepted : exists s C w0, S_Data.constructed i_frame s /\ M_Data.r_z (M_Data.dd_roles s) = Some ["z"; "z2"] /\
  pliv_call_init q_learner i_rd i_frame s my_iv_score (fun _ _ => 0) reg reg reg None (PInt 2) (PInt 1) (PBool true) = Ok (C, w0) /\
  forall w nj store ext smod w', later C w0 w -> fit C nj store ext smod w <> (w', Ok tt).
Proof.
  destruct (with_data rz2 (fun s => exists C w0, S_Data.constructed i_frame s /\ M_Data.dd_roles s = rz2 /\ pliv_call_init q_learner i_rd i_frame s my_iv_score (fun _ _ => 0) reg reg reg None (PInt 2) (PInt 1) (PBool true) = Ok (C, w0) /\
    forall w nj store ext smod w', later C w0 w -> fit C nj store ext smod w <> (w', Ok tt))) as (s & _ & C & w0 & K & Rl & E & F); [cbn; tauto| |exists s, C, w0; rewrite Rl; auto].
  intros s Con Rl Re Un. destruct (pliv_call_ok rz2 None (or_intror eq_refl) (or_introl eq_refl) s Con Rl Un) as ((C & w0) & E). exists C, w0. split; [exact Con|]. split; [exact Rl|]. split; [exact E|].
  intros w nj store ext smod w' La. eapply (pliv_call_several_never _ _ q_learner i_rd i_frame s ["z"; "z2"]); [exact Re|exact i_sound|rewrite Rl; reflexivity|cbn; lia|exact E|exact La].
Qed.
Lemma partial_accepted : exists s, S_Data.constructed i_frame s /\
  (exists C w0, pliv_call_partial_z q_learner i_rd i_frame s my_iv_score (fun _ _ => 0) reg reg (PInt 2) (PInt 1) (PBool true) = Ok (C, w0) /\ forall w nj store ext smod w', later C w0 w -> fit C nj store ext smod w <> (w', Ok tt)) /\
  (exists C w0, pliv_call_partial_xz q_learner i_rd i_frame s my_iv_score (fun _ _ => 0) reg reg reg (PInt 2) (PInt 1) (PBool true) = Ok (C, w0) /\ forall w nj store ext smod w', later C w0 w -> fit C nj store ext smod w <> (w', Ok tt)).
Proof.
  destruct (s_exists rz1) as (s & K & Un); [cbn; tauto|]. pose proof K as (Con & Rl & _). pose proof (i_reach _ _ K) as Re. exists s. split; [exact Con|]. split.
  - destruct (proj2 (pliv_call_z_accepts q_learner i_rd i_frame s Con my_iv_score (fun _ _ => 0) reg reg (PInt 2) (PInt 1) (PBool true) reg_values)) as ((C & w0) & E).
    { split; [apply plain_split; [exact Un|apply i_split; exact Logic.I|exact Logic.I]|]. split; [exact reg_values|]. rewrite Rl. cbn. eauto. }
    exists C, w0. split; [exact E|]. intros. eapply (pliv_call_z_never _ _ q_learner i_rd i_frame s); [exact Re|exact i_sound|exact E|assumption].
  - destruct (proj2 (pliv_call_xz_accepts q_learner i_rd i_frame s Con my_iv_score (fun _ _ => 0) reg reg reg (PInt 2) (PInt 1) (PBool true))) as ((C & w0) & E).
    { split; [apply plain_split; [exact Un|apply i_split; exact Logic.I|exact Logic.I]|]. split; [exact reg_values|]. split; [exact reg_values|]. split; [exact reg_values|]. rewrite Rl. cbn. eauto. }
    exists C, w0. split; [exact E|]. intros. eapply (pliv_call_xz_never _ _ q_learner i_rd i_frame s); [exact Re|exact i_sound|exact E|assumption].
Qed.
Lemma weights_ignored : exists s o a, S_Data.constructed i_frame s /\ admissible a [8%nat] /\ at_ a [0%nat] <> at_ a [1%nat] /\
  irm_call_init q_learner i_rd i_frame s my_aipw reg cls (PInt 2) (PInt 1) WNone (PBool false) (PStr "truncate") (PFloat (1 / 100)) (PBool true) = Ok o /\
  irm_call_init q_learner i_rd i_frame s my_aipw reg cls (PInt 2) (PInt 1) (WArr a) (PBool false) (PStr "truncate") (PFloat (1 / 100)) (PBool true) = Ok o.
Proof.
  destruct (s_exists rd1) as (s & K & Un); [cbn; tauto|]. pose proof K as (Con & Rl & _).
  set (a := mk_nd [8%nat] (fun i => match i with [0%nat] => 0 | _ => 1 end)). assert (A : admissible a [8%nat]).
  { split; [reflexivity|]. split; [intros i _; unfold a; cbn [at_]; destruct i as [|[|k] [|? ?]]; lra|]. exists [1%nat]. split; [cbn; lia|cbn; lra]. }
  assert (W : weights_ok (WArr a) ScCallable 8 1) by (split; [exact A|discriminate]).
  destruct (irm_call_ok WNone Logic.I s Con Rl Un) as (o & E1). destruct (irm_call_ok (WArr a) W s Con Rl Un) as (o' & E2).
  pose proof (irm_call_weights _ _ _ _ _ _ _ _ _ _ _ _ _ _ _ _ _ _ _ E1 E2) as ->. exists s, o', a. split; [exact Con|]. split; [exact A|]. split; [cbn; lra|]. split; [exact E1|exact E2].
Qed.

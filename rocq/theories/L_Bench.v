(** The benchmark of covariates. *)
From Verif Require Import M_Data L_Data L_DataOps L_DataProps L_BenchData.
From Verif Require Export L_BenchFit.
From Coq Require Import Lia Lra.
Local Open Scope R_scope.
Local Open Scope res_scope.

Lemma short_without l r r' : without l r r' -> M_Data.r_x r' = short_list (M_Data.r_x r) l.
Proof.
  intros (_ & _ & _ & _ & _ & _ & keep & E & K). rewrite E. unfold short_list. apply filter_ext_in. intros c _. specialize (K c). destruct (keep c) eqn:Q.
  - symmetry. apply negb_true_iff. destruct (M_Data.mem c l) eqn:M; [|reflexivity]. exfalso. apply (proj1 K eq_refl). apply mem_iff. exact M.
  - symmetry. apply negb_false_iff. apply mem_iff. destruct (in_dec String.string_dec c l) as [I|I]; [exact I|]. apply K in I. discriminate.
Qed.
Lemma bench_data f s s2 l : S_Data.constructed f s -> S_Data.constructed f s2 -> without l (M_Data.dd_roles s) (M_Data.dd_roles s2) -> M_Data.dd_other s2 = M_Data.dd_other s ->
  let x := short_list (M_Data.r_x (M_Data.dd_roles s)) l in let xs := M_Data.c_x s2 in
  s2 = but_x s x xs (M_Data.dd_force s2) /\ M_Data.assign f s (M_Data.SetX (M_Data.CList x)) = (but_x s x xs (M_Data.dd_force s), None).
Proof.
  intros K K2 W O. cbv zeta. pose proof (short_without _ _ _ W) as X. destruct W as (Wy & Wd & Wz & Wt & Ws & Wc & _).
  destruct (constructed_form f s K) as (d & ds & Ed & Es). destruct (constructed_form f s2 K2) as (d2 & ds2 & Ed2 & Es2).
  destruct (sub_assign f (fun c => negb (M_Data.mem c l)) s K) as (s' & d' & ds' & A & Ed' & Es'). fold (short_list (M_Data.r_x (M_Data.dd_roles s)) l) in A, Es'.
  assert (D : d2 = d) by congruence. assert (D' : d' = d) by congruence. subst d2 d'.
  assert (R : M_Data.dd_roles s2 = M_Data.set_rx (M_Data.dd_roles s) (short_list (M_Data.r_x (M_Data.dd_roles s)) l)).
  { clear - Wy Wd Wz Wt Ws Wc X. destruct (M_Data.dd_roles s2), (M_Data.dd_roles s). cbn -[short_list] in *. subst. reflexivity. }
  assert (CX : M_Data.c_x s2 = if M_Data.dd_other s then M_Data.remove1 d (short_list (M_Data.r_x (M_Data.dd_roles s)) l ++ M_Data.r_d (M_Data.dd_roles s)) else short_list (M_Data.r_x (M_Data.dd_roles s)) l).
  { rewrite Es2. cbn [M_Data.c_x]. unfold M_Data.xd_list. rewrite O, R. reflexivity. }
  split.
  - rewrite Es2 at 1. unfold but_x.
    pose proof (f_equal M_Data.dd_bt Es) as F1. pose proof (f_equal M_Data.dd_by Es) as F2. pose proof (f_equal M_Data.c_y Es) as F3. pose proof (f_equal M_Data.c_z Es) as F4.
    pose proof (f_equal M_Data.c_t Es) as F5. pose proof (f_equal M_Data.c_s Es) as F6. pose proof (f_equal M_Data.c_d Es) as F7. pose proof (f_equal M_Data.c_cl Es) as F8. pose proof (f_equal M_Data.c_x Es2) as F9.
    clear Es Es2 Es'. cbn [M_Data.dd_bt M_Data.dd_by M_Data.c_y M_Data.c_z M_Data.c_t M_Data.c_s M_Data.c_d M_Data.c_cl M_Data.c_x] in *.
    rewrite F1, F2, F3, F4, F5, F6, F7, F8, F9, Wy, Wd, Wz, Wt, Ws, Wc, O, R. reflexivity.
  - rewrite A, Es', CX. unfold but_x. rewrite (f_equal M_Data.c_d Es : M_Data.c_d s = d). reflexivity.
Qed.
Lemma some_columns f s : S_Data.constructed f s -> some_features (M_Data.dd_roles s) (M_Data.dd_other s) -> M_Data.c_x s <> [].
Proof.
  intros K F. destruct (constructed_form f s K) as (d & ds & Ed & Es). pose proof (constructed_inv _ _ K) as [IC IW IU IX IY I0 I1 IL].
  assert (X : M_Data.c_x s = M_Data.xd_list s d) by (rewrite Es; reflexivity). rewrite X, (xd_list_features f) by (auto; rewrite Ed; now left). apply F. rewrite Ed. now left.
Qed.
Lemma checked_id {P} s (C : ctx P) : M_Data.c_x s <> [] -> some_x s C = C.
Proof. intro H. unfold some_x. destruct (M_Data.c_x s); [contradiction|]. destruct C; reflexivity. Qed.

Section Bench.
Context {E P : Type}.
Variable L : learner E row P.
Variable rd : randomness.
Variable f : M_Data.frame.
Definition bench_args (fa : fit_arg) : result (bool * pyval * pyval * ext_arg * pyval) :=
  match fa with FitNone => Ok (true, PNone, PBool true, ExtNone, PBool false) | FitDict known nj store ext sm => Ok (known, nj, store, ext, sm) | FitOther => Err TypeError end.
Lemma fit_args_of fa nj store ext sm : fit_with fa nj store ext sm -> bench_args fa = Ok (true, nj, store, ext, sm).
Proof. destruct fa; cbn; [intros (-> & -> & -> & ->); reflexivity|intros (-> & -> & -> & -> & ->); reflexivity|tauto]. Qed.
(** The benchmark with acceptable arguments. *)
Lemma bench_eq c s s2 l fa nj store ext sm C2 w2i w : S_Data.constructed f s -> S_Data.constructed f s2 -> without l (M_Data.dd_roles s) (M_Data.dd_roles s2) -> M_Data.dd_other s2 = M_Data.dd_other s ->
  m_sens (w_obj w) <> None -> l <> [] -> incl l (M_Data.r_x (M_Data.dd_roles s)) -> fit_with fa nj store ext sm -> make L rd f c s2 = Ok (C2, w2i) ->
  sensitivity_benchmark L rd f c s (BList l) fa w =
  match fit (some_x s2 C2) nj store ext sm w with
  | (_, Err e) => Err e
  | (w', Ok _) => compared f s w w'
  end.
Proof.
  intros K K2 W O Sn Ln Li Fw M. destruct (bench_data f s s2 l K K2 W O) as (E2 & A). unfold sensitivity_benchmark.
  destruct (m_sens (w_obj w)) as [sb|]; [|contradiction]. replace (negb (Nat.eqb (length l) 0)) with true by (destruct l; [contradiction|reflexivity]). cbn [require].
  rewrite (proj2 (subset_iff _ _) Li). cbn [require]. fold (bench_args fa). rewrite (fit_args_of _ _ _ _ _ Fw). cbn [bind]. rewrite A. cbn [M_Data.lift bind].
  rewrite E2 in M. rewrite (make_force L rd f c s _ _ _ (M_Data.dd_force s)) in M. rewrite M. cbn [bind fst require].
  change (some_x (but_x s (short_list (M_Data.r_x (M_Data.dd_roles s)) l) (M_Data.c_x s2) (M_Data.dd_force s)) C2) with (some_x s2 C2).
  destruct (fit (some_x s2 C2) nj store ext sm w) as [w' [[]|e]]; [|reflexivity]. unfold compared.
  replace (var_col (M_Data.frows f) (col f (M_Data.c_y s))) with (outcome_var f s); [reflexivity|].
  unfold outcome_var, outcome, var_col. destruct (constructed_form f s K) as (d & ds & Ed & Es). replace (M_Data.c_y s) with (M_Data.r_y (M_Data.dd_roles s)); [reflexivity|]. rewrite Es. reflexivity.
Qed.
Hypothesis Rd : sound_randomness rd.

Lemma bench_shape c s s2 l C w0 C2 w2i : S_Data.constructed f s -> S_Data.constructed f s2 -> without l (M_Data.dd_roles s) (M_Data.dd_roles s2) -> M_Data.dd_other s2 = M_Data.dd_other s ->
  make L rd f c s = Ok (C, w0) -> make L rd f c s2 = Ok (C2, w2i) -> w2i = w0 /\ same_shape C C2 /\ c_dcols C2 <> [] /\ (exists e, c_sens C = Some e) /\ exists e, c_sens C2 = Some e.
Proof.
  intros K K2 W O M M2. destruct (bench_data f s s2 l K K2 W O) as (E2 & _). destruct (make_without L rd f c s (short_list (M_Data.r_x (M_Data.dd_roles s)) l) (M_Data.c_x s2) (M_Data.dd_force s2) _ M) as ([C' w'] & M' & A1 & A2 & A3 & A4).
  rewrite <- E2, M2 in M'. apply ok_inj in M'. injection M' as <- <-. cbn [fst snd] in *.
  destruct (make_reached L rd f c s2 C2 w2i (S_Data.R_new _ _ K2) Rd M2) as (_ & _ & N & _). split; [exact A1|]. auto.
Qed.
Section Pair.
Variables (c : call E) (s s2 : M_Data.ddata) (l : list string) (fa : fit_arg) (nj store : pyval) (ext : ext_arg) (sm : pyval) (C C2 : ctx P) (w0 w2i w w2 : world P).
Hypothesis K : S_Data.constructed f s.
Hypothesis K2 : S_Data.constructed f s2.
Hypothesis W : without l (M_Data.dd_roles s) (M_Data.dd_roles s2).
Hypothesis O : M_Data.dd_other s2 = M_Data.dd_other s.
Hypothesis F : some_features (M_Data.dd_roles s2) (M_Data.dd_other s2).
Hypothesis Ln : l <> [].
Hypothesis Li : incl l (M_Data.r_x (M_Data.dd_roles s)).
Hypothesis Fw : fit_with fa nj store ext sm.
Hypothesis M : make L rd f c s = Ok (C, w0).
Hypothesis M2 : make L rd f c s2 = Ok (C2, w2i).
Hypothesis Lw : later C w0 w.
Hypothesis Lw2 : later C2 w2i w2.
Hypothesis Cf : same_config w w2.
Let Wf : wf C2 w.
Proof. destruct (bench_shape c s s2 l C w0 C2 w2i K K2 W O M M2) as (_ & Sh & _). apply (wf_shape C C2 w Sh). exact (made_wf E L rd f c s C w0 w (S_Data.R_new _ _ K) Rd M Lw). Qed.
Let Wf2 : wf C2 w2.
Proof. exact (made_wf E L rd f c s2 C2 w2i w2 (S_Data.R_new _ _ K2) Rd M2 Lw2). Qed.
Let D2 : c_dcols C2 <> [].
Proof. apply (bench_shape c s s2 l C w0 C2 w2i K K2 W O M M2). Qed.
Lemma bench_eq' : m_sens (w_obj w) <> None -> sensitivity_benchmark L rd f c s (BList l) fa w = match fit C2 nj store ext sm w with (_, Err e) => Err e | (w', Ok _) => compared f s w w' end.
Proof. intro Sn. rewrite (bench_eq c s s2 l fa nj store ext sm C2 w2i w K K2 W O Sn Ln Li Fw M2). rewrite (checked_id s2 C2); [reflexivity|]. exact (some_columns f s2 K2 F). Qed.
Lemma bench_separate w2' : m_sens (w_obj w) <> None -> fit C2 nj store ext sm w2 = (w2', Ok tt) ->
  same_outcome (sensitivity_benchmark L rd f c s (BList l) fa w) (compared f s w w2').
Proof.
  intros Sn H2. rewrite bench_eq' by exact Sn. destruct (wf_success C2 w2 w nj store ext sm w2' D2 Wf2 Wf (config_sym _ _ Cf) H2) as [w' H]. rewrite H.
  destruct (bench_shape c s s2 l C w0 C2 w2i K K2 W O M M2) as (_ & _ & _ & _ & e & Es).
  destruct (fit_gain C2 w w2 nj store ext sm w' w2' e D2 Es Wf Wf2 Cf H H2) as (x & nu & th & m1 & m2 & G1 & G2 & L1 & L2 & _).
  unfold compared. rewrite G1, G2. destruct (gain_model w) as [ml|er]; [|reflexivity]. cbn [bind]. eapply gain_respects; eassumption.
Qed.
Section After.
Variables (nj0 store0 : pyval) (ext0 : ext_arg) (sm0 : pyval) (w1 : world P).
Hypothesis Lw1 : later C w0 w1.
Hypothesis H1 : fit C nj0 store0 ext0 sm0 w1 = (w, Ok tt).
Lemma after_long : exists s2l nl cl ml, gain_model w = Ok ml /\ like (length (c_dcols C2)) (m_n_rep (w_obj w)) s2l nl cl ml /\ m_sens (w_obj w) <> None /\
  forall t j, (t < length (c_dcols C2))%nat -> (j < m_n_rep (w_obj w))%nat -> reports_numbers w t j (s2l t j) (nl t j) (cl t j).
Proof.
  destruct (bench_shape c s s2 l C w0 C2 w2i K K2 W O M M2) as (_ & (Sh1 & Sh2 & Sh3) & _ & (e & Es) & _).
  assert (W1 : wf C w1) by exact (made_wf E L rd f c s C w0 w1 (S_Data.R_new _ _ K) Rd M Lw1). assert (Dc : c_dcols C <> []) by (rewrite Sh2; exact D2).
  assert (Sm : same_config w1 w1) by (repeat split).
  destruct (fit_gain C w1 w1 nj0 store0 ext0 sm0 w w e Dc Es W1 W1 Sm H1 H1) as (x & nu & th & m1 & m2 & G1 & G2 & L1 & L2 & Rp).
  destruct (fit_inv _ _ _ _ _ _ _ (dcols_pos _ Dc) W1 H1) as (_ & _ & _ & v & Lv & Ew).
  assert (Nr : m_n_rep (w_obj w) = m_n_rep (w_obj w1)) by (rewrite Ew; exact (fr_n_rep _ _ _ (li_fr _ _ _ _ _ _ Lv))).
  rewrite <- Sh2, Nr. exists x, nu, th, m1. split; [exact G1|]. split; [exact L1|]. split; [|exact Rp].
  destruct (fs_sens _ _ _ (li_sh _ _ _ _ _ _ Lv) e Es) as (sb & Em & _). rewrite Ew. change (fin_sens C v <> None). unfold fin_sens. rewrite Es, Em. discriminate.
Qed.
Lemma bench_success : is_ok (sensitivity_benchmark L rd f c s (BList l) fa w) = true <-> exists w2', fit C2 nj store ext sm w2 = (w2', Ok tt).
Proof.
  destruct after_long as (s2l & nl & cl & ml & G & Lk & Sn & _). split.
  - intro H. rewrite bench_eq' in H by exact Sn. destruct (fit C2 nj store ext sm w) as [w' [[]|er]] eqn:Ef; [|discriminate]. exact (wf_success C2 w w2 nj store ext sm w' D2 Wf Wf2 Cf Ef).
  - intros [w2' H2]. rewrite bench_eq' by exact Sn. destruct (wf_success C2 w2 w nj store ext sm w2' D2 Wf2 Wf (config_sym _ _ Cf) H2) as [w' H]. rewrite H.
    destruct (bench_shape c s s2 l C w0 C2 w2i K K2 W O M M2) as (_ & _ & _ & _ & e & Es).
    destruct (fit_gain C2 w w2 nj store ext sm w' w2' e D2 Es Wf Wf2 Cf H H2) as (x & nu & th & m1 & m2 & G1 & G2 & L1 & L2 & _).
    unfold compared. rewrite G, G1. cbn [bind]. destruct (gain_like (outcome_var f s) _ _ _ _ _ _ _ _ _ _ Lk L1) as (g & -> & _). reflexivity.
Qed.
Lemma bench_values w2' s2l nl cl s2s ns cs : fit C2 nj store ext sm w2 = (w2', Ok tt) ->
  let k := length (M_Data.r_d (M_Data.dd_roles s)) in let r := m_n_rep (w_obj w) in
  (forall t j, (t < k)%nat -> (j < r)%nat -> reports_numbers w t j (s2l t j) (nl t j) (cl t j) /\ reports_numbers w2' t j (s2s t j) (ns t j) (cs t j)) ->
  exists g, sensitivity_benchmark L rd f c s (BList l) fa w = Ok (k, r, g) /\ forall t, (t < k)%nat ->
    ga_delta g t = medianf r (fun j => cs t j - cl t j) /\
    ga_rho g t = medianf r (fun j => implied_rho (s2l t j) (s2s t j) (nl t j) (ns t j) (cs t j - cl t j)) /\
    (outcome_var f s <> 0 -> (forall j, (j < r)%nat -> s2l t j <> 0) -> ga_cf_y g t = Fin (medianf r (fun j => outcome_gain (s2l t j) (s2s t j)))) /\
    ((forall j, (j < r)%nat -> nl t j <> 0 /\ ns t j <> 0) -> ga_cf_d g t = Fin (medianf r (fun j => riesz_gain (nl t j) (ns t j)))).
Proof.
  intros H2 k r Rep. destruct after_long as (a & b & d & ml & G & Lk & Sn & Ra). destruct (bench_shape c s s2 l C w0 C2 w2i K K2 W O M M2) as (_ & _ & _ & _ & e & Es).
  destruct (wf_success C2 w2 w nj store ext sm w2' D2 Wf2 Wf (config_sym _ _ Cf) H2) as [w' H]. rewrite bench_eq' by exact Sn. rewrite H.
  destruct (fit_gain C2 w w2 nj store ext sm w' w2' e D2 Es Wf Wf2 Cf H H2) as (x & nu & th & m1 & m2 & G1 & G2 & L1 & L2 & _).
  destruct (fit_gain C2 w2 w nj store ext sm w2' w' e D2 Es Wf2 Wf (config_sym _ _ Cf) H2 H) as (x' & nu' & th' & m2' & m1' & G2' & G1' & L2' & L1' & Rb).
  rewrite G1 in G1'. apply ok_inj in G1'. subst m1'.
  assert (Ek : length (c_dcols C2) = k). { unfold k. destruct (make_reached L rd f c s2 C2 w2i (S_Data.R_new _ _ K2) Rd M2) as (_ & Q & _). rewrite Q. destruct W as (_ & -> & _). reflexivity. }
  assert (Er : m_n_rep (w_obj w2) = r). { unfold r. destruct Cf as (Q & _). symmetry. exact Q. }
  rewrite Ek in *. rewrite Er in *. fold r in Lk, Ra.
  unfold compared. rewrite G, G1. cbn [bind]. destruct (gain_like (outcome_var f s) _ _ _ _ _ _ _ _ _ _ Lk L1') as (g & -> & V). exists g. split; [reflexivity|]. intros t Ht.
  assert (U : forall (v : world P) a1 b1 d1 a2 b2 d2 t j, reports_numbers v t j a1 b1 d1 -> reports_numbers v t j a2 b2 d2 -> a1 = a2 /\ b1 = b2 /\ d1 = d2).
  { intros v a1 b1 d1 a2 b2 d2 t0 j0 (F1 & e1 & p1 & q1 & (k1 & o1 & Q1 & Q2 & ->) & S1 & B1 & X1 & X2 & X3) (F2 & e2 & p2 & q2 & (k2 & o2 & Q3 & Q4 & ->) & S2 & B2 & Y1 & Y2 & Y3).
    assert (k2 = k1) by congruence. subst k2. assert (o2 = o1) by congruence. subst o2. assert (e2 = e1) by congruence. subst e2. assert ((p2, q2) = (p1, q1)) as Pq by congruence. injection Pq as -> ->. split; [congruence|]. split; congruence. }
  assert (Q : forall j, (j < r)%nat -> a t j = s2l t j /\ b t j = nl t j /\ d t j = cl t j /\ x' t j = s2s t j /\ nu' t j = ns t j /\ th' t j = cs t j).
  { intros j Hj. destruct (Rep t j Ht Hj) as (A & B). destruct (U _ _ _ _ _ _ _ _ _ (Ra t j Ht Hj) A) as (? & ? & ?). destruct (U _ _ _ _ _ _ _ _ _ (Rb t j Ht Hj) B) as (? & ? & ?). auto 10. }
  destruct (V t Ht) as (V1 & V2 & V3 & V4). rewrite V1, V2, V3, V4. split; [|split; [|split]].
  - apply medianf_cong. intros j Hj. destruct (Q j Hj) as (_ & _ & -> & _ & _ & ->). reflexivity.
  - apply medianf_cong. intros j Hj. destruct (Q j Hj) as (-> & -> & -> & -> & -> & ->). apply rho_rep_implied.
  - intros Vy Nz. apply emedian_fin. intros j Hj. destruct (Q j Hj) as (-> & _ & _ & -> & _). apply cf_y_rep_fin; auto.
  - intros Nz. apply emedian_fin. intros j Hj. destruct (Q j Hj) as (_ & -> & _ & _ & -> & _). destruct (Nz j Hj). apply cf_d_rep_fin; assumption.
Qed.
End After.
End Pair.
End Bench.
Lemma bench_separate' E P (L : learner E row P) rd f : sound_randomness rd ->
  forall c s s2 l fa n_jobs store ext models C C2 w0 w2i w w2,
  S_Data.constructed f s -> S_Data.constructed f s2 -> without l (M_Data.dd_roles s) (M_Data.dd_roles s2) -> M_Data.dd_other s2 = M_Data.dd_other s ->
  some_features (M_Data.dd_roles s2) (M_Data.dd_other s2) -> l <> [] -> incl l (M_Data.r_x (M_Data.dd_roles s)) -> fit_with fa n_jobs store ext models ->
  make L rd f c s = Ok (C, w0) -> make L rd f c s2 = Ok (C2, w2i) -> later C w0 w -> later C2 w2i w2 -> same_config w w2 -> all_estimates w ->
  forall w2', m_sens (w_obj w) <> None -> fit C2 n_jobs store ext models w2 = (w2', Ok tt) ->
  same_outcome (sensitivity_benchmark L rd f c s (BList l) fa w) (compared f s w w2').
Proof. intros. eapply bench_separate; eassumption. Qed.
Lemma fit_estimates P (C : ctx P) nj store ext sm w w' : c_dcols C <> [] -> wf C w -> fit C nj store ext sm w = (w', Ok tt) -> all_estimates w'.
Proof.
  intros D W H. apply dcols_pos in D. destruct (fit_inv _ _ _ _ _ _ _ D W H) as (_ & _ & _ & v & Lv & ->). unfold all_estimates.
  change (forall i, in_shape i (b_shape (hget (w_heap v) (m_all_coef (w_obj v)))) -> b_at (hget (w_heap v) (m_all_coef (w_obj v))) i <> None).
  intros i Hi. rewrite (wf_sc _ _ (li_wf _ _ _ _ _ _ Lv)) in Hi. destruct i as [|t [|r [|]]]; cbn in Hi; try tauto. destruct Hi as (Ht & Hr & _).
  rewrite (fr_n_rep _ _ _ (li_fr _ _ _ _ _ _ Lv)) in Hr. destruct (li_cells _ _ _ _ _ _ Lv r t I Hr Ht) as (no & cl & s2 & x & _ & A). rewrite (cw_coef _ _ _ _ _ _ _ _ _ A). discriminate.
Qed.

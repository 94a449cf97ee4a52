(** Losses reported by objects of the model classes. *)
From Verif Require Import L_DataOps L_DataProps.
From Verif Require Export L_LossFit.
From Coq Require Import Lia Lra.
Local Open Scope R_scope.
Local Open Scope res_scope.
Local Open Scope string_scope.

Lemma plain_when {E P} (mc : machinery E P) n r t prm e lrn b (y : vec) : mc_proba mc lrn = b -> (b = true -> labels_01 n y) -> plain_labels (setup_of mc n r t prm e) lrn y.
Proof. intros Hb H. unfold plain_labels. cbn [setup_of su_proba]. rewrite Hb. destruct b; [right|left; reflexivity]. destruct (H eq_refl) as (A & i & Hi & Z). split; [exact A|exists i; split; assumption]. Qed.
Lemma all_everyone i : all_of i = true <-> everyone i.
Proof. split; intros _; [exact Logic.I|reflexivity]. Qed.
Ltac ctx_facts Ec fr s :=
  match type of Ec with ?C = with_clusters _ _ ?D =>
    let Q := fresh in destruct (clusters_same fr s D) as (A1 & A2 & A3 & A4 & A5); rewrite <- Ec in A1, A2, A3, A4, A5; cbn [c_n c_dcols c_learners c_nuis plr_ctx irm_ctx apo_ctx iivm_ctx did_ctx cs_ctx pliv_ctx ssm_ctx] in A1, A2, A3, A5 end.
Ltac fit_facts L f g mc C Hf Sw Sl Re Pc Ec A2 :=
  destruct (fun a b => loss_rep L f g mc C _ _ _ _ _ _ a b Sw Sl Hf) as (out & Q);
    [rewrite A2; first [discriminate|exact (some_treatment _ _ Re)]|rewrite Ec; apply clusters_proper; [exact Re|exact Pc|reflexivity]|].
Ltac inl A3 := rewrite A3; cbn; tauto.

Lemma plr_loss : forall (E P : Type) (L : learner E row P) f g rd fr s ml_l ml_m ml_g nf nr draw C w0 w nj store ext smod w',
  S_Data.reachable fr s -> proper_clusters s -> sound_randomness rd ->
  plr_init L rd fr s ml_l ml_m ml_g nf nr (PStr "partialling out") draw = Ok (C, w0) -> later C w0 w ->
  exists mc, mc_order mc = rd_order rd /\ runs_on mc "ml_l" ml_l false /\ runs_on mc "ml_m" ml_m (ly_classifier ml_m) /\
  let n := M_Data.frows fr in let dcols := M_Data.r_d (M_Data.dd_roles s) in let y := outcome fr s in
  (sound_learning L f g mc w ->
  (forall c, In c dcols -> labels_everywhere L g mc w n "ml_m" (col fr c) everyone) -> (ly_classifier ml_m = true -> forall c, In c dcols -> labels_01 n (col fr c)) ->
  fit C nj store ext smod w = (w', Ok tt) ->
  forall sm r t fs c, m_smpls (w_obj w) = Some sm -> nth_error sm r = Some fs -> nth_error dcols t = Some c -> let x := covariates fr s c in let d := col fr c in exists l m,
    used_prediction L f g mc w n ext r t c "ml_l" "ml_l" x y whole_train fs l /\ loss_reported w' r t ext c "ml_l" (ly_classifier ml_l) n l y everyone /\
    used_prediction L f g mc w n ext r t c "ml_m" "ml_m" x d whole_train fs m /\ loss_reported w' r t ext c "ml_m" (ly_classifier ml_m) n m d everyone).
Proof.
  intros until w'. intros Re Pc Rd H La. destruct (plr_made L rd fr s Re Rd _ _ _ _ _ _ _ _ _ H) as (mc & bin & Ec & Sr & O & R1 & R2 & _). destruct (plr_kinds L rd fr s _ _ _ _ _ _ _ _ _ H) as (Kl & Km & _).
  pose proof (reached_later _ _ _ Sr La) as Sw. exists mc. split; [exact O|]. split; [exact R1|]. split; [exact R2|]. intros n dcols y Sl Hm Pm Hf. change (String.eqb "partialling out" "IV-type") with false in Ec. ctx_facts Ec fr s.
  fit_facts L f g mc C Hf Sw Sl Re Pc Ec A2. intros sm r t fs c Es Hr Ht. cbv zeta. destruct (x_of_at fr s Re t c Ht) as (<- & <-).
  destruct (Q sm r t fs c Es Hr) as (e & M & S & N & Lr & Lo & Le); [rewrite A2; exact Ht|]. rewrite A5 in N. rewrite A1 in *. cbv beta in N.
  assert (Fl : fit_ok L g (setup_of mc n r t (fun l => nth r (m_params (w_obj w) l c) None) e) "ml_l" "ml_l" y everyone fs) by (intros _ Hp; cbn [setup_of su_proba] in Hp; destruct R1 as (_ & R1); congruence).
  assert (Fm : fit_ok L g (setup_of mc n r t (fun l => nth r (m_params (w_obj w) l c) None) e) "ml_m" "ml_m" (d_of fr s t) everyone fs) by (intros _; eapply rep_labels; [exact (labels_all L g mc w n fr s Re _ Hm t)|exact Es|exact Hr]).
  edestruct (plr_partialling_out L f g) as (l & m & N1 & N2 & P1 & P2 & _); [exact S|exact Fl|exact Fm|exact N|].
  edestruct (plr_evaluated L f g) as (V1 & V2); [exact S|exact Fl|exact Fm| | |exact N|].
  { left. apply R1. }
  { eapply plain_when; [apply R2|]. intro B. exact (d_of_all fr s Re (labels_01 n) (Pm B) t). }
  exists l, m. split; [eapply rep_used; [apply M; inl A3|exact N1]|]. split; [rewrite <- Kl; eapply Lr; [inl A3|exact all_everyone|exact P1|exact V1]|].
  split; [eapply rep_used; [apply M; inl A3|exact N2]|]. rewrite <- Km. eapply Lr; [inl A3|exact all_everyone|exact P2|exact V2].
Qed.

Lemma plr_iv_loss : forall (E P : Type) (L : learner E row P) f g rd fr s ml_l ml_m ml_g nf nr draw C w0 w nj store ext smod w',
  S_Data.reachable fr s -> proper_clusters s -> sound_randomness rd ->
  plr_init L rd fr s ml_l ml_m ml_g nf nr (PStr "IV-type") draw = Ok (C, w0) -> later C w0 w ->
  exists mc, mc_order mc = rd_order rd /\ runs_on mc "ml_l" ml_l false /\ runs_on mc "ml_m" ml_m (ly_classifier ml_m) /\ mc_learner mc "ml_g" = match ml_g with Some l => ly_obj l | None => ln_clone L (ly_obj ml_l) end /\
  let n := M_Data.frows fr in let dcols := M_Data.r_d (M_Data.dd_roles s) in let y := outcome fr s in
  (sound_learning L f g mc w ->
  (forall c, In c dcols -> labels_everywhere L g mc w n "ml_m" (col fr c) everyone) -> (ly_classifier ml_m = true -> forall c, In c dcols -> labels_01 n (col fr c)) ->
  fit C nj store ext smod w = (w', Ok tt) ->
  forall sm r t fs c, m_smpls (w_obj w) = Some sm -> nth_error sm r = Some fs -> nth_error dcols t = Some c -> let x := covariates fr s c in let d := col fr c in exists m,
    used_prediction L f g mc w n ext r t c "ml_m" "ml_m" x d whole_train fs m /\ loss_reported w' r t ext c "ml_m" (ly_classifier ml_m) n m d everyone /\
    ((exists e, supplied ext c "ml_g" r e) -> loss_entry w' r t "ml_g" None /\ loss_entry w' r t "ml_l" None) /\
    ((forall e, ~ supplied ext c "ml_g" r e) -> exists l th gg,
      used_prediction L f g mc w n ext r t c "ml_l" "ml_l" x y whole_train fs l /\ loss_reported w' r t ext c "ml_l" (ly_classifier ml_l) n l y everyone /\
      (sumf n (fun i => (d i - m i) ^ 2) <> 0 -> th = sumf n (fun i => (d i - m i) * (y i - l i)) / sumf n (fun i => (d i - m i) ^ 2)) /\
      used_prediction L f g mc w n ext r t c "ml_g" "ml_g" x (fun i => y i - th * d i) whole_train fs gg /\
      loss_over w' r t "ml_g" (match ml_g with Some l => ly_classifier l | None => ly_classifier ml_l end) n gg (fun i => y i - th * d i) everyone)).
Proof.
  intros until w'. intros Re Pc Rd H La. destruct (plr_made L rd fr s Re Rd _ _ _ _ _ _ _ _ _ H) as (mc & bin & Ec & Sr & O & R1 & R2 & R3). destruct (R3 eq_refl) as (Rp & Rl). destruct (plr_kinds L rd fr s _ _ _ _ _ _ _ _ _ H) as (Kl & Km & Kg). specialize (Kg eq_refl).
  pose proof (reached_later _ _ _ Sr La) as Sw. exists mc. split; [exact O|]. split; [exact R1|]. split; [exact R2|]. split; [exact Rl|]. intros n dcols y Sl Hm Pm Hf. change (String.eqb "IV-type" "IV-type") with true in Ec. ctx_facts Ec fr s.
  fit_facts L f g mc C Hf Sw Sl Re Pc Ec A2. intros sm r t fs c Es Hr Ht. cbv zeta. destruct (x_of_at fr s Re t c Ht) as (<- & <-).
  destruct (Q sm r t fs c Es Hr) as (e & M & S & N & Lr & Lo & Le); [rewrite A2; exact Ht|]. rewrite A5 in N. rewrite A1 in *. cbv beta in N. set (su := setup_of mc (M_Data.frows fr) r t (fun l => nth r (m_params (w_obj w) l c) None) e) in *.
  assert (Fl : fit_ok L g su "ml_l" "ml_l" y everyone fs) by (intros _ Hp; cbn [su setup_of su_proba] in Hp; destruct R1 as (_ & R1); congruence).
  assert (Fm : fit_ok L g su "ml_m" "ml_m" (d_of fr s t) everyone fs) by (intros _; eapply rep_labels; [exact (labels_all L g mc w n fr s Re _ Hm t)|exact Es|exact Hr]).
  edestruct (plr_iv_evaluated L f g su) as (m & N1 & P1 & V1 & Z); [exact S|exact Fl|exact Fm| | | | |exact N|].
  { intros v _ Hp. cbn [su setup_of su_proba] in Hp. congruence. }
  { left. apply R1. }
  { eapply plain_when; [apply R2|]. intro B. exact (d_of_all fr s Re (labels_01 n) (Pm B) t). }
  { exact Rp. }
  exists m. split; [eapply rep_used; [apply M; inl A3|exact N1]|]. split; [rewrite <- Km; eapply Lr; [inl A3|exact all_everyone|exact P1|exact V1]|].
  assert (Mg : match e "ml_g" with Some v => supplied ext c "ml_g" r v | None => forall v, ~ supplied ext c "ml_g" r v end) by (apply M; inl A3). cbn [su setup_of su_ext] in Z. destruct (e "ml_g") as [u|] eqn:Ee.
  - split; [|intro X; exfalso; exact (X _ Mg)]. intros _. destruct Z as (Z1 & Z2). split; apply Le; try assumption; inl A3.
  - split; [intros (u & X); exfalso; exact (Mg _ X)|]. intros _. destruct Z as (l & th & gg & N2 & P2 & V2 & Sl2 & N3 & P3 & V3). exists l, th, gg.
    split; [eapply rep_used; [apply M; inl A3|exact N2]|]. split; [rewrite <- Kl; eapply Lr; [inl A3|exact all_everyone|exact P2|exact V2]|].
    split. { intro Hs. unfold slope_of in Sl2. cbn [su setup_of su_n] in Sl2. assert (Q2 : sumf (M_Data.frows fr) (fun i => (d_of fr s t i - m i) * (d_of fr s t i - m i)) = sumf n (fun i => (d_of fr s t i - m i) ^ 2)) by (apply sumf_ext; intros; ring).
      rewrite Q2 in Sl2. specialize (Sl2 Hs). apply (Rmult_eq_reg_r (sumf n (fun i => (d_of fr s t i - m i) ^ 2))); [|exact Hs]. etransitivity; [exact Sl2|]. unfold Rdiv. rewrite Rmult_assoc, Rinv_l, Rmult_1_r by exact Hs. reflexivity. }
    split. { eapply rep_used with (e := e); [rewrite Ee; exact Mg|]. unfold nuisance. cbn [setup_of su_ext]. rewrite Ee. exact N3. }
    rewrite <- Kg. eapply Lo; [inl A3|exact all_everyone|exact P3|]. unfold evaluated in V3. cbn [su setup_of su_ext] in V3. rewrite Ee in V3. exact V3.
Qed.

Lemma pliv_loss : forall (E P : Type) (L : learner E row P) f g rd fr s proj zc ml_l ml_m ml_r ml_g nf nr draw C w0 w nj store ext smod w',
  S_Data.reachable fr s -> proper_clusters s -> sound_randomness rd -> M_Data.r_z (M_Data.dd_roles s) = Some [zc] ->
  pliv_init L rd fr s proj ml_l ml_m ml_r ml_g nf nr (PStr "partialling out") draw = Ok (C, w0) -> later C w0 w ->
  exists mc, mc_order mc = rd_order rd /\ runs_on mc "ml_l" ml_l false /\ runs_on mc "ml_m" ml_m false /\ runs_on mc "ml_r" ml_r false /\
  let n := M_Data.frows fr in let dcols := M_Data.r_d (M_Data.dd_roles s) in let y := outcome fr s in let z := col fr zc in
  (sound_learning L f g mc w -> fit C nj store ext smod w = (w', Ok tt) ->
  forall sm r t fs c, m_smpls (w_obj w) = Some sm -> nth_error sm r = Some fs -> nth_error dcols t = Some c -> let x := covariates fr s c in let d := col fr c in exists l m q,
    used_prediction L f g mc w n ext r t c "ml_l" "ml_l" x y whole_train fs l /\ loss_reported w' r t ext c "ml_l" (ly_classifier ml_l) n l y everyone /\
    used_prediction L f g mc w n ext r t c "ml_m" "ml_m" x z whole_train fs m /\ loss_reported w' r t ext c "ml_m" (ly_classifier ml_m) n m z everyone /\
    used_prediction L f g mc w n ext r t c "ml_r" "ml_r" x d whole_train fs q /\ loss_reported w' r t ext c "ml_r" (ly_classifier ml_r) n q d everyone).
Proof.
  intros until w'. intros Re Pc Rd Ez H La. destruct (pliv_made L rd fr s Re Rd _ _ _ _ _ _ _ _ _ _ _ H) as (z0 & more & mc & Ez' & _ & Ec & Sr & O & R1 & R2 & R3 & _). rewrite Ez in Ez'. injection Ez' as <- <-. destruct (pliv_kinds L rd fr s Re _ zc _ _ _ _ _ _ _ _ _ _ Ez H) as (Kl & Km & Kr).
  pose proof (reached_later _ _ _ Sr La) as Sw. exists mc. split; [exact O|]. split; [exact R1|]. split; [exact R2|]. split; [exact R3|]. intros n dcols y z Sl Hf. change (String.eqb "partialling out" "IV-type") with false in Ec. ctx_facts Ec fr s.
  fit_facts L f g mc C Hf Sw Sl Re Pc Ec A2. intros sm r t fs c Es Hr Ht. cbv zeta. destruct (x_of_at fr s Re t c Ht) as (<- & <-).
  destruct (Q sm r t fs c Es Hr) as (e & M & S & N & Lr & Lo & Le); [rewrite A2; exact Ht|]. rewrite A5 in N. rewrite A1 in *. cbv beta in N.
  assert (Fx : forall k l v, runs_on mc k l false -> fit_ok L g (setup_of mc (M_Data.frows fr) r t (fun l => nth r (m_params (w_obj w) l c) None) e) k k v everyone fs) by (intros k l v (_ & Rk) _ Hp; cbn [setup_of su_proba] in Hp; congruence).
  edestruct (pliv_partialling_out L f g) as (l & m & q & N1 & N2 & N3 & P1 & P2 & P3 & _); [exact S|eapply Fx; exact R1|eapply Fx; exact R2|eapply Fx; exact R3|exact N|].
  edestruct (pliv_evaluated L f g) as (V1 & V2 & V3); [exact S|eapply Fx; exact R1|eapply Fx; exact R2|eapply Fx; exact R3|left; apply R1|left; apply R2|left; apply R3|exact N|].
  exists l, m, q. split; [eapply rep_used; [apply M; inl A3|exact N1]|]. split; [rewrite <- Kl; eapply Lr; [inl A3|exact all_everyone|exact P1|exact V1]|].
  split; [eapply rep_used; [apply M; inl A3|exact N2]|]. split; [rewrite <- Km; eapply Lr; [inl A3|exact all_everyone|exact P2|exact V2]|].
  split; [eapply rep_used; [apply M; inl A3|exact N3]|]. rewrite <- Kr. eapply Lr; [inl A3|exact all_everyone|exact P3|exact V3].
Qed.

Lemma irm_loss : forall (E P : Type) (L : learner E row P) f g rd fr s ml_g ml_m nf nr sc wa norm rule thr draw C w0 w nj store ext smod w',
  S_Data.reachable fr s -> proper_clusters s -> sound_randomness rd ->
  irm_init L rd fr s ml_g ml_m nf nr (PStr sc) wa norm rule thr draw = Ok (C, w0) -> later C w0 w ->
  exists c th mc, binary_treatment fr s c /\ thr = PFloat th /\ mc_order mc = rd_order rd /\ runs_on mc "ml_g" ml_g (ly_classifier ml_g) /\ runs_on mc "ml_m" ml_m true /\
  let n := M_Data.frows fr in let y := outcome fr s in let d := col fr c in let x := covariates fr s c in
  (sound_learning L f g mc w ->
  labels_everywhere L g mc w n "ml_g" y (fun j => d j = 0) -> labels_everywhere L g mc w n "ml_g" y (fun j => d j = 1) -> labels_everywhere L g mc w n "ml_m" d everyone ->
  (ly_classifier ml_g = true -> labels_01 n y) -> labels_01 n d ->
  fit C nj store ext smod w = (w', Ok tt) ->
  forall sm r fs, m_smpls (w_obj w) = Some sm -> nth_error sm r = Some fs -> exists g0 g1 m0 m,
    used_prediction L f g mc w n ext r 0 c "ml_g0" "ml_g" x y (group_rows n (fun j => d j = 0)) fs g0 /\ loss_reported w' r 0 ext c "ml_g0" (ly_classifier ml_g) n g0 y (fun j => d j = 0) /\
    used_prediction L f g mc w n ext r 0 c "ml_g1" "ml_g" x y (group_rows n (fun j => d j = 1)) fs g1 /\ loss_reported w' r 0 ext c "ml_g1" (ly_classifier ml_g) n g1 y (fun j => d j = 1) /\
    used_prediction L f g mc w n ext r 0 c "ml_m" "ml_m" x d whole_train fs m0 /\ (forall i, (i < n)%nat -> m i = Rmin (Rmax (m0 i) th) (1 - th)) /\ loss_reported w' r 0 ext c "ml_m" (ly_classifier ml_m) n m d everyone).
Proof.
  intros until w'. intros Re Pc Rd H La. destruct (irm_made L rd fr s Re Rd _ _ _ _ _ _ _ _ _ _ _ _ H) as (c & mc & nm & th & bo & st & Bt & Ec & Sr & O & R1 & R2 & _ & Et & _). destruct (irm_kinds L rd fr s _ _ _ _ _ _ _ _ _ _ _ _ H) as (K0 & K1 & Km).
  pose proof (reached_later _ _ _ Sr La) as Sw. exists c, th, mc. split; [exact Bt|]. split; [exact Et|]. split; [exact O|]. split; [exact R1|]. split; [exact R2|]. intros n y d x Sl H0 H1 Hm Pg Pm Hf. ctx_facts Ec fr s.
  fit_facts L f g mc C Hf Sw Sl Re Pc Ec A2. intros sm r fs Es Hr.
  destruct (Q sm r 0%nat fs c Es Hr) as (e & M & S & N & Lr & Lo & Le); [rewrite A2; reflexivity|]. rewrite A5 in N. rewrite A1 in *. cbv beta in N. set (su := setup_of mc (M_Data.frows fr) r 0 (fun l => nth r (m_params (w_obj w) l c) None) e) in *.
  assert (F0 : fit_ok L g su "ml_g0" "ml_g" y (fun j => d j = 0) fs) by (intros _; eapply rep_labels; [exact H0|exact Es|exact Hr]).
  assert (F1 : fit_ok L g su "ml_g1" "ml_g" y (fun j => d j = 1) fs) by (intros _; eapply rep_labels; [exact H1|exact Es|exact Hr]).
  assert (Fm : fit_ok L g su "ml_m" "ml_m" d everyone fs) by (intros _; eapply rep_labels; [exact Hm|exact Es|exact Hr]).
  edestruct (irm_spec L f g) as (g0 & g1 & m0 & m & N1 & N2 & N3 & Tm & P1 & P2 & P3 & _); [exact S|exact F0|exact F1|exact Fm|exact N|].
  edestruct (irm_evaluated L f g) as (V1 & V2 & V3); [exact S|exact F0|exact F1|exact Fm|eapply plain_when; [apply R1|exact Pg]|eapply plain_when; [apply R2|intros _; exact Pm]|exact N|].
  exists g0, g1, m0, m. split; [eapply rep_used; [apply M; inl A3|exact N1]|]. split; [rewrite <- K0; eapply Lr; [inl A3|apply is01_iff|exact P1|exact V1]|].
  split; [eapply rep_used; [apply M; inl A3|exact N2]|]. split; [rewrite <- K1; eapply Lr; [inl A3|apply is01_iff|exact P2|exact V2]|].
  split; [eapply rep_used; [apply M; inl A3|exact N3]|]. split; [exact Tm|]. rewrite <- Km. eapply Lr; [inl A3|exact all_everyone|exact P3|exact V3].
Qed.

Lemma apo_loss : forall (E P : Type) (L : learner E row P) f g rd fr s ml_g ml_m level nf nr score wa norm rule thr draw C w0 w nj store ext smod w',
  S_Data.reachable fr s -> proper_clusters s -> sound_randomness rd ->
  apo_init L rd fr s ml_g ml_m level nf nr score wa norm rule thr draw = Ok (C, w0) -> later C w0 w ->
  exists c th mc, M_Data.r_d (M_Data.dd_roles s) = [c] /\ thr = PFloat th /\ mc_order mc = rd_order rd /\ runs_on mc "ml_g" ml_g (ly_classifier ml_g) /\ runs_on mc "ml_m" ml_m true /\
  let n := M_Data.frows fr in let y := outcome fr s in let x := covariates fr s c in let a := at_level level (col fr c) in
  (sound_learning L f g mc w ->
  labels_everywhere L g mc w n "ml_g" y (fun j => a j = 0) -> labels_everywhere L g mc w n "ml_g" y (fun j => a j = 1) -> labels_everywhere L g mc w n "ml_m" a everyone ->
  (ly_classifier ml_g = true -> labels_01 n y) -> labels_01 n a ->
  fit C nj store ext smod w = (w', Ok tt) ->
  forall sm r fs, m_smpls (w_obj w) = Some sm -> nth_error sm r = Some fs -> exists g0 g1 m0 m,
    used_prediction L f g mc w n ext r 0 c "ml_g_d_lvl0" "ml_g" (fun i => col fr c i :: x i) y (group_rows n (fun j => a j = 0)) fs g0 /\ loss_over w' r 0 "ml_g_d_lvl0" (ly_classifier ml_g) n g0 y (fun j => a j = 0) /\
    used_prediction L f g mc w n ext r 0 c "ml_g_d_lvl1" "ml_g" x y (group_rows n (fun j => a j = 1)) fs g1 /\ loss_over w' r 0 "ml_g_d_lvl1" (ly_classifier ml_g) n g1 y (fun j => a j = 1) /\
    used_prediction L f g mc w n ext r 0 c "ml_m" "ml_m" x a whole_train fs m0 /\ (forall i, (i < n)%nat -> m i = Rmin (Rmax (m0 i) th) (1 - th)) /\ loss_over w' r 0 "ml_m" (ly_classifier ml_m) n m a everyone).
Proof.
  intros until w'. intros Re Pc Rd H La. destruct (apo_made L rd fr s Re Rd _ _ _ _ _ _ _ _ _ _ _ _ _ H) as (c & mc & nm & th & bo & st & Ed & Ec & Sr & Edc & O & R1 & R2 & _ & Et & _). destruct (apo_kinds L rd fr s _ _ _ _ _ _ _ _ _ _ _ _ _ H) as (K0 & K1 & Km).
  pose proof (reached_later _ _ _ Sr La) as Sw. exists c, th, mc. split; [exact Ed|]. split; [exact Et|]. split; [exact O|]. split; [exact R1|]. split; [exact R2|]. intros n y x a Sl H0 H1 Hm Pg Pm Hf. ctx_facts Ec fr s.
  assert (El : treated_at fr s level = a) by (unfold a, at_level, treated_at; rewrite Edc; reflexivity). rewrite El in A5.
  fit_facts L f g mc C Hf Sw Sl Re Pc Ec A2. intros sm r fs Es Hr.
  destruct (Q sm r 0%nat fs c Es Hr) as (e & M & S & N & Lr & Lo & Le); [rewrite A2; reflexivity|]. rewrite A5 in N. rewrite A1 in *. cbv beta in N. set (su := setup_of mc (M_Data.frows fr) r 0 (fun l => nth r (m_params (w_obj w) l c) None) e) in *.
  assert (F0 : fit_ok L g su "ml_g_d_lvl0" "ml_g" y (fun j => a j = 0) fs) by (intros _; eapply rep_labels; [exact H0|exact Es|exact Hr]).
  assert (F1 : fit_ok L g su "ml_g_d_lvl1" "ml_g" y (fun j => a j = 1) fs) by (intros _; eapply rep_labels; [exact H1|exact Es|exact Hr]).
  assert (Fm : fit_ok L g su "ml_m" "ml_m" a everyone fs) by (intros _; eapply rep_labels; [exact Hm|exact Es|exact Hr]).
  edestruct (apo_spec L f g) as (g0 & g1 & m0 & m & N1 & N2 & N3 & Tm & P1 & P2 & P3 & _); [exact S|exact F0|exact F1|exact Fm|exact N|].
  edestruct (apo_targets L f g) as (V1 & V2 & V3); [exact S|exact F0|exact F1|exact Fm|eapply plain_when; [apply R1|exact Pg]|eapply plain_when; [apply R2|intros _; exact Pm]|exact N|].
  assert (On : forall o name v c0 G, (forall i, c0 i = true <-> G i) -> target_on su o name v G -> exists tg, no_targets o name = Some tg /\ forall i, (i < M_Data.frows fr)%nat -> tg i = if c0 i then Some (v i) else None).
  { intros o name v c0 G HG (tg & T1 & T2). exists tg. split; [exact T1|]. intros i Hi. destruct (T2 i Hi) as (B1 & B2). destruct (c0 i) eqn:Ei; [apply B1, HG, Ei|apply B2; intro X; apply HG in X; congruence]. }
  exists g0, g1, m0, m. split; [eapply rep_used; [apply M; inl A3|exact N1]|]. split; [rewrite <- K0; eapply Lo; [inl A3|apply is01_iff|exact P1|eapply On; [apply is01_iff|exact V1]]|].
  split; [eapply rep_used; [apply M; inl A3|exact N2]|]. split; [rewrite <- K1; eapply Lo; [inl A3|apply is01_iff|exact P2|eapply On; [apply is01_iff|exact V2]]|].
  split; [eapply rep_used; [apply M; inl A3|exact N3]|]. split; [exact Tm|]. rewrite <- Km. eapply Lo; [inl A3|exact all_everyone|exact P3|eapply On; [exact all_everyone|exact V3]].
Qed.

Lemma iivm_loss : forall (E P : Type) (L : learner E row P) f g rd fr s ml_g ml_m ml_r nf nr score sg norm rule thr draw C w0 w nj store ext smod w',
  S_Data.reachable fr s -> proper_clusters s -> sound_randomness rd ->
  iivm_init L rd fr s ml_g ml_m ml_r nf nr score sg norm rule thr draw = Ok (C, w0) -> later C w0 w ->
  exists c zc th mc always never, binary_treatment fr s c /\ M_Data.r_z (M_Data.dd_roles s) = Some [zc] /\ thr = PFloat th /\ mc_order mc = rd_order rd /\ runs_on mc "ml_g" ml_g (ly_classifier ml_g) /\ runs_on mc "ml_m" ml_m true /\ runs_on mc "ml_r" ml_r true /\ subgroups_are sg always never /\
  let n := M_Data.frows fr in let y := outcome fr s in let d := col fr c in let z := col fr zc in let x := covariates fr s c in
  (sound_learning L f g mc w ->
  labels_everywhere L g mc w n "ml_g" y (fun j => z j = 0) -> labels_everywhere L g mc w n "ml_g" y (fun j => z j = 1) -> labels_everywhere L g mc w n "ml_m" z everyone ->
  (always = true -> labels_everywhere L g mc w n "ml_r" d (fun j => z j = 0)) -> (never = true -> labels_everywhere L g mc w n "ml_r" d (fun j => z j = 1)) ->
  (ly_classifier ml_g = true -> labels_01 n y) -> labels_01 n z -> labels_01 n d ->
  fit C nj store ext smod w = (w', Ok tt) ->
  forall sm r fs, m_smpls (w_obj w) = Some sm -> nth_error sm r = Some fs -> exists g0 g1 m0 m,
    used_prediction L f g mc w n ext r 0 c "ml_g0" "ml_g" x y (group_rows n (fun j => z j = 0)) fs g0 /\ loss_reported w' r 0 ext c "ml_g0" (ly_classifier ml_g) n g0 y (fun j => z j = 0) /\
    used_prediction L f g mc w n ext r 0 c "ml_g1" "ml_g" x y (group_rows n (fun j => z j = 1)) fs g1 /\ loss_reported w' r 0 ext c "ml_g1" (ly_classifier ml_g) n g1 y (fun j => z j = 1) /\
    used_prediction L f g mc w n ext r 0 c "ml_m" "ml_m" x z whole_train fs m0 /\ (forall i, (i < n)%nat -> m i = Rmin (Rmax (m0 i) th) (1 - th)) /\ loss_reported w' r 0 ext c "ml_m" (ly_classifier ml_m) n m z everyone /\
    (always = true -> exists r0, used_prediction L f g mc w n ext r 0 c "ml_r0" "ml_r" x d (group_rows n (fun j => z j = 0)) fs r0 /\ loss_reported w' r 0 ext c "ml_r0" (ly_classifier ml_r) n r0 d (fun j => z j = 0)) /\
    (never = true -> exists r1, used_prediction L f g mc w n ext r 0 c "ml_r1" "ml_r" x d (group_rows n (fun j => z j = 1)) fs r1 /\ loss_reported w' r 0 ext c "ml_r1" (ly_classifier ml_r) n r1 d (fun j => z j = 1)) /\
    (always = false -> (forall e, ~ supplied ext c "ml_r0" r e) -> loss_over w' r 0 "ml_r0" (ly_classifier ml_r) n (fun _ => 0) (fun _ => 0) (fun j => z j = 0)) /\
    (never = false -> (forall e, ~ supplied ext c "ml_r1" r e) -> loss_over w' r 0 "ml_r1" (ly_classifier ml_r) n (fun _ => 1) (fun _ => 1) (fun j => z j = 1))).
Proof.
  intros until w'. intros Re Pc Rd H La. destruct (iivm_made L rd fr s Re Rd _ _ _ _ _ _ _ _ _ _ _ _ _ H) as (c & zc & mc & nm & th & bo & at1 & nt1 & st & Bt & Ez & _ & Ec & Sr & O & R1 & R2 & R3 & _ & Et & _ & Sg). destruct (iivm_kinds L rd fr s _ _ _ _ _ _ _ _ _ _ _ _ _ H) as (K0 & K1 & Km & Kr0 & Kr1).
  pose proof (reached_later _ _ _ Sr La) as Sw. exists c, zc, th, mc, at1, nt1. split; [exact Bt|]. split; [exact Ez|]. split; [exact Et|]. split; [exact O|]. split; [exact R1|]. split; [exact R2|]. split; [exact R3|]. split; [apply subgroups_value; exact Sg|]. intros n y d z x Sl H0 H1 Hm Hr0 Hr1 Pg Pm Pr Hf. ctx_facts Ec fr s.
  fit_facts L f g mc C Hf Sw Sl Re Pc Ec A2. intros sm r fs Es Hr.
  destruct (Q sm r 0%nat fs c Es Hr) as (e & M & S & N & Lr & Lo & Le); [rewrite A2; reflexivity|]. rewrite A5 in N. rewrite A1 in *. cbv beta in N. set (su := setup_of mc (M_Data.frows fr) r 0 (fun l => nth r (m_params (w_obj w) l c) None) e) in *.
  assert (F0 : fit_ok L g su "ml_g0" "ml_g" y (fun j => z j = 0) fs) by (intros _; eapply rep_labels; [exact H0|exact Es|exact Hr]).
  assert (F1 : fit_ok L g su "ml_g1" "ml_g" y (fun j => z j = 1) fs) by (intros _; eapply rep_labels; [exact H1|exact Es|exact Hr]).
  assert (Fm : fit_ok L g su "ml_m" "ml_m" z everyone fs) by (intros _; eapply rep_labels; [exact Hm|exact Es|exact Hr]).
  assert (Fr0 : at1 = true -> fit_ok L g su "ml_r0" "ml_r" d (fun j => z j = 0) fs) by (intros B _; eapply rep_labels; [exact (Hr0 B)|exact Es|exact Hr]).
  assert (Fr1 : nt1 = true -> fit_ok L g su "ml_r1" "ml_r" d (fun j => z j = 1) fs) by (intros B _; eapply rep_labels; [exact (Hr1 B)|exact Es|exact Hr]).
  edestruct (iivm_spec L f g) as (g0 & g1 & m0 & m & r0 & r1 & N1 & N2 & N3 & Tm & T0 & T1 & P1 & P2 & P3 & P4 & P5 & _); [exact S|exact F0|exact F1|exact Fm|exact Fr0|exact Fr1|exact N|].
  edestruct (iivm_evaluated L f g) as (V1 & V2 & V3 & V4 & V5); [exact S|exact F0|exact F1|exact Fm|exact Fr0|exact Fr1|eapply plain_when; [apply R1|exact Pg]|eapply plain_when; [apply R2|intros _; exact Pm]|eapply plain_when; [apply R3|intros _; exact Pr]|exact N|].
  assert (Ns : forall name, In name (c_learners C) -> (forall v, ~ supplied ext c name r v) -> e name = None).
  { intros name Hi X. pose proof (M name Hi) as Mn. destruct (e name); [exfalso; exact (X _ Mn)|reflexivity]. }
  exists g0, g1, m0, m. split; [eapply rep_used; [apply M; inl A3|exact N1]|]. split; [rewrite <- K0; eapply Lr; [inl A3|apply is01_iff|exact P1|exact V1]|].
  split; [eapply rep_used; [apply M; inl A3|exact N2]|]. split; [rewrite <- K1; eapply Lr; [inl A3|apply is01_iff|exact P2|exact V2]|].
  split; [eapply rep_used; [apply M; inl A3|exact N3]|]. split; [exact Tm|]. split; [rewrite <- Km; eapply Lr; [inl A3|exact all_everyone|exact P3|exact V3]|].
  unfold taker_fn in T0, T1. split; [|split; [|split]].
  - intros ->. exists r0. split; [eapply rep_used; [apply M; inl A3|exact T0]|]. rewrite <- Kr0. eapply Lr; [inl A3|apply is01_iff|exact P4|exact V4].
  - intros ->. exists r1. split; [eapply rep_used; [apply M; inl A3|exact T1]|]. rewrite <- Kr1. eapply Lr; [inl A3|apply is01_iff|exact P5|exact V5].
  - intros -> X. assert (Ex : e "ml_r0" = None) by (apply Ns; [inl A3|exact X]). specialize (V4 Ex). unfold evaluated in V4. cbn [su setup_of su_ext] in V4. rewrite Ex in V4. rewrite <- Kr0.
    eapply Lo; [inl A3|apply is01_iff| |exact V4]. intros i Hi. rewrite (P4 i Hi). f_equal. apply T0, Hi.
  - intros -> X. assert (Ex : e "ml_r1" = None) by (apply Ns; [inl A3|exact X]). specialize (V5 Ex). unfold evaluated in V5. cbn [su setup_of su_ext] in V5. rewrite Ex in V5. rewrite <- Kr1.
    eapply Lo; [inl A3|apply is01_iff| |exact V5]. intros i Hi. rewrite (P5 i Hi). f_equal. apply T1, Hi.
Qed.

Lemma did_obs_loss : forall (E P : Type) (L : learner E row P) f g rd fr s ml_g ml_m nf nr norm rule thr draw C w0 w nj store ext smod w',
  S_Data.reachable fr s -> proper_clusters s -> sound_randomness rd ->
  did_init L rd fr s ml_g ml_m nf nr (PStr "observational") norm rule thr draw = Ok (C, w0) -> later C w0 w ->
  exists c th lm mc, binary_treatment fr s c /\ thr = PFloat th /\ mc_order mc = rd_order rd /\ runs_on mc "ml_g" ml_g (ly_classifier ml_g) /\ ml_m = Some lm /\ runs_on mc "ml_m" lm true /\
  let n := M_Data.frows fr in let y := outcome fr s in let d := col fr c in let x := covariates fr s c in
  (sound_learning L f g mc w ->
  labels_everywhere L g mc w n "ml_g" y (fun j => d j = 0) -> labels_everywhere L g mc w n "ml_g" y (fun j => d j = 1) -> labels_everywhere L g mc w n "ml_m" d everyone ->
  (ly_classifier ml_g = true -> labels_01 n y) -> labels_01 n d ->
  fit C nj store ext smod w = (w', Ok tt) ->
  forall sm r fs, m_smpls (w_obj w) = Some sm -> nth_error sm r = Some fs -> exists g0 g1 m0 m,
    used_prediction L f g mc w n ext r 0 c "ml_g0" "ml_g" x y (group_rows n (fun j => d j = 0)) fs g0 /\ loss_reported w' r 0 ext c "ml_g0" (ly_classifier ml_g) n g0 y (fun j => d j = 0) /\
    used_prediction L f g mc w n ext r 0 c "ml_g1" "ml_g" x y (group_rows n (fun j => d j = 1)) fs g1 /\ loss_reported w' r 0 ext c "ml_g1" (ly_classifier ml_g) n g1 y (fun j => d j = 1) /\
    used_prediction L f g mc w n ext r 0 c "ml_m" "ml_m" x d whole_train fs m0 /\ (forall i, (i < n)%nat -> m i = Rmin (Rmax (m0 i) th) (1 - th)) /\ loss_reported w' r 0 ext c "ml_m" (ly_classifier lm) n m d everyone).
Proof.
  intros until w'. intros Re Pc Rd H La. destruct (did_made L rd fr s Re Rd _ _ _ _ _ _ _ _ _ _ _ H) as (c & mc & nm & th & st & Bt & Ec & Sr & O & R1 & R2 & _ & Et & _). destruct (did_kinds L rd fr s _ _ _ _ _ _ _ _ _ _ _ H) as (K0 & K1 & Km).
  pose proof (reached_later _ _ _ Sr La) as Sw. destruct (R2 eq_refl) as (lm & Elm & R2'). specialize (Km eq_refl lm Elm). exists c, th, lm, mc. split; [exact Bt|]. split; [exact Et|]. split; [exact O|]. split; [exact R1|]. split; [exact Elm|]. split; [exact R2'|]. intros n y d x Sl H0 H1 Hm Pg Pm Hf. change (String.eqb "observational" "observational") with true in Ec. ctx_facts Ec fr s.
  fit_facts L f g mc C Hf Sw Sl Re Pc Ec A2. intros sm r fs Es Hr.
  destruct (Q sm r 0%nat fs c Es Hr) as (e & M & S & N & Lr & Lo & Le); [rewrite A2; reflexivity|]. rewrite A5 in N. rewrite A1 in *. cbv beta in N. set (su := setup_of mc (M_Data.frows fr) r 0 (fun l => nth r (m_params (w_obj w) l c) None) e) in *.
  assert (F0 : fit_ok L g su "ml_g0" "ml_g" y (fun j => d j = 0) fs) by (intros _; eapply rep_labels; [exact H0|exact Es|exact Hr]).
  assert (F1 : fit_ok L g su "ml_g1" "ml_g" y (fun j => d j = 1) fs) by (intros _; eapply rep_labels; [exact H1|exact Es|exact Hr]).
  assert (Fm : fit_ok L g su "ml_m" "ml_m" d everyone fs) by (intros _; eapply rep_labels; [exact Hm|exact Es|exact Hr]).
  edestruct (did_obs L f g) as (g0 & g1 & m0 & m & p & N1 & N2 & N3 & Tm & _ & P1 & P2 & P3 & _); [exact S|exact F0|exact F1|exact Fm|exact N|].
  edestruct (did_evaluated L f g) as (V1 & V2 & V3); [exact S|exact F0|exact F1|intros _; exact Fm|eapply plain_when; [apply R1|exact Pg]|intros _; eapply plain_when; [apply R2'|intros _; exact Pm]|exact N|]. specialize (V3 eq_refl).
  exists g0, g1, m0, m. split; [eapply rep_used; [apply M; inl A3|exact N1]|]. split; [rewrite <- K0; eapply Lr; [inl A3|apply is01_iff|exact P1|exact V1]|].
  split; [eapply rep_used; [apply M; inl A3|exact N2]|]. split; [rewrite <- K1; eapply Lr; [inl A3|apply is01_iff|exact P2|exact V2]|].
  split; [eapply rep_used; [apply M; inl A3|exact N3]|]. split; [exact Tm|]. rewrite <- Km. eapply Lr; [inl A3|exact all_everyone|exact P3|exact V3].
Qed.

Lemma did_exp_loss : forall (E P : Type) (L : learner E row P) f g rd fr s ml_g ml_m nf nr norm rule thr draw C w0 w nj store ext smod w',
  S_Data.reachable fr s -> proper_clusters s -> sound_randomness rd ->
  did_init L rd fr s ml_g ml_m nf nr (PStr "experimental") norm rule thr draw = Ok (C, w0) -> later C w0 w ->
  exists c mc, binary_treatment fr s c /\ mc_order mc = rd_order rd /\ runs_on mc "ml_g" ml_g (ly_classifier ml_g) /\ 
  let n := M_Data.frows fr in let y := outcome fr s in let d := col fr c in let x := covariates fr s c in
  (sound_learning L f g mc w ->
  labels_everywhere L g mc w n "ml_g" y (fun j => d j = 0) -> labels_everywhere L g mc w n "ml_g" y (fun j => d j = 1) -> 
  (ly_classifier ml_g = true -> labels_01 n y) -> 
  fit C nj store ext smod w = (w', Ok tt) ->
  forall sm r fs, m_smpls (w_obj w) = Some sm -> nth_error sm r = Some fs -> exists g0 g1 ,
    used_prediction L f g mc w n ext r 0 c "ml_g0" "ml_g" x y (group_rows n (fun j => d j = 0)) fs g0 /\ loss_reported w' r 0 ext c "ml_g0" (ly_classifier ml_g) n g0 y (fun j => d j = 0) /\
    used_prediction L f g mc w n ext r 0 c "ml_g1" "ml_g" x y (group_rows n (fun j => d j = 1)) fs g1 /\ loss_reported w' r 0 ext c "ml_g1" (ly_classifier ml_g) n g1 y (fun j => d j = 1)).
Proof.
  intros until w'. intros Re Pc Rd H La. destruct (did_made L rd fr s Re Rd _ _ _ _ _ _ _ _ _ _ _ H) as (c & mc & nm & th & st & Bt & Ec & Sr & O & R1 & R2 & _ & Et & _). destruct (did_kinds L rd fr s _ _ _ _ _ _ _ _ _ _ _ H) as (K0 & K1 & Km).
  pose proof (reached_later _ _ _ Sr La) as Sw. exists c, mc. split; [exact Bt|]. split; [exact O|]. split; [exact R1|]. intros n y d x Sl H0 H1 Pg Hf. change (String.eqb "experimental" "observational") with false in Ec. ctx_facts Ec fr s.
  fit_facts L f g mc C Hf Sw Sl Re Pc Ec A2. intros sm r fs Es Hr.
  destruct (Q sm r 0%nat fs c Es Hr) as (e & M & S & N & Lr & Lo & Le); [rewrite A2; reflexivity|]. rewrite A5 in N. rewrite A1 in *. cbv beta in N. set (su := setup_of mc (M_Data.frows fr) r 0 (fun l => nth r (m_params (w_obj w) l c) None) e) in *.
  assert (F0 : fit_ok L g su "ml_g0" "ml_g" y (fun j => d j = 0) fs) by (intros _; eapply rep_labels; [exact H0|exact Es|exact Hr]).
  assert (F1 : fit_ok L g su "ml_g1" "ml_g" y (fun j => d j = 1) fs) by (intros _; eapply rep_labels; [exact H1|exact Es|exact Hr]).
  edestruct (did_exp L f g) as (g0 & g1 & p & N1 & N2 & _ & P1 & P2 & _); [exact S|exact F0|exact F1|exact N|].
  edestruct (did_evaluated L f g su false) as (V1 & V2 & _); [exact S|exact F0|exact F1|discriminate|eapply plain_when; [apply R1|exact Pg]|discriminate|exact N|].
  exists g0, g1. split; [eapply rep_used; [apply M; inl A3|exact N1]|]. split; [rewrite <- K0; eapply Lr; [inl A3|apply is01_iff|exact P1|exact V1]|].
  split; [eapply rep_used; [apply M; inl A3|exact N2]|]. rewrite <- K1. eapply Lr; [inl A3|apply is01_iff|exact P2|exact V2].
Qed.

Lemma cs_obs_loss : forall (E P : Type) (L : learner E row P) f g rd fr s ml_g ml_m nf nr norm rule thr draw C w0 w nj store ext smod w',
  S_Data.reachable fr s -> proper_clusters s -> sound_randomness rd ->
  cs_init L rd fr s ml_g ml_m nf nr (PStr "observational") norm rule thr draw = Ok (C, w0) -> later C w0 w ->
  exists c tc th lm mc, binary_treatment fr s c /\ M_Data.r_t (M_Data.dd_roles s) = Some tc /\ thr = PFloat th /\ mc_order mc = rd_order rd /\ runs_on mc "ml_g" ml_g (ly_classifier ml_g) /\ ml_m = Some lm /\ runs_on mc "ml_m" lm true /\
  let n := M_Data.frows fr in let y := outcome fr s in let d := col fr c in let t := col fr tc in let x := covariates fr s c in
  (sound_learning L f g mc w ->
  (forall a b, (a = 0 \/ a = 1) -> (b = 0 \/ b = 1) -> labels_everywhere L g mc w n "ml_g" y (fun j => d j = a /\ t j = b)) -> labels_everywhere L g mc w n "ml_m" d everyone ->
  (ly_classifier ml_g = true -> labels_01 n y) -> labels_01 n d ->
  fit C nj store ext smod w = (w', Ok tt) ->
  forall sm r fs, m_smpls (w_obj w) = Some sm -> nth_error sm r = Some fs -> 
    (forall name a b, In (name, a, b) [("ml_g_d0_t0", 0, 0); ("ml_g_d0_t1", 0, 1); ("ml_g_d1_t0", 1, 0); ("ml_g_d1_t1", 1, 1)] -> exists v, used_prediction L f g mc w n ext r 0 c name "ml_g" x y (group_rows n (fun j => d j = a /\ t j = b)) fs v /\ loss_reported w' r 0 ext c name (ly_classifier ml_g) n v y (fun j => d j = a /\ t j = b)) /\
    exists m0 m, used_prediction L f g mc w n ext r 0 c "ml_m" "ml_m" x d whole_train fs m0 /\ (forall i, (i < n)%nat -> m i = Rmin (Rmax (m0 i) th) (1 - th)) /\ loss_reported w' r 0 ext c "ml_m" (ly_classifier lm) n m d everyone).
Proof.
  intros until w'. intros Re Pc Rd H La. destruct (cs_made L rd fr s Re Rd _ _ _ _ _ _ _ _ _ _ _ H) as (c & tc & mc & nm & th & st & Bt & Etc & _ & Ec & Sr & O & R1 & R2 & _ & Et & _). destruct (cs_kinds L rd fr s _ _ _ _ _ _ _ _ _ _ _ H) as (K0 & Km).
  pose proof (reached_later _ _ _ Sr La) as Sw. destruct (R2 eq_refl) as (lm & Elm & R2'). specialize (Km eq_refl lm Elm). exists c, tc, th, lm, mc. split; [exact Bt|]. split; [exact Etc|]. split; [exact Et|]. split; [exact O|]. split; [exact R1|]. split; [exact Elm|]. split; [exact R2'|]. intros n y d t x Sl H0 Hm Pg Pm Hf. change (String.eqb "observational" "observational") with true in Ec. ctx_facts Ec fr s.
  fit_facts L f g mc C Hf Sw Sl Re Pc Ec A2. intros sm r fs Es Hr.
  destruct (Q sm r 0%nat fs c Es Hr) as (e & M & S & N & Lr & Lo & Le); [rewrite A2; reflexivity|]. rewrite A5 in N. rewrite A1 in *. cbv beta in N. set (su := setup_of mc (M_Data.frows fr) r 0 (fun l => nth r (m_params (w_obj w) l c) None) e) in *.
  assert (F0 : forall a b name, In (name, a, b) [("ml_g_d0_t0", 0, 0); ("ml_g_d0_t1", 0, 1); ("ml_g_d1_t0", 1, 0); ("ml_g_d1_t1", 1, 1)] -> fit_ok L g su name "ml_g" y (fun j => d j = a /\ t j = b) fs).
  { intros a b name Hin _. eapply rep_labels; [|exact Es|exact Hr]. destruct Hin as [X|[X|[X|[X|[]]]]]; injection X as <- <- <-; apply H0; auto. }
  assert (Fm : fit_ok L g su "ml_m" "ml_m" d everyone fs) by (intros _; eapply rep_labels; [exact Hm|exact Es|exact Hr]).
  edestruct (cs_obs L f g) as (g00 & g01 & g10 & g11 & m0 & m & p & lam & N1 & N3 & Tm & P3 & _); [exact S|exact F0|exact Fm|exact N|].
  edestruct (cs_evaluated L f g) as (V1 & V3); [exact S|exact F0|intros _; exact Fm|eapply plain_when; [apply R1|exact Pg]|intros _; eapply plain_when; [apply R2'|intros _; exact Pm]|exact N|]. specialize (V3 eq_refl).
  split.
  2: { exists m0, m. split; [eapply rep_used; [apply M; inl A3|exact N3]|]. split; [exact Tm|]. rewrite <- Km. eapply Lr; [inl A3|exact all_everyone|exact P3|exact V3]. }
  intros name a b Hin. pose proof (V1 a b name Hin) as V. assert (Kn : c_classifier C name = ly_classifier ml_g) by (apply K0; destruct Hin as [X|[X|[X|[X|[]]]]]; injection X as <- _ _; cbn; auto 10).
  assert (Ic : In name (c_learners C)) by (rewrite A3; destruct Hin as [X|[X|[X|[X|[]]]]]; injection X as <- _ _; cbn; auto 10).
  assert (Nv : exists v, nuisance L f g su name "ml_g" x y (group_rows (su_n su) (fun j => d j = a /\ t j = b)) fs v /\ reported su (out r 0%nat) name v) by (destruct Hin as [X|[X|[X|[X|[]]]]]; injection X as <- <- <-; eexists; apply N1; cbn; auto 10).
  destruct Nv as (v & N2 & P2). exists v. split; [eapply rep_used; [apply M; exact Ic|exact N2]|]. rewrite <- Kn. eapply Lr; [exact Ic|apply is01_2_iff|exact P2|exact V].
Qed.

Lemma cs_exp_loss : forall (E P : Type) (L : learner E row P) f g rd fr s ml_g ml_m nf nr norm rule thr draw C w0 w nj store ext smod w',
  S_Data.reachable fr s -> proper_clusters s -> sound_randomness rd ->
  cs_init L rd fr s ml_g ml_m nf nr (PStr "experimental") norm rule thr draw = Ok (C, w0) -> later C w0 w ->
  exists c tc mc, binary_treatment fr s c /\ M_Data.r_t (M_Data.dd_roles s) = Some tc /\ mc_order mc = rd_order rd /\ runs_on mc "ml_g" ml_g (ly_classifier ml_g) /\ 
  let n := M_Data.frows fr in let y := outcome fr s in let d := col fr c in let t := col fr tc in let x := covariates fr s c in
  (sound_learning L f g mc w ->
  (forall a b, (a = 0 \/ a = 1) -> (b = 0 \/ b = 1) -> labels_everywhere L g mc w n "ml_g" y (fun j => d j = a /\ t j = b)) -> 
  (ly_classifier ml_g = true -> labels_01 n y) -> 
  fit C nj store ext smod w = (w', Ok tt) ->
  forall sm r fs, m_smpls (w_obj w) = Some sm -> nth_error sm r = Some fs -> 
    (forall name a b, In (name, a, b) [("ml_g_d0_t0", 0, 0); ("ml_g_d0_t1", 0, 1); ("ml_g_d1_t0", 1, 0); ("ml_g_d1_t1", 1, 1)] -> exists v, used_prediction L f g mc w n ext r 0 c name "ml_g" x y (group_rows n (fun j => d j = a /\ t j = b)) fs v /\ loss_reported w' r 0 ext c name (ly_classifier ml_g) n v y (fun j => d j = a /\ t j = b))).
Proof.
  intros until w'. intros Re Pc Rd H La. destruct (cs_made L rd fr s Re Rd _ _ _ _ _ _ _ _ _ _ _ H) as (c & tc & mc & nm & th & st & Bt & Etc & _ & Ec & Sr & O & R1 & R2 & _ & Et & _). destruct (cs_kinds L rd fr s _ _ _ _ _ _ _ _ _ _ _ H) as (K0 & Km).
  pose proof (reached_later _ _ _ Sr La) as Sw. exists c, tc, mc. split; [exact Bt|]. split; [exact Etc|]. split; [exact O|]. split; [exact R1|]. intros n y d t x Sl H0 Pg Hf. change (String.eqb "experimental" "observational") with false in Ec. ctx_facts Ec fr s.
  fit_facts L f g mc C Hf Sw Sl Re Pc Ec A2. intros sm r fs Es Hr.
  destruct (Q sm r 0%nat fs c Es Hr) as (e & M & S & N & Lr & Lo & Le); [rewrite A2; reflexivity|]. rewrite A5 in N. rewrite A1 in *. cbv beta in N. set (su := setup_of mc (M_Data.frows fr) r 0 (fun l => nth r (m_params (w_obj w) l c) None) e) in *.
  assert (F0 : forall a b name, In (name, a, b) [("ml_g_d0_t0", 0, 0); ("ml_g_d0_t1", 0, 1); ("ml_g_d1_t0", 1, 0); ("ml_g_d1_t1", 1, 1)] -> fit_ok L g su name "ml_g" y (fun j => d j = a /\ t j = b) fs).
  { intros a b name Hin _. eapply rep_labels; [|exact Es|exact Hr]. destruct Hin as [X|[X|[X|[X|[]]]]]; injection X as <- <- <-; apply H0; auto. }
  edestruct (cs_exp L f g) as (g00 & g01 & g10 & g11 & p & lam & N1 & _); [exact S|exact F0|exact N|].
  edestruct (cs_evaluated L f g su false) as (V1 & _); [exact S|exact F0|discriminate|eapply plain_when; [apply R1|exact Pg]|discriminate|exact N|].
  intros name a b Hin. pose proof (V1 a b name Hin) as V. assert (Kn : c_classifier C name = ly_classifier ml_g) by (apply K0; destruct Hin as [X|[X|[X|[X|[]]]]]; injection X as <- _ _; cbn; auto 10).
  assert (Ic : In name (c_learners C)) by (rewrite A3; destruct Hin as [X|[X|[X|[X|[]]]]]; injection X as <- _ _; cbn; auto 10).
  assert (Nv : exists v, nuisance L f g su name "ml_g" x y (group_rows (su_n su) (fun j => d j = a /\ t j = b)) fs v /\ reported su (out r 0%nat) name v) by (destruct Hin as [X|[X|[X|[X|[]]]]]; injection X as <- <- <-; eexists; apply N1; cbn; auto 10).
  destruct Nv as (v & N2 & P2). exists v. split; [eapply rep_used; [apply M; exact Ic|exact N2]|]. rewrite <- Kn. eapply Lr; [exact Ic|apply is01_2_iff|exact P2|exact V].
Qed.

Lemma ssm_loss : forall (E P : Type) (L : learner E row P) f g rd fr s tts ml_g ml_pi ml_m nf nr norm rule thr draw C w0 w nj store ext smod w',
  S_Data.reachable fr s -> proper_clusters s -> sound_randomness rd ->
  ssm_init L rd fr s tts ml_g ml_pi ml_m nf nr (PStr "missing-at-random") norm rule thr draw = Ok (C, w0) -> later C w0 w ->
  exists sel th mc, M_Data.r_s (M_Data.dd_roles s) = Some sel /\ thr = PFloat th /\ mc_order mc = rd_order rd /\ clone_of L mc "ml_g" ml_g (ly_classifier ml_g) /\ clone_of L mc "ml_pi" ml_pi true /\ clone_of L mc "ml_m" ml_m true /\
  let n := M_Data.frows fr in let dcols := M_Data.r_d (M_Data.dd_roles s) in let y := outcome fr s in let a := col fr sel in
  (sound_learning L f g mc w -> labels_everywhere L g mc w n "ml_pi" a everyone ->
  (forall c, In c dcols -> labels_everywhere L g mc w n "ml_m" (col fr c) everyone /\ labels_everywhere L g mc w n "ml_g" y (fun j => col fr c j = 1 /\ a j = 1) /\ labels_everywhere L g mc w n "ml_g" y (fun j => col fr c j = 0 /\ a j = 1) /\ labels_01 n (col fr c)) ->
  (ly_classifier ml_g = true -> labels_01 n y) -> labels_01 n a ->
  fit C nj store ext smod w = (w', Ok tt) ->
  forall sm r t fs c, m_smpls (w_obj w) = Some sm -> nth_error sm r = Some fs -> nth_error dcols t = Some c -> let x := covariates fr s c in let d := col fr c in
    let su := setup_of mc n r t (fun l => nth r (m_params (w_obj w) l c) None) (fun _ => None) in exists pi m0 m g1 g0,
    cross_fitted L f g su "ml_pi" "ml_pi" (fun i => x i ++ [d i])%list a whole_train fs pi /\ loss_over w' r t "ml_pi" (ly_classifier ml_pi) n pi a everyone /\
    cross_fitted L f g su "ml_m" "ml_m" x d whole_train fs m0 /\ (forall i, (i < n)%nat -> m i = Rmin (Rmax (m0 i) th) (1 - th)) /\ loss_over w' r t "ml_m" (ly_classifier ml_m) n m d everyone /\
    cross_fitted L f g su "ml_g_d1" "ml_g" x y (group_rows n (fun j => d j = 1 /\ a j = 1)) fs g1 /\ loss_over w' r t "ml_g_d1" (ly_classifier ml_g) n g1 y everyone /\
    cross_fitted L f g su "ml_g_d0" "ml_g" x y (group_rows n (fun j => d j = 0 /\ a j = 1)) fs g0 /\ loss_over w' r t "ml_g_d0" (ly_classifier ml_g) n g0 y everyone).
Proof.
  intros until w'. intros Re Pc Rd H La. destruct (ssm_made L rd fr s Re Rd _ _ _ _ _ _ _ _ _ _ _ _ _ H) as (sel & mc & nm & th & st & Es0 & Ec & Sr & O & R1 & R2 & R3 & _ & Et & _). destruct (ssm_kinds L rd fr s _ _ _ _ _ _ _ _ _ _ _ _ _ H) as (K0 & K1 & Kp & Km).
  pose proof (reached_later _ _ _ Sr La) as Sw. exists sel, th, mc. split; [exact Es0|]. split; [exact Et|]. split; [exact O|]. split; [exact R1|]. split; [exact R2|]. split; [exact R3|]. intros n dcols y a Sl Hp Hc Pg Pa Hf. change (String.eqb "missing-at-random" "nonignorable") with false in Ec. cbv iota in Ec. ctx_facts Ec fr s.
  fit_facts L f g mc C Hf Sw Sl Re Pc Ec A2. intros sm r t fs c Es Hr Ht. cbv zeta. assert (Ic : In c dcols) by (eapply nth_error_In; exact Ht). destruct (Hc c Ic) as (Hm & H1 & H0 & Pd). revert Hm H1 H0 Pd. destruct (x_of_at fr s Re t c Ht) as (<- & <-). intros Hm H1 H0 Pd.
  destruct (Q sm r t fs c Es Hr) as (e & M & S & N & Lr & Lo & Le); [rewrite A2; exact Ht|]. rewrite A5 in N. rewrite A1 in *. cbv beta in N. set (su := setup_of mc (M_Data.frows fr) r t (fun l => nth r (m_params (w_obj w) l c) None) e) in *.
  assert (Gp : labels_ok L g su "ml_pi" a everyone fs) by (eapply rep_labels; [exact Hp|exact Es|exact Hr]).
  assert (Gm : labels_ok L g su "ml_m" (d_of fr s t) everyone fs) by (eapply rep_labels; [exact Hm|exact Es|exact Hr]).
  assert (G1 : labels_ok L g su "ml_g" y (fun j => d_of fr s t j = 1 /\ a j = 1) fs) by (eapply rep_labels; [exact H1|exact Es|exact Hr]).
  assert (G0 : labels_ok L g su "ml_g" y (fun j => d_of fr s t j = 0 /\ a j = 1) fs) by (eapply rep_labels; [exact H0|exact Es|exact Hr]).
  edestruct (ssm_mar L f g) as (pi & m0 & m & g1 & g0 & N1 & N2 & Tm & N3 & N4 & P1 & P2 & P3 & P4 & _); [exact S|exact Gp|exact Gm|exact G1|exact G0|exact N|].
  epose proof (ssm_evaluated L f g su _ _ _ _ _ _ _ _ _ S Gp Gm G1 G0 _ _ _ N) as V.
  exists pi, m0, m, g1, g0. split; [exact N1|]. split; [rewrite <- Kp; eapply Lo; [inl A3|exact all_everyone|exact P1|apply V; cbn; auto]|].
  split; [exact N2|]. split; [exact Tm|]. split; [rewrite <- Km; eapply Lo; [inl A3|exact all_everyone|exact P2|apply V; cbn; auto]|].
  split; [exact N3|]. split; [rewrite <- K1; eapply Lo; [inl A3|exact all_everyone|exact P3|apply V; cbn; auto]|].
  split; [exact N4|]. rewrite <- K0. eapply Lo; [inl A3|exact all_everyone|exact P4|apply V; cbn; auto].
  Unshelve.
  - eapply plain_when; [apply R2|intros _; exact Pa].
  - eapply plain_when; [apply R3|intros _; exact Pd].
  - eapply plain_when; [apply R1|exact Pg].
Qed.

(** Units of measurement: lemmas. *)
From Verif Require Export S_Units L_InitFit.
From Verif Require Import L_CrossPath L_ModelValid L_CrossProps.
From Coq Require Import Lia Lra.
Local Open Scope R_scope.
Local Open Scope string_scope.

Section Pred.
Context {E P : Type} (L : learner E row P) (f : E -> row -> R) (g : E -> row -> list R).
Lemma codes_same n y y' c c' : (forall i, (i < n)%nat -> y' i = y i) -> codes n y c -> codes n y' c' -> forall i, (i < n)%nat -> c' i = c i.
Proof.
  intros H (lab & (S1 & I1) & C1) (lab' & (S2 & I2) & C2) i Hi.
  assert (lab' = lab) as ->.
  { apply ssorted_Rlt_eq; [exact S2|exact S1|]. intro z. rewrite I1, I2. split; intros (j & Hj & <-); exists j; split; auto; rewrite H; auto. }
  destruct (C1 i Hi) as (p & P1 & ->). destruct (C2 i Hi) as (p' & P2 & ->). rewrite H in P2 by exact Hi. f_equal.
  clear -S1 P1 P2. assert (ND : NoDup lab). { clear -S1. induction S1 as [|x l S IH F]; constructor; [|exact IH]. intro I. rewrite Forall_forall in F. specialize (F x I). lra. }
  apply (proj1 (NoDup_nth_error lab) ND); [|congruence]. apply nth_error_Some. rewrite P2. discriminate.
Qed.
(** Row selections that agree on ranges. *)
Definition sel_match (n : nat) (sel sel' : rows_sel) : Prop := forall tr r r', (forall j, In j tr -> (j < n)%nat) -> sel tr r -> sel' tr r' -> r' = r /\ forall j, In j r -> (j < n)%nat.
Lemma whole_match n : sel_match n whole_train whole_train.
Proof. intros tr r r' H -> ->. split; [reflexivity|exact H]. Qed.
Lemma group_match n (G G' : nat -> Prop) : (forall j, (j < n)%nat -> G' j <-> G j) -> sel_match n (group_rows n G) (group_rows n G').
Proof.
  intros H tr r r' Ht (S1 & I1) (S2 & I2). split; [apply sorted_lt_eq; [exact S2|exact S1|]|intros j Hj; apply I1 in Hj; tauto].
  intro z. rewrite I1, I2. split; intros (A & B & C); (split; [exact A|]; split; [apply (H z A), B|exact C]).
Qed.
Lemma carried_prediction mc mc' w w' n ext ext' r t col name lrn (pr : bool) lo x x' y y' sel sel' fs v v' a b :
  mc_learner mc lrn = lo -> mc_learner mc' lrn = lo -> mc_proba mc lrn = pr -> mc_proba mc' lrn = pr ->
  (forall l c, m_params (w_obj w') l c = m_params (w_obj w) l c) -> (forall h j, In h fs -> In j (fst h) -> (j < n)%nat) -> sel_match n sel sel' ->
  (forall i, (i < n)%nat -> x' i = x i) -> affine n a b y y' -> carried L f pr ext ext' col name r a b ->
  used_prediction L f g mc w n ext r t col name lrn x y sel fs v -> used_prediction L f g mc' w' n ext' r t col name lrn x' y' sel' fs v' -> affine n a b v v'.
Proof.
  intros M1 M2 P1 P2 Hp Rg Sm Hx Hy Ca (U1 & U2) (U1' & U2') i Hi. destruct Ca as [(N1 & N2 & Q)|(e & e' & S1 & S2 & Q)].
  2: { rewrite (U1 e S1), (U1' e' S2). apply Q. }
  destruct (U2 N1) as (c & Cc & V). destruct (U2' N2) as (c' & Cc' & V'). cbn [setup_of su_proba su_n su_learner su_params] in *.
  destruct (V i Hi) as (k & h & rows & p & m & (T1 & T2 & T3) & Se & Pa & Fi & X). destruct (V' i Hi) as (k' & h' & rows' & p' & m' & (T1' & T2' & T3') & Se' & Pa' & Fi' & X').
  assert (k' = k) as -> by (eapply T3; eassumption). assert (h' = h) as -> by congruence. pose proof (nth_error_In _ _ T1) as Ih.
  destruct (Sm _ _ _ (fun j => Rg h j Ih) Se Se') as (-> & Rr).
  assert (p' = p) as ->. { rewrite Hp in Pa'. unfold param_of in Pa, Pa'. destruct (params_of _) as [|q|l]; [congruence|congruence|]. destruct Pa as (q1 & A1 & ->), Pa' as (q2 & A2 & ->). congruence. }
  rewrite M1 in Fi. rewrite M2 in Fi'. rewrite P1 in *. rewrite P2 in *.
  assert (Same : forall d1 d2, d1 = d2 -> fitted L lo p d1 m -> fitted L lo p d2 m' -> m' = m).
  { intros d1 d2 <- A B. unfold fitted in A, B. destruct p as [q|]; [destruct A as (e1 & A1 & A2), B as (e2 & B1 & B2); rewrite A1 in B1; injection B1 as <-|]; congruence. }
  destruct Q as [(-> & ->)|(-> & Eq)].
  - assert (Ec : forall j, (j < n)%nat -> c' j = c j).
    { destruct pr; [apply (codes_same n y y'); auto; intros j Hj; rewrite (Hy j Hj); ring|]. subst c c'. intros j Hj. rewrite (Hy j Hj). ring. }
    assert (m' = m) as ->. { eapply Same; [|exact Fi|exact Fi']. apply map_ext_in. intros j Hj. rewrite Hx, Ec by auto. reflexivity. }
    rewrite Hx in X' by exact Hi. destruct pr; [rewrite X in X'; injection X' as <-; ring|]. rewrite X, X'. ring.
  - subst c c'. rewrite X, X', Hx by exact Hi.
    assert (Ed : map (fun j => (x' j, y' j)) rows = map (fun p => (fst p, a * snd p + b)) (map (fun j => (x j, y j)) rows)).
    { rewrite map_map. apply map_ext_in. intros j Hj. cbn [fst snd]. rewrite Hx, (Hy j) by auto. reflexivity. }
    rewrite Ed in Fi'. unfold fitted in Fi, Fi'. destruct p as [q|]; [destruct Fi as (e1 & A1 & A2), Fi' as (e2 & B1 & B2); rewrite A1 in B1; injection B1 as <-|]; eapply Eq; eassumption.
Qed.
Lemma reliable_sound mc rd w : mc_order mc = rd_order rd -> reliable L f g rd w -> sound_learning L f g mc w.
Proof. intros O [A B C]. constructor; [exact A|exact B|]. rewrite O. exact C. Qed.
Lemma seen_everywhere mc w n lrn pr y G : mc_proba mc lrn = pr -> labels_seen L g pr w n y G -> labels_everywhere L g mc w n lrn y G.
Proof. intros <- H. exact H. Qed.
Lemma unseen_everywhere mc w n lrn y G : mc_proba mc lrn = false -> labels_everywhere L g mc w n lrn y G.
Proof. intros Q Q'. congruence. Qed.
End Pred.
Lemma ranges {P} (C : ctx P) w sm r fs : c_cluster C = None -> soundly_reached C w -> m_smpls (w_obj w) = Some sm -> nth_error sm r = Some fs ->
  forall h j, In h fs -> In j (fst h) -> (j < c_n C)%nat.
Proof.
  intros Hc (nf & nr & dr & gen & perm & w0 & ops & A & B & D & F & ->) Es Er h j Hh Hj.
  destruct (splits_valid C ltac:(rewrite Hc; discriminate) nf nr dr gen perm w0 ops A B D F sm Es) as (_ & V). destruct (V fs (nth_error_In _ _ Er)) as ((V1 & V2) & _).
  destruct V2 as [(tr & te & -> & Pm)|V2]; [destruct Hh as [<-|[]]; apply (Permutation_in _ Pm) in Hj; apply in_seq in Hj; lia|apply (V2 h Hh), Hj].
Qed.
Lemma ranges_of {P} (C : ctx P) w0 w n : soundly_reached C w0 -> later C w0 w -> c_cluster C = None -> c_n C = n ->
  forall sm r fs, m_smpls (w_obj w) = Some sm -> nth_error sm r = Some fs -> forall h j, In h fs -> In j (fst h) -> (j < n)%nat.
Proof. intros Sr La Hc <- sm r fs E1 E2. exact (ranges C w sm r fs Hc (reached_later _ _ _ Sr La) E1 E2). Qed.
Lemma scaled_estimate F F' n t r k shift theta psi J theta' psi' J' c : estimate_is F n t r theta psi J -> estimate_is F' n t r theta' psi' J' ->
  J <> 0 -> c <> 0 -> J' = c * J -> theta' = k * theta + shift -> (forall i, (i < n)%nat -> psi' i = k * c * psi i) -> rescaled F F' t r k shift.
Proof.
  intros (T1 & S1 & _) (T2 & S2 & _) N Nc HJ HT HP. unfold rescaled. rewrite T1, T2, S1, S2. split; [exact HT|]. rewrite HJ.
  rewrite (sumf_ext n (fun i => psi' i ^ 2) (fun i => (k * c) ^ 2 * psi i ^ 2)) by (intros i Hi; rewrite HP by exact Hi; ring). rewrite sumf_scal.
  rewrite sqrt_mult; [|apply pow2_ge_0|apply sumf_nonneg; intros; apply pow2_ge_0]. rewrite <- Rsqr_pow2, sqrt_Rsqr_abs, !Rabs_mult.
  field. split; apply Rabs_no_R0; assumption.
Qed.
Lemma seen_twin {E P} (L : learner E row P) g pr (w w' : world P) n n' a b y y' (G G' : nat -> Prop) : n' = n -> m_smpls (w_obj w') = m_smpls (w_obj w) -> affine n a b y y' -> (forall j, (j < n)%nat -> G j -> G' j) ->
  labels_seen L g pr w n y G -> labels_seen L g pr w' n' y' G'.
Proof.
  intros -> Sm Af HG H Q. destruct (H Q) as (A & B). split; [exact A|]. intros sm fs h i Es If Ih Hi. rewrite Sm in Es. destruct (B sm fs h i Es If Ih Hi) as (j & J1 & J2 & J3 & J4).
  exists j. split; [exact J1|]. split; [exact (HG j J1 J2)|]. split; [exact J3|]. rewrite (Af j J1), (Af i Hi), J4. reflexivity.
Qed.
Lemma adjust_ext n m m' d d' nm : (forall i, (i < n)%nat -> m' i = m i) -> (forall i, (i < n)%nat -> d' i = d i) -> forall i, (i < n)%nat -> ps_adjust n m' d' nm i = ps_adjust n m d nm i.
Proof.
  intros Hm Hd i Hi. unfold ps_adjust. destruct nm; [|auto]. unfold normalize_ipw. rewrite Hm, Hd by exact Hi.
  rewrite (meanf_ext n (fun i => d' i / m' i) (fun i => d i / m i)) by (intros j Hj; rewrite Hm, Hd by exact Hj; reflexivity).
  rewrite (meanf_ext n (fun i => (1 - d' i) / (1 - m' i)) (fun i => (1 - d i) / (1 - m i))) by (intros j Hj; rewrite Hm, Hd by exact Hj; reflexivity). reflexivity.
Qed.
Lemma clipped_same n thr m0 m0' m m' : affine n 1 0 m0 m0' -> clipped n true thr m0 m -> clipped n true thr m0' m' -> forall i, (i < n)%nat -> m' i = m i.
Proof. intros A C1 C2 i Hi. rewrite (C1 i Hi), (C2 i Hi), (A i Hi). do 3 f_equal. ring. Qed.
Lemma affine_same n v v' : affine n 1 0 v v' -> forall i, (i < n)%nat -> v' i = v i.
Proof. intros A i Hi. rewrite (A i Hi). ring. Qed.
Lemma partition_reached {P} (C : ctx P) w0 w n : soundly_reached C w0 -> later C w0 w -> c_cluster C = None -> c_n C = n ->
  forall sm r fs, m_smpls (w_obj w) = Some sm -> nth_error sm r = Some fs -> partition_of n fs.
Proof.
  intros Sr La Hc <- sm r fs Es Er. destruct (reached_later _ _ _ Sr La) as (nf & nr & dr & gen & perm & v & ops & A & B & D & F & ->).
  destruct (splits_valid C ltac:(rewrite Hc; discriminate) nf nr dr gen perm v ops A B D F sm Es) as (_ & V). apply (V fs (nth_error_In _ _ Er)).
Qed.
Lemma share_same n fs d d' p p' : partition_of n fs -> (forall h j, In h fs -> In j (fst h) -> (j < n)%nat) -> (forall i, (i < n)%nat -> d' i = d i) -> share_of fs d p -> share_of fs d' p' ->
  forall i, (i < n)%nat -> p' i = p i.
Proof.
  intros Pa Rg Hd H H' i Hi. destruct (L_CrossProps.tested_exists n fs i Pa Hi) as (k & h & T). rewrite (H i k h T), (H' i k h T). f_equal. apply map_ext_in. intros j Hj. apply Hd, (Rg h j (nth_error_In _ _ (proj1 T)) Hj).
Qed.
Lemma share_weight_ext n nm v v' p p' : (forall i, (i < n)%nat -> v' i = v i) -> (forall i, (i < n)%nat -> p' i = p i) ->
  (forall i, (i < n)%nat -> share_weight n nm v' p' i = share_weight n nm v p i) /\ (share_ok n nm v p -> share_ok n nm v' p').
Proof.
  intros Hv Hp. unfold share_weight, share_ok. destruct nm; (split; [intros i Hi|]).
  - rewrite (meanf_ext n v' v Hv), (Hv i Hi). reflexivity.
  - rewrite (meanf_ext n v' v Hv). exact (fun x => x).
  - rewrite (Hv i Hi), (Hp i Hi). reflexivity.
  - intros H i Hi. rewrite (Hp i Hi). exact (H i Hi).
Qed.

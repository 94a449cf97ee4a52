(** Sensitivity elements after complete fits. *)
From Verif Require Export L_ClassDid.
From Coq Require Import Lia Lra FunctionalExtensionality.
Local Open Scope R_scope.
Local Open Scope res_scope.
Local Open Scope string_scope.

Section Generic.
Context {P : Type}.
Variable C : ctx P.
Local Notation n := (c_n C).
Local Notation nt := (length (c_dcols C)).
Lemma sens_fit w nj store ext sm w' est : c_dcols C <> [] -> reachable C w -> c_sens C = Some est -> fit C nj store ext sm w = (w', Ok tt) ->
  exists out f e, nuisance_results C w ext out /\ current_fw w' f /\ reports C w out f /\ fw_sens f = Some e /\
  forall t, (t < nt)%nat ->
    let so r := sens_of C est w out r t in
    ((forall r, (r < m_n_rep (w_obj w))%nat -> 0 < so_nu2 (so r)) ->
       forall r, (r < m_n_rep (w_obj w))%nat -> reports_sens w' e n r t (so_sigma2 (so r)) (so_nu2 (so r)) (so_psi_sigma2 (so r)) (so_psi_nu2 (so r)) (so_rr (so r))) /\
    ((exists r, (r < m_n_rep (w_obj w))%nat /\ so_nu2 (so r) <= 0) ->
       forall r, (r < m_n_rep (w_obj w))%nat -> reports_sens w' e n r t (so_sigma2 (so r)) (meanf n (fun i => so_rr (so r) i ^ 2)) (so_psi_sigma2 (so r)) (fun i => so_rr (so r) i ^ 2) (so_rr (so r))).
Proof.
  intros Hd Hr Es H. apply dcols_pos in Hd. apply reachable_wf in Hr. destruct (fit_inv _ _ _ _ _ _ _ Hd Hr H) as (_ & Ck & Sc & w2 & L & ->).
  pose proof (fs_sens _ _ _ (li_sh _ _ _ _ _ _ L) est Es) as (s & Em & _).
  set (out := out_of C (w_obj w) ext). set (s' := validate_sens C (m_n_rep (w_obj w2)) s).
  exists out, (fin_fw C w2 (fin_cluster C w2) (fin_se C w2)), (sens_elems_of C (m_n_rep (w_obj w2)) s').
  split; [apply calls_results; assumption|]. split; [apply fin_current; exact Hd|]. split; [eapply fin_reports; eassumption|].
  assert (En : m_n_rep (w_obj w2) = m_n_rep (w_obj w)) by exact (fr_n_rep _ _ _ (li_fr _ _ _ _ _ _ L)).
  assert (Efin : fin_sens C w2 = Some s') by (unfold fin_sens; rewrite Es, Em; reflexivity).
  split; [cbn [fw_sens fin_fw]; unfold fin_se; rewrite Es, Efin; reflexivity|].
  intros t Ht so.
  assert (K : forall r, (r < m_n_rep (w_obj w))%nat ->
     (forall i, b_at (sb_sigma2 s) [i; r; t] = Some (so_sigma2 (so r))) /\ (forall i, b_at (sb_nu2 s) [i; r; t] = Some (so_nu2 (so r))) /\
     (forall i, b_at (sb_psi_sigma2 s) [i; r; t] = Some (so_psi_sigma2 (so r) i)) /\ (forall i, b_at (sb_psi_nu2 s) [i; r; t] = Some (so_psi_nu2 (so r) i)) /\
     (forall i, b_at (sb_rr s) [i; r; t] = Some (so_rr (so r) i))).
  { intros r Hr'. destruct (L_ModelProps.cell C (stored_flag store) ext w w2 L r t Hr' Ht) as (s2 & v & _ & K). exact (cw_sens _ _ _ _ _ _ _ _ _ K est s Es Em). }
  destruct (validate_spec C (m_n_rep (w_obj w2)) s) as (V1 & V2 & V3 & V4 & V5 & V6 & V7).
  assert (Rp : forall r v psi, (r < m_n_rep (w_obj w))%nat -> b_at (sb_nu2 s') [0%nat; r; t] = Some v -> (forall i, b_at (sb_psi_nu2 s') [i; r; t] = Some (psi i)) ->
     reports_sens (fit_result C w2) (sens_elems_of C (m_n_rep (w_obj w2)) s') n r t (so_sigma2 (so r)) v (so_psi_sigma2 (so r)) psi (so_rr (so r))).
  { intros r v psi Hr' A B. destruct (K r Hr') as (K1 & K2 & K3 & K4 & K5).
    assert (E1 : b_at (sb_sigma2 s') [0%nat; r; t] = Some (so_sigma2 (so r))) by (unfold s'; rewrite V1; apply K1).
    assert (E2 : forall i, b_at (sb_psi_sigma2 s') [i; r; t] = Some (so_psi_sigma2 (so r) i)) by (intro i; unfold s'; rewrite V2; apply K3).
    assert (E3 : forall i, b_at (sb_rr s') [i; r; t] = Some (so_rr (so r) i)) by (intro i; unfold s'; rewrite V3; apply K5).
    split; [exists s'; split; [exact Efin|]; split; [exact E1|]; split; [exact A|]; intros i _; auto|]. split.
    - match goal with |- ?a = _ => change a with (sqrt (oget (b_at (sb_sigma2 s') [0%nat; r; t]) * oget (b_at (sb_nu2 s') [0%nat; r; t]))) end. now rewrite E1, A.
    - intros _ i _. match goal with |- ?a = _ => change a with ((oget (b_at (sb_sigma2 s') [0%nat; r; t]) * oget (b_at (sb_psi_nu2 s') [i; r; t]) + oget (b_at (sb_nu2 s') [0%nat; r; t]) * oget (b_at (sb_psi_sigma2 s') [i; r; t])) /
         (2 * sqrt (oget (b_at (sb_sigma2 s') [0%nat; r; t]) * oget (b_at (sb_nu2 s') [0%nat; r; t])))) end. now rewrite E1, A, B, E2. }
  split.
  - intros Hp r Hr'. assert (Eb : bad_nu2 (m_n_rep (w_obj w2)) s t = false).
    { destruct (bad_nu2 _ s t) eqn:Eb; [|reflexivity]. exfalso. apply bad_spec in Eb. destruct Eb as (r' & x & Hr2 & E & Hx). rewrite En in Hr2. destruct (K r' Hr2) as (_ & K2 & _). rewrite K2 in E. injection E as <-. specialize (Hp r' Hr2). lra. }
    destruct (K r Hr') as (_ & K2 & _ & K4 & _). apply Rp; [exact Hr'| |].
    + unfold s'. rewrite V6, Eb by exact Ht. apply K2.
    + intro i. unfold s'. rewrite V7, Eb by exact Ht. apply K4.
  - intros (r0 & Hr0 & H0) r Hr'. assert (Eb : bad_nu2 (m_n_rep (w_obj w2)) s t = true).
    { apply bad_spec. exists r0, (so_nu2 (so r0)). rewrite En. split; [exact Hr0|]. split; [|exact H0]. destruct (K r0 Hr0) as (_ & K2 & _). apply K2. }
    destruct (K r Hr') as (_ & _ & _ & _ & K5). assert (Ec : forall i, col_of (sb_rr s) r t i = so_rr (so r) i) by (intro i; unfold col_of; rewrite K5; reflexivity). apply Rp; [exact Hr'| |].
    + unfold s'. rewrite V6, Eb by exact Ht. f_equal. apply meanf_ext. intros i _. now rewrite Ec.
    + intro i. unfold s'. rewrite V7, Eb by exact Ht. now rewrite Ec.
Qed.
End Generic.

(** Elements that agree on the rows of the data. *)
Definition same_sens (n : nat) (s s' : M_Scores.sens_elems) : Prop :=
  sl_sigma2 s = sl_sigma2 s' /\ sl_nu2 s = sl_nu2 s' /\ forall i, (i < n)%nat -> sl_psi_sigma2 s i = sl_psi_sigma2 s' i /\ sl_psi_nu2 s i = sl_psi_nu2 s' i /\ sl_rr s i = sl_rr s' i.
Lemma centred_same n u u' v v' r r' : (forall i, (i < n)%nat -> u i = u' i) -> (forall i, (i < n)%nat -> v i = v' i) -> (forall i, (i < n)%nat -> r i = r' i) -> same_sens n (centred n u v r) (centred n u' v' r').
Proof.
  intros A B D. assert (Eu : meanf n u = meanf n u') by (apply meanf_ext; exact A). assert (Ev : meanf n v = meanf n v') by (apply meanf_ext; exact B).
  split; [exact Eu|]. split; [exact Ev|]. intros i Hi. cbn [centred sl_psi_sigma2 sl_psi_nu2 sl_rr]. rewrite Eu, Ev, (A i Hi), (B i Hi), (D i Hi). auto.
Qed.
Lemma reports_same {P} (w : world P) e n r t s2 nu p q rr s2' nu' p' q' rr' : s2 = s2' -> nu = nu' -> (forall i, (i < n)%nat -> p i = p' i /\ q i = q' i /\ rr i = rr' i) ->
  reports_sens w e n r t s2 nu p q rr -> reports_sens w e n r t s2' nu' p' q' rr'.
Proof.
  intros <- <- H ((s & E1 & E2 & E3 & E4) & M1 & M2). split; [|split; [exact M1|]].
  - exists s. split; [exact E1|]. split; [exact E2|]. split; [exact E3|]. intros i Hi. destruct (H i Hi) as (<- & <- & <-). apply E4, Hi.
  - intros Hs i Hi. destruct (H i Hi) as (<- & <- & _). apply M2; assumption.
Qed.
Lemma ps_same n m m' d norm i : (forall i, (i < n)%nat -> m i = m' i) -> (i < n)%nat -> ps_adjust n m d norm i = ps_adjust n m' d norm i.
Proof.
  intros H Hi. unfold ps_adjust. destruct norm; [|apply H, Hi]. unfold normalize_ipw. rewrite (H i Hi).
  rewrite (meanf_ext n (fun i => d i / m i) (fun i => d i / m' i)) by (intros j Hj; now rewrite (H j Hj)).
  rewrite (meanf_ext n (fun i => (1 - d i) / (1 - m i)) (fun i => (1 - d i) / (1 - m' i))) by (intros j Hj; now rewrite (H j Hj)). reflexivity.
Qed.
Lemma plr_same n iv y d l l' m m' gg gg' th : (iv = false -> forall i, (i < n)%nat -> l i = l' i) -> (forall i, (i < n)%nat -> m i = m' i) -> (iv = true -> forall i, (i < n)%nat -> gg i = gg' i) ->
  same_sens n (plr_sens n iv y d l m gg th) (plr_sens n iv y d l' m' gg' th).
Proof.
  intros Hl Hm Hg. unfold plr_sens. assert (Ev : meanf n (fun i => (d i - m i) ^ 2) = meanf n (fun i => (d i - m' i) ^ 2)) by (apply meanf_ext; intros i Hi; now rewrite (Hm i Hi)).
  assert (Er : forall i, (i < n)%nat -> (if iv then (y i - gg i - th * d i) ^ 2 else (y i - l i - th * (d i - m i)) ^ 2) = (if iv then (y i - gg' i - th * d i) ^ 2 else (y i - l' i - th * (d i - m' i)) ^ 2)).
  { intros i Hi. destruct iv; [now rewrite (Hg eq_refl i Hi)|now rewrite (Hl eq_refl i Hi), (Hm i Hi)]. }
  split; [apply meanf_ext; exact Er|]. cbn [sl_nu2 sl_psi_sigma2 sl_psi_nu2 sl_rr]. rewrite Ev. split; [reflexivity|]. intros i Hi. rewrite (Er i Hi), (Hm i Hi). rewrite (meanf_ext n _ _ Er). auto.
Qed.
Lemma irm_same n atte norm w y d g0 g0' g1 g1' m m' : (forall i, (i < n)%nat -> g0 i = g0' i) -> (forall i, (i < n)%nat -> g1 i = g1' i) -> (forall i, (i < n)%nat -> m i = m' i) ->
  same_sens n (irm_sens n atte norm w y d g0 g1 m) (irm_sens n atte norm w y d g0' g1' m').
Proof.
  intros H0 H1 Hm. unfold irm_sens. assert (Hp : forall i, (i < n)%nat -> ps_adjust n m d norm i = ps_adjust n m' d norm i) by (intros i Hi; now apply ps_same).
  set (ma := ps_adjust n m d norm) in *. set (ma' := ps_adjust n m' d norm) in *.
  assert (W1 : fst (irm_weights n atte w d ma) = fst (irm_weights n atte w d ma')) by (unfold irm_weights; destruct atte; reflexivity).
  assert (W2 : forall i, (i < n)%nat -> snd (irm_weights n atte w d ma) i = snd (irm_weights n atte w d ma') i) by (intros i Hi; unfold irm_weights; destruct atte; cbn [snd]; [now rewrite (Hp i Hi)|reflexivity]).
  apply centred_same; intros i Hi; cbv beta; rewrite ?(H0 i Hi), ?(H1 i Hi), ?W1, ?(W2 i Hi), ?(Hp i Hi); reflexivity.
Qed.
Lemma apo_same n norm w y tr g0 g0' g1 g1' m m' : (forall i, (i < n)%nat -> g0 i = g0' i) -> (forall i, (i < n)%nat -> g1 i = g1' i) -> (forall i, (i < n)%nat -> m i = m' i) ->
  same_sens n (apo_sens n norm w y tr g0 g1 m) (apo_sens n norm w y tr g0' g1' m').
Proof.
  intros H0 H1 Hm. unfold apo_sens. assert (Hp : forall i, (i < n)%nat -> ps_adjust n m tr norm i = ps_adjust n m' tr norm i) by (intros i Hi; now apply ps_same).
  apply centred_same; intros i Hi; cbv beta; rewrite ?(H0 i Hi), ?(H1 i Hi), ?(Hp i Hi); reflexivity.
Qed.
Lemma did_same n (obs norm : bool) y d g0 g0' g1 g1' m m' : (forall i, (i < n)%nat -> g0 i = g0' i) -> (forall i, (i < n)%nat -> g1 i = g1' i) -> (obs = true -> forall i, (i < n)%nat -> m i = m' i) ->
  same_sens n (did_sens n obs norm y d g0 g1 m) (did_sens n obs norm y d g0' g1' m').
Proof.
  intros H0 H1 Hm. unfold did_sens. destruct obs; [specialize (Hm eq_refl)|].
  - assert (W : meanf n (fun i => (1 - d i) * (m i / (1 - m i))) = meanf n (fun i => (1 - d i) * (m' i / (1 - m' i)))) by (apply meanf_ext; intros i Hi; now rewrite (Hm i Hi)).
    destruct norm; cbn [fst snd]; rewrite ?W; apply centred_same; intros i Hi; cbv beta; rewrite ?(H0 i Hi), ?(H1 i Hi), ?(Hm i Hi); reflexivity.
  - cbn [fst snd]. apply centred_same; intros i Hi; cbv beta; rewrite ?(H0 i Hi), ?(H1 i Hi); reflexivity.
Qed.
Lemma cs_same n (obs norm : bool) y d t g00 g00' g01 g01' g10 g10' g11 g11' m m' : (forall i, (i < n)%nat -> g00 i = g00' i) -> (forall i, (i < n)%nat -> g01 i = g01' i) ->
  (forall i, (i < n)%nat -> g10 i = g10' i) -> (forall i, (i < n)%nat -> g11 i = g11' i) -> (obs = true -> forall i, (i < n)%nat -> m i = m' i) ->
  same_sens n (cs_sens n obs norm y d t g00 g01 g10 g11 m) (cs_sens n obs norm y d t g00' g01' g10' g11' m').
Proof.
  intros H0 H1 H2 H3 Hm. unfold cs_sens. destruct obs; [specialize (Hm eq_refl)|].
  - assert (W1 : meanf n (fun i => (1 - d i) * t i * (m i / (1 - m i))) = meanf n (fun i => (1 - d i) * t i * (m' i / (1 - m' i)))) by (apply meanf_ext; intros i Hi; now rewrite (Hm i Hi)).
    assert (W0 : meanf n (fun i => (1 - d i) * (1 - t i) * (m i / (1 - m i))) = meanf n (fun i => (1 - d i) * (1 - t i) * (m' i / (1 - m' i)))) by (apply meanf_ext; intros i Hi; now rewrite (Hm i Hi)).
    destruct norm; cbn [fst snd]; rewrite ?W1, ?W0; apply centred_same; intros i Hi; cbv beta; rewrite ?(H0 i Hi), ?(H1 i Hi), ?(H2 i Hi), ?(H3 i Hi), ?(Hm i Hi); reflexivity.
  - destruct norm; cbn [fst snd]; apply centred_same; intros i Hi; cbv beta; rewrite ?(H0 i Hi), ?(H1 i Hi), ?(H2 i Hi), ?(H3 i Hi); reflexivity.
Qed.

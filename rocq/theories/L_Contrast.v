(** Causal contrasts. *)
From Verif Require L_Debias.
From Verif Require Import L_Splitting.
From Verif Require Export L_Multi L_FwExamples.
From Coq Require Import Lra.
Local Open Scope R_scope.

Definition with_sens (f : framework) (se : option sens_elems) : framework :=
  {| fw_n_obs := fw_n_obs f; fw_n_thetas := fw_n_thetas f; fw_n_rep := fw_n_rep f; fw_thetas := fw_thetas f; fw_ses := fw_ses f;
     fw_all_thetas := fw_all_thetas f; fw_all_ses := fw_all_ses f; fw_vs := fw_vs f; fw_scaled_psi := fw_scaled_psi f;
     fw_cluster := fw_cluster f; fw_sens := se; fw_names := fw_names f; fw_boot := fw_boot f; fw_sens_params := fw_sens_params f |}.
Definition csens (n nr : nat) (a b : sens4) : sens_elems :=
  let s2 := fun r => (s4_sigma2 a r + s4_sigma2 b r) / 2 in
  let n2 := fun r => s4_nu2 a r + s4_nu2 b r in
  let ps2 := fun i r => (s4_psi_sigma2 a i r + s4_psi_sigma2 b i r) / 2 in
  let pn2 := fun i r => s4_psi_nu2 a i r + s4_psi_nu2 b i r in
  let mb := fun r => sqrt (s2 r * n2 r) in
  {| se_max_bias := mk3 1 1 nr (fun _ _ r => mb r);
     se_psi_max_bias := mk3 n 1 nr (fun i _ r => (s2 r * pn2 i r + n2 r * ps2 i r) / (2 * mb r));
     se_bench := Some (mk3 1 1 nr (fun _ _ r => s2 r), mk3 1 1 nr (fun _ _ r => n2 r)) |}.
Lemma any_neg_mk3 nr v : (forall r, (r < nr)%nat -> 0 <= v r) -> any_neg (mk3 1 1 nr (fun _ _ r => v r)) = false.
Proof.
  intro H. apply any_neg_false. intros idx Hi. cbn in Hi. destruct idx as [|i [|j [|r [|]]]]; cbn in Hi; try tauto. cbn. apply H. tauto.
Qed.
Lemma check_csens n nr a b : nonneg_sens nr a -> nonneg_sens nr b ->
  check_sens {| k_thetas := Absent; k_ses := Absent; k_all_thetas := Absent; k_all_ses := Absent; k_vs := Absent;
     k_scaled_psi := Absent; k_is_cluster := Absent; k_cluster := Absent; k_sens := Val (contrast_sens n nr a b); k_names := Absent |} = Ok (Some (csens n nr a b)).
Proof.
  intros A B. unfold check_sens, check_benchmark. cbn -[any_neg]. rewrite !any_neg_mk3; [reflexivity| |]; intros r Hr; destruct (A r Hr), (B r Hr); lra.
Qed.
Lemma one_contrast_ok n nr models p f a g b : level_models n nr [f; g] -> nonneg_sens nr a -> nonneg_sens nr b ->
  nth (fst p) models None = Some (f, a) -> nth (snd p) models None = Some (g, b) ->
  one_contrast models p = Ok (with_sens (comb_result Rminus f g) (Some (csens n nr a b))).
Proof.
  intros L A B E1 E2. destruct (L f) as (F1 & F2 & F3 & F4 & F5 & F6); [left; reflexivity|]. destruct (L g) as (G1 & G2 & G3 & G4 & G5 & G6); [right; left; reflexivity|].
  unfold one_contrast. rewrite E1, E2. unfold fw_sub. rewrite combine_fw_ok; [|exact F1|exact G1|].
  - cbn [bind]. unfold set_sens. rewrite F2, F3, check_csens by assumption. reflexivity.
  - repeat split; try congruence. intros t Ht. rewrite F4 in Ht. replace t with 0%nat by lia. rewrite F6, G6. replace (INR n - INR n) with 0 by ring. rewrite Rabs_R0. pose proof (Rabs_pos (INR n)). lra.
Qed.
Lemma contrast_wf n nr f g a b : level_models n nr [f; g] -> nonneg_sens nr a -> nonneg_sens nr b ->
  let h := with_sens (comb_result Rminus f g) (Some (csens n nr a b)) in
  fw_wf h /\ fw_n_obs h = n /\ fw_n_rep h = nr /\ fw_n_thetas h = 1%nat /\ fw_cluster h = None /\ fw_aggregated h /\ fw_ses_from_scores h /\ at_ (fw_vs h) [0%nat] = INR n.
Proof.
  intros L A B. destruct (L f) as (F1 & F2 & F3 & F4 & F5 & F6); [left; reflexivity|]. destruct (L g) as (G1 & G2 & G3 & G4 & G5 & G6); [right; left; reflexivity|].
  cbn. pose proof (comb_wf Rminus f g F1) as W. split; [|split; [|split; [|split; [|split; [|split; [|split]]]]]]; try assumption.
  - constructor; cbn; try (apply W). intros s E. injection E as <-. cbn. rewrite F2, F3, F4. split; [reflexivity|]. split; [reflexivity|].
      intros s2 n2 E. injection E as <- <-. cbn. repeat split; auto; intros idx Hi; destruct idx as [|i [|j [|r [|]]]]; cbn in Hi; try tauto; cbn; destruct (A r ltac:(tauto)), (B r ltac:(tauto)); lra.
  - apply (comb_aggregated Rminus f g F1).
  - intros t r Ht Hr. reflexivity.
Qed.

Lemma block_one (l : list framework) k : (forall f, In f l -> fw_n_thetas f = 1%nat) -> (k <= length l)%nat -> block l k = k.
Proof.
  unfold block. revert k. induction l as [|f l IH]; intros k H Hk; [cbn in Hk; replace k with 0%nat by lia; reflexivity|].
  destruct k; [reflexivity|]. cbn. rewrite (H f (or_introl eq_refl)). cbn in Hk. specialize (IH k (fun g Hg => H g (or_intror Hg)) ltac:(lia)). unfold list_sum in *. lia.
Qed.
Lemma sum_one (l : list framework) : (forall f, In f l -> fw_n_thetas f = 1%nat) -> list_sum (map fw_n_thetas l) = length l.
Proof. induction l as [|f l IH]; intro H; [reflexivity|]. cbn. rewrite (H f (or_introl eq_refl)). unfold list_sum in IH. rewrite IH; [lia|]. intros; apply H; right; assumption. Qed.

Section Contrast.
Variables (n nr : nat) (show : Z -> string) (levels : list Z) (models : list (framework * sens4)) (fw : framework) (refs : list Z).
Hypothesis HL : NoDup levels.
Hypothesis Hlen : length models = length levels.
Hypothesis H2 : (2 <= length levels)%nat.
Hypothesis Hm : level_models n nr (map fst models).
Hypothesis Hs : forall m, In m models -> nonneg_sens nr (snd m).
Hypothesis HR : NoDup refs.
Hypothesis Hr0 : refs <> [].
Hypothesis Hsub : forall r, In r refs -> In r levels.
Let ps := contrast_loop (length levels) levels refs [].
Let dm := (fw, {| s4_sigma2 := fun _ => 0; s4_nu2 := fun _ => 0; s4_psi_sigma2 := fun _ _ => 0; s4_psi_nu2 := fun _ _ => 0 |}).
Let mdl i := nth i models dm.
Let res p := with_sens (comb_result Rminus (fst (mdl (fst p))) (fst (mdl (snd p)))) (Some (csens n nr (snd (mdl (fst p))) (snd (mdl (snd p))))).
Lemma mdl_in i : (i < length levels)%nat -> In (mdl i) models.
Proof. intro H. apply nth_In. rewrite Hlen. exact H. Qed.
Lemma ps_range i j : In (i, j) ps -> (i < length levels)%nat /\ (j < length levels)%nat.
Proof. intro H. apply loop_in in H as (A & _ & _ & r & Hr & ->). split; [exact A|]. apply zindex_nth, Hsub, Hr. Qed.
Lemma mdl_pair p : In p ps -> level_models n nr [fst (mdl (fst p)); fst (mdl (snd p))] /\ nonneg_sens nr (snd (mdl (fst p))) /\ nonneg_sens nr (snd (mdl (snd p))).
Proof.
  destruct p as [i j]. intro H. destruct (ps_range _ _ H) as (A & B). cbn. split; [|split; apply Hs, mdl_in; assumption].
  intros f [<-|[<-|[]]]; apply Hm, in_map, mdl_in; assumption.
Qed.
Lemma nth_models i : (i < length levels)%nat -> nth i (map Some models) None = Some (fst (mdl i), snd (mdl i)).
Proof. intro H. rewrite (nth_indep (map Some models) None (Some dm)) by (rewrite map_length; lia). rewrite (map_nth Some). unfold mdl. destruct (nth i models dm); reflexivity. Qed.
Lemma map_contrast : map_res (one_contrast (map Some models)) ps = Ok (map res ps).
Proof.
  apply map_res_fun. intros [i j] H. destruct (ps_range _ _ H) as (A & B). destruct (mdl_pair _ H) as (L & X & Y).
  apply one_contrast_ok; auto; apply nth_models; assumption.
Qed.
Lemma ps_nonempty : ps <> [].
Proof.
  destruct refs as [|r0 rest] eqn:E; [contradiction|]. intro H.
  assert (exists a, In a levels /\ a <> r0) as (a & A1 & A2).
  { clear -HL H2. destruct levels as [|x [|y l]]; cbn in H2; try lia. inversion HL; subst. cbn in H1. destruct (Z.eq_dec x r0); [exists y|exists x]; split; cbn; auto; intro; subst; tauto. }
  destruct (contrast_pairs levels (r0 :: rest) HL HR Hsub) as (_ & _ & P). destruct (P a r0 A1 (or_introl eq_refl) A2) as (Q & _).
  unfold level_pairs in Q. fold ps in Q. rewrite H in Q. cbn in Q. tauto.
Qed.
Lemma res_wf p : In p ps -> let h := res p in
  fw_wf h /\ fw_n_obs h = n /\ fw_n_rep h = nr /\ fw_n_thetas h = 1%nat /\ fw_cluster h = None /\ fw_aggregated h /\ fw_ses_from_scores h /\ at_ (fw_vs h) [0%nat] = INR n.
Proof. intro H. destruct (mdl_pair _ H) as (L & X & Y). apply contrast_wf; assumption. Qed.
Lemma ths g : In g (map res ps) -> fw_n_thetas g = 1%nat.
Proof. intro H. apply in_map_iff in H as (p & <- & H). apply res_wf, H. Qed.

Lemma contrast_raw : exists acc, fw_concat (map OpFw (map res ps)) = Ok acc /\ fw_wf acc /\ concat_of (map res ps) acc /\ fw_n_thetas acc = length ps.
Proof.
  destruct (concat_ok (map res ps)) as (acc & E & W & C).
  - intro X. apply map_eq_nil in X. exact (ps_nonempty X).
  - intros g Hg. apply in_map_iff in Hg as (p & <- & H). destruct (res_wf _ H) as (A & _ & _ & _ & B & _). auto.
  - intros f g Hf Hg. apply in_map_iff in Hf as (p & <- & Hp). apply in_map_iff in Hg as (q & <- & Hq). destruct (res_wf _ Hp) as (_ & A1 & A2 & _), (res_wf _ Hq) as (_ & B1 & B2 & _). split; congruence.
  - exists acc. split; [exact E|]. split; [exact W|]. split; [exact C|]. rewrite (co_n_thetas _ _ C), sum_one, map_length; [reflexivity|]. apply ths.
Qed.
Lemma contrast_full arg : refs_list arg = refs -> exists h,
  causal_contrast show levels (Some fw) (map Some models) arg = Ok h /\ fw_wf h /\
  reports_differences show levels models (level_pairs levels ps) h /\ fw_n_obs h = n /\ fw_n_rep h = nr /\ fw_aggregated h /\ fw_ses_from_scores h /\
  (forall t, (t < fw_n_thetas h)%nat -> at_ (fw_vs h) [t] = INR n) /\
  (forall k i j f sf g sg, nth_error (level_pairs levels ps) k = Some (nth i levels 0%Z, nth j levels 0%Z) -> (i < length levels)%nat -> (j < length levels)%nat ->
     nth_error models i = Some (f, sf) -> nth_error models j = Some (g, sg) -> forall r, maxbias h k r = sqrt ((s4_sigma2 sf r + s4_sigma2 sg r) / 2 * (s4_nu2 sf r + s4_nu2 sg r)) /\
     forall o, psi_maxbias h o k r = ((s4_sigma2 sf r + s4_sigma2 sg r) / 2 * (s4_psi_nu2 sf o r + s4_psi_nu2 sg o r) + (s4_nu2 sf r + s4_nu2 sg r) * ((s4_psi_sigma2 sf o r + s4_psi_sigma2 sg o r) / 2)) / (2 * sqrt ((s4_sigma2 sf r + s4_sigma2 sg r) / 2 * (s4_nu2 sf r + s4_nu2 sg r)))).
Proof.
  intro Ea. destruct contrast_raw as (acc & E & W & C & T).
  set (names := map (contrast_name show levels) ps).
  exists {| fw_n_obs := fw_n_obs acc; fw_n_thetas := fw_n_thetas acc; fw_n_rep := fw_n_rep acc; fw_thetas := fw_thetas acc; fw_ses := fw_ses acc;
        fw_all_thetas := fw_all_thetas acc; fw_all_ses := fw_all_ses acc; fw_vs := fw_vs acc; fw_scaled_psi := fw_scaled_psi acc;
        fw_cluster := fw_cluster acc; fw_sens := fw_sens acc; fw_names := Some names; fw_boot := fw_boot acc; fw_sens_params := fw_sens_params acc |}.
  assert (Dims : fw_n_obs acc = n /\ fw_n_rep acc = nr).
  { destruct ps as [|p0 l] eqn:Eps; [exfalso; exact (ps_nonempty Eps)|]. assert (I1 : In p0 ps) by (rewrite Eps; left; reflexivity). destruct (res_wf p0 I1) as (_ & A & B & _).
    destruct (co_dims _ _ C (res p0)) as (-> & ->); [left; reflexivity|]. auto. }
  assert (Val : forall k p, nth_error ps k = Some p -> In p ps /\ nth_error (map res ps) k = Some (res p) /\ block (map res ps) k = k).
  { intros k p H. split; [eapply nth_error_In; exact H|]. split; [rewrite nth_error_map, H; reflexivity|]. apply block_one; [apply ths|]. rewrite map_length. apply Nat.lt_le_incl, nth_error_Some. congruence. }
  assert (Vals : forall k p, nth_error ps k = Some p -> at_ (fw_thetas acc) [k] = at_ (fw_thetas (res p)) [0%nat] /\ at_ (fw_ses acc) [k] = at_ (fw_ses (res p)) [0%nat] /\ at_ (fw_vs acc) [k] = at_ (fw_vs (res p)) [0%nat] /\
    (forall r, at_ (fw_all_thetas acc) [k; r] = at_ (fw_all_thetas (res p)) [0%nat; r]) /\ (forall r, at_ (fw_all_ses acc) [k; r] = at_ (fw_all_ses (res p)) [0%nat; r]) /\
    (forall i r, at_ (fw_scaled_psi acc) [i; k; r] = at_ (fw_scaled_psi (res p)) [i; 0%nat; r])).
  { intros k p H. destruct (Val _ _ H) as (A & B & D). destruct (res_wf _ A) as (_ & _ & _ & N1 & _). pose proof (co_vals _ _ C k (res p) 0%nat B ltac:(rewrite N1; lia)) as V. rewrite D, Nat.add_0_r in V. exact V. }
  assert (Ix : forall t, (t < fw_n_thetas acc)%nat -> exists p, nth_error ps t = Some p).
  { intros t Ht. rewrite T in Ht. destruct (nth_error ps t) eqn:X; [eexists; reflexivity|]. apply nth_error_None in X. lia. }
  assert (Pair : forall k a b i j f sf g sg, nth_error (level_pairs levels ps) k = Some (a, b) -> nth_error levels i = Some a -> nth_error models i = Some (f, sf) ->
     nth_error levels j = Some b -> nth_error models j = Some (g, sg) -> exists p, nth_error ps k = Some p /\ mdl (fst p) = (f, sf) /\ mdl (snd p) = (g, sg)).
  { intros k a b i j f sf g sg Hk Hi Hf Hj Hg. unfold level_pairs in Hk. rewrite nth_error_map in Hk. destruct (nth_error ps k) as [[i' j']|] eqn:Ek; [|discriminate]. cbn in Hk. injection Hk as Ka Kb.
    exists (i', j'). split; [reflexivity|]. destruct (ps_range i' j' (nth_error_In _ _ Ek)) as (R1 & R2). cbn.
    assert (i' = i). { apply (proj1 (NoDup_nth levels 0%Z) HL); [exact R1|apply nth_error_Some; congruence|]. rewrite Ka. symmetry. apply nth_error_nth, Hi. }
    assert (j' = j). { apply (proj1 (NoDup_nth levels 0%Z) HL); [exact R2|apply nth_error_Some; congruence|]. rewrite Kb. symmetry. apply nth_error_nth, Hj. }
    subst. split; unfold mdl; apply nth_error_nth; assumption. }
  split; [|split; [|split; [|split; [|split; [|split; [|split; [|split]]]]]]]; cbn [fw_n_obs fw_n_rep]; try (apply Dims).
  - unfold causal_contrast. cbv zeta. rewrite Ea, map_length, Hlen. assert (X : Nat.eqb (length levels) 1 = false) by (apply Nat.eqb_neq; lia). rewrite X. cbn [negb require].
    assert (Y : forallb (fun r => zmem r levels) refs = true) by (apply forallb_forall; intros r Hr; apply zmem_iff, Hsub, Hr). rewrite Y. cbn [require]. fold ps. rewrite map_contrast. cbn [bind]. rewrite E. cbn [bind].
    unfold set_names, check_names. rewrite (proj2 (all_some_ok _ _) eq_refl), map_length, T, Nat.eqb_refl. reflexivity.
  - constructor; cbn; try (apply W). intros l El. injection El as <-. unfold names. rewrite map_length. symmetry. exact T.
  - split; [|split].
    + cbn. rewrite T. unfold level_pairs. rewrite map_length. reflexivity.
    + cbn. f_equal. unfold names, level_pairs. rewrite map_map. reflexivity.
    + intros k a b i j f sf g sg Hk Hi Hf Hj Hg. destruct (Pair _ _ _ _ _ _ _ _ _ Hk Hi Hf Hj Hg) as (p & Hp & M1 & M2). destruct (Vals _ _ Hp) as (_ & _ & _ & V1 & _ & V2).
      cbn [fw_all_thetas fw_scaled_psi]. split; intros.
      * rewrite V1. unfold res. rewrite M1, M2. reflexivity.
      * rewrite V2. unfold res. rewrite M1, M2. reflexivity.
  - intros t Ht. cbn [fw_n_thetas fw_thetas fw_n_rep fw_all_thetas fw_ses fw_all_ses fw_vs] in *. destruct (Ix t Ht) as (p & Hp). destruct (Vals _ _ Hp) as (V1 & V2 & V3 & V4 & V5 & _). destruct (res_wf p (nth_error_In _ _ Hp)) as (_ & _ & N2 & N3 & _ & Ag & _).
    destruct (Ag 0%nat ltac:(rewrite N3; lia)) as (A1 & A2). destruct Dims as (_ & ->). rewrite N2 in A1, A2. rewrite V1, V2, V3. split.
    + rewrite A1. apply medianf_ext. intros r Hr. symmetry. apply V4.
    + rewrite A2. f_equal. apply medianf_ext. intros r Hr. rewrite V4, V5. reflexivity.
  - intros t r Ht Hr. cbn [fw_n_thetas fw_all_ses fw_scaled_psi fw_n_rep fw_n_obs fw_vs] in *. destruct (Ix t Ht) as (p & Hp). destruct (Vals _ _ Hp) as (_ & _ & V3 & _ & V5 & V6). destruct (res_wf p (nth_error_In _ _ Hp)) as (_ & N1 & N2 & N3 & _ & _ & Sc & _).
    destruct Dims as (D1 & D2). rewrite V5, V3, Sc by lia. rewrite N1, D1. f_equal. f_equal. apply meanf_ext. intros i Hi. rewrite V6. reflexivity.
  - intros t Ht. cbn [fw_n_thetas fw_vs] in *. destruct (Ix t Ht) as (p & Hp). destruct (Vals _ _ Hp) as (_ & _ & V3 & _). rewrite V3. apply (res_wf p (nth_error_In _ _ Hp)).
  - intros k i j f sf g sg Hk Hi Hj Hf Hg r.
    destruct (Pair _ _ _ i j _ _ _ _ Hk (nth_error_nth' levels 0%Z Hi) Hf (nth_error_nth' levels 0%Z Hj) Hg) as (p & Hp & M1 & M2). destruct (Val _ _ Hp) as (A & B & D).
    unfold maxbias, psi_maxbias. cbn [fw_sens]. destruct (co_sens _ _ C) as (s & Es & Q). { intros f0 Hf0. apply in_map_iff in Hf0 as (q & <- & _). discriminate. }
    rewrite Es. destruct (Q k (res p) _ 0%nat B eq_refl) as (Q1 & Q2); [rewrite (ths (res p) (in_map res _ _ A)); lia|]. rewrite D, Nat.add_0_r in Q1, Q2. split; [rewrite Q1, M1, M2; reflexivity|]. intro o. rewrite Q2, M1, M2. reflexivity.
Qed.
End Contrast.

(** Maximal bias of the contrast against that of the difference. *)
Lemma bias_equal_sigma s n1 n2 : 0 <= s -> 0 <= n1 -> 0 <= n2 -> sqrt ((s + s) / 2 * (n1 + n2)) <= sqrt (s * n1) + sqrt (s * n2).
Proof.
  intros Hs H1 H2. replace ((s + s) / 2 * (n1 + n2)) with (s * n1 + s * n2) by field.
  assert (A : 0 <= s * n1) by (apply Rmult_le_pos; assumption). assert (B : 0 <= s * n2) by (apply Rmult_le_pos; assumption).
  pose proof (sqrt_pos (s * n1)) as C. pose proof (sqrt_pos (s * n2)) as D. apply Rsqr_incr_0_var; [|lra]. rewrite Rsqr_sqrt by lra. unfold Rsqr.
  pose proof (sqrt_sqrt _ A). pose proof (sqrt_sqrt _ B). pose proof (Rmult_le_pos _ _ C D). nra.
Qed.

(** Quantile effects. *)
Section Qte.
Variables (n nr : nat) (qs : list (framework * framework)).
Hypothesis Hm : level_models n nr (interleave qs).
Lemma inter_in p : In p qs -> level_models n nr [snd p; fst p].
Proof.
  revert Hm. induction qs as [|[a b] l IH]; intros H []; cbn in *; [subst|]; intros f; cbn.
  - intros [<-|[<-|[]]]; apply H; cbn; auto.
  - intro Hf. apply IH in H0; [apply H0, Hf|]. intros g Hg. apply H. right. right. exact Hg.
Qed.
Definition qeff (p : framework * framework) : framework := comb_result Rminus (snd p) (fst p).
Lemma qte_diffs : qte_differences (interleave qs) = Ok (map qeff qs).
Proof.
  revert Hm. induction qs as [|[f0 f1] l IH]; intro H; [reflexivity|]. cbn [interleave qte_differences map].
  destruct (H f0) as (F1 & F2 & F3 & F4 & F5 & F6); [left; reflexivity|]. destruct (H f1) as (G1 & G2 & G3 & G4 & G5 & G6); [right; left; reflexivity|].
  unfold fw_sub. rewrite combine_fw_ok; [|exact G1|exact F1|].
  - cbn [bind]. rewrite IH; [reflexivity|]. intros g Hg. apply H. right. right. exact Hg.
  - repeat split; try congruence. intros t Ht. rewrite G4 in Ht. replace t with 0%nat by lia. rewrite F6, G6. replace (INR n - INR n) with 0 by ring. rewrite Rabs_R0. pose proof (Rabs_pos (INR n)). lra.
Qed.
Lemma qeff_wf p : In p qs -> fw_wf (qeff p) /\ fw_n_obs (qeff p) = n /\ fw_n_rep (qeff p) = nr /\ fw_n_thetas (qeff p) = 1%nat /\ fw_cluster (qeff p) = None /\ fw_aggregated (qeff p) /\ fw_ses_from_scores (qeff p).
Proof.
  intro H. pose proof (inter_in p H) as L. destruct (L (snd p)) as (F1 & F2 & F3 & F4 & F5 & F6); [left; reflexivity|].
  split; [apply comb_wf, F1|]. cbn. repeat split; auto; apply (comb_aggregated Rminus (snd p) (fst p) F1); assumption.
Qed.
Lemma qte_full : qs <> [] -> exists h, qte_combine (interleave qs) = Ok h /\ fw_wf h /\ fw_n_thetas h = length qs /\ fw_n_obs h = n /\ fw_n_rep h = nr /\
  fw_aggregated h /\ fw_ses_from_scores h /\
  forall k f0 f1, nth_error qs k = Some (f0, f1) ->
    (forall r, at_ (fw_all_thetas h) [k; r] = at_ (fw_all_thetas f1) [0%nat; r] - at_ (fw_all_thetas f0) [0%nat; r]) /\
    (forall i r, at_ (fw_scaled_psi h) [i; k; r] = at_ (fw_scaled_psi f1) [i; 0%nat; r] - at_ (fw_scaled_psi f0) [i; 0%nat; r]).
Proof.
  intro N. unfold qte_combine. rewrite qte_diffs. cbn [bind].
  assert (Th : forall g, In g (map qeff qs) -> fw_n_thetas g = 1%nat) by (intros g Hg; apply in_map_iff in Hg as (p & <- & Hp); apply qeff_wf, Hp).
  destruct (concat_ok (map qeff qs)) as (h & E & W & C).
  - intro X. apply map_eq_nil in X. contradiction.
  - intros g Hg. apply in_map_iff in Hg as (p & <- & H). destruct (qeff_wf _ H) as (A & _ & _ & _ & B & _). auto.
  - intros f g Hf Hg. apply in_map_iff in Hf as (p & <- & Hp). apply in_map_iff in Hg as (q & <- & Hq). destruct (qeff_wf _ Hp) as (_ & A1 & A2 & _), (qeff_wf _ Hq) as (_ & B1 & B2 & _). split; congruence.
  - exists h. split; [exact E|]. split; [exact W|].
    assert (T : fw_n_thetas h = length qs) by (rewrite (co_n_thetas _ _ C), sum_one, map_length; [reflexivity|exact Th]). split; [exact T|].
    assert (D : fw_n_obs h = n /\ fw_n_rep h = nr).
    { destruct qs as [|p l] eqn:Eq; [congruence|]. rewrite <- Eq in *. assert (I1 : In p qs) by (rewrite Eq; left; reflexivity). destruct (co_dims _ _ C (qeff p) (in_map qeff _ _ I1)) as (-> & ->). destruct (qeff_wf p I1) as (_ & A & B & _). auto. }
    assert (Vals : forall k p, nth_error qs k = Some p -> at_ (fw_thetas h) [k] = at_ (fw_thetas (qeff p)) [0%nat] /\ at_ (fw_ses h) [k] = at_ (fw_ses (qeff p)) [0%nat] /\ at_ (fw_vs h) [k] = at_ (fw_vs (qeff p)) [0%nat] /\
      (forall r, at_ (fw_all_thetas h) [k; r] = at_ (fw_all_thetas (qeff p)) [0%nat; r]) /\ (forall r, at_ (fw_all_ses h) [k; r] = at_ (fw_all_ses (qeff p)) [0%nat; r]) /\
      (forall i r, at_ (fw_scaled_psi h) [i; k; r] = at_ (fw_scaled_psi (qeff p)) [i; 0%nat; r])).
    { intros k p H. assert (B : nth_error (map qeff qs) k = Some (qeff p)) by (rewrite nth_error_map, H; reflexivity). destruct (qeff_wf p (nth_error_In _ _ H)) as (_ & _ & _ & N1 & _).
      pose proof (co_vals _ _ C k (qeff p) 0%nat B ltac:(rewrite N1; lia)) as V. rewrite block_one, Nat.add_0_r in V; [exact V|exact Th|]. rewrite map_length. apply Nat.lt_le_incl, nth_error_Some. congruence. }
    assert (Ix : forall t, (t < fw_n_thetas h)%nat -> exists p, nth_error qs t = Some p).
    { intros t Ht. rewrite T in Ht. destruct (nth_error qs t) eqn:X; [eexists; reflexivity|]. apply nth_error_None in X. lia. }
    destruct D as (D1 & D2). split; [exact D1|]. split; [exact D2|]. split; [|split].
    + intros t Ht. destruct (Ix t Ht) as (p & Hp). destruct (Vals _ _ Hp) as (V1 & V2 & V3 & V4 & V5 & _). destruct (qeff_wf p (nth_error_In _ _ Hp)) as (_ & _ & N2 & N3 & _ & Ag & _).
      destruct (Ag 0%nat ltac:(rewrite N3; lia)) as (A1 & A2). rewrite D2. rewrite N2 in A1, A2. rewrite V1, V2, V3. split.
      * rewrite A1. apply medianf_ext. intros r Hr. symmetry. apply V4.
      * rewrite A2. f_equal. apply medianf_ext. intros r Hr. rewrite V4, V5. reflexivity.
    + intros t r Ht Hr. destruct (Ix t Ht) as (p & Hp). destruct (Vals _ _ Hp) as (_ & _ & V3 & _ & V5 & V6). destruct (qeff_wf p (nth_error_In _ _ Hp)) as (_ & N1 & N2 & N3 & _ & _ & Sc).
      rewrite V5, V3, Sc by lia. rewrite N1, D1. f_equal. f_equal. apply meanf_ext. intros i Hi. rewrite V6. reflexivity.
    + intros k f0 f1 H. destruct (Vals _ _ H) as (_ & _ & _ & V1 & _ & V2). split; intros; [rewrite V1|rewrite V2]; reflexivity.
Qed.
End Qte.

(** ** Statements of the properties *)
Lemma contrast_reports n nr show levels models fw arg :
  NoDup levels -> (2 <= length levels)%nat -> length models = length levels -> level_models n nr (map fst models) ->
  (forall m, In m models -> nonneg_sens nr (snd m)) -> NoDup (refs_list arg) -> refs_list arg <> [] -> (forall r, In r (refs_list arg) -> In r levels) ->
  exists h pairs, causal_contrast show levels (Some fw) (map Some models) arg = Ok h /\
    one_per_pair levels (refs_list arg) pairs /\ reports_differences show levels models pairs h /\
    fw_wf h /\ fw_n_obs h = n /\ fw_n_rep h = nr /\ fw_aggregated h /\ fw_ses_from_scores h /\ (forall t, (t < fw_n_thetas h)%nat -> at_ (fw_vs h) [t] = INR n).
Proof.
  intros NL H2 Hl Hm Hs NR R0 S0. destruct (contrast_full n nr show levels models fw (refs_list arg) NL Hl H2 Hm Hs NR R0 S0 arg eq_refl) as (h & A & B & C & D & E & F & G & I1 & _).
  exists h, (level_pairs levels (contrast_loop (length levels) levels (refs_list arg) [])). split; [exact A|]. split; [apply contrast_pairs; assumption|]. tauto.
Qed.
Lemma contrast_rejects show levels fw models arg h : causal_contrast show levels fw models arg = Ok h ->
  fw <> None /\ length levels <> 1%nat /\ forall r, In r (refs_list arg) -> In r levels.
Proof.
  unfold causal_contrast. destruct fw; [|discriminate]. intro H. apply require_ok in H as (A & H). apply require_ok in H as (B & _).
  split; [discriminate|]. split; [intro X; rewrite X in A; discriminate|]. intros r Hr. rewrite forallb_forall in B. apply zmem_iff, B, Hr.
Qed.
Lemma contrast_unfitted show levels fw models arg : (exists i, (i < length models)%nat /\ nth i models None = None /\ length models = length levels /\ (exists r, refs_list arg = [r] /\ In r levels /\ zindex r levels <> i)) -> fw <> None -> length levels <> 1%nat ->
  exists e, causal_contrast show levels fw models arg = Err e.
Proof.
  intros (i & Hi & E & Hl & r & Er & Hr & Hn) Hf H1. unfold causal_contrast. destruct fw; [|contradiction]. cbv zeta. rewrite Er.
  assert (X : Nat.eqb (length levels) 1 = false) by (apply Nat.eqb_neq; exact H1). rewrite X. cbn [negb require forallb]. rewrite (proj2 (zmem_iff r levels) Hr). cbn [andb require].
  destruct (map_res (one_contrast models) _) as [fs|e] eqn:M; [|eexists; reflexivity]. exfalso.
  assert (Q : exists y, one_contrast models (i, zindex r levels) = Ok y).
  { apply map_res_iff in M. cbn [contrast_loop] in M. rewrite app_nil_r in M.
    assert (I1 : In (i, zindex r levels) (map (fun i => (i, zindex r levels)) (filter (fun i => negb (M_Splitting.nmem i [zindex r levels])) (seq 0 (length models))))).
    { apply in_map_iff. exists i. split; [reflexivity|]. apply filter_In. split; [apply in_seq; lia|]. cbn. apply negb_true_iff. apply orb_false_iff. split; [apply Nat.eqb_neq; congruence|reflexivity]. }
    revert M I1. generalize (map (fun i => (i, zindex r levels)) (filter (fun i => negb (M_Splitting.nmem i [zindex r levels])) (seq 0 (length models)))). intros l M. revert fs M. induction l as [|p l IH]; intros fs M []; inversion M; subst; [eexists; eassumption|]. eapply IH; eassumption. }
  destruct Q as (y & Q). unfold one_contrast in Q. cbn [fst snd] in Q. rewrite E in Q. discriminate.
Qed.
Lemma contrast_bias_smaller n nr show levels models fw arg h :
  NoDup levels -> (2 <= length levels)%nat -> length models = length levels -> level_models n nr (map fst models) ->
  (forall m, In m models -> nonneg_sens nr (snd m)) -> NoDup (refs_list arg) -> refs_list arg <> [] -> (forall r, In r (refs_list arg) -> In r levels) ->
  (forall m, In m models -> carries_bias n nr (fst m) (snd m)) ->
  causal_contrast show levels (Some fw) (map Some models) arg = Ok h ->
  exists pairs, one_per_pair levels (refs_list arg) pairs /\ fw_n_thetas h = length pairs /\
  forall k i j f sf g sg d r, nth_error pairs k = Some (nth i levels 0%Z, nth j levels 0%Z) -> (i < length levels)%nat -> (j < length levels)%nat ->
     nth_error models i = Some (f, sf) -> nth_error models j = Some (g, sg) -> fw_sub f (OpFw g) = Ok d -> (r < nr)%nat ->
     s4_sigma2 sf r = s4_sigma2 sg r -> maxbias h k r <= maxbias d 0 r.
Proof.
  intros NL H2 Hl Hm Hs NR R0 S0 Hb Hc. destruct (contrast_full n nr show levels models fw (refs_list arg) NL Hl H2 Hm Hs NR R0 S0 arg eq_refl) as (h' & A & B & C & D & E & F & G & I1 & J).
  rewrite Hc in A. injection A as <-. exists (level_pairs levels (contrast_loop (length levels) levels (refs_list arg) [])). split; [apply contrast_pairs; assumption|]. split; [apply C|].
  intros k i j f sf g sg d r Hk Hi Hj Hf Hg Hd Hr Es. rewrite (proj1 (J k i j f sf g sg Hk Hi Hj Hf Hg r)).
  apply combine_fw_inv in Hd as (g' & Eg & _ & _ & _ & ->). injection Eg as <-.
  assert (Mf : In (f, sf) models) by (eapply nth_error_In; exact Hf). assert (Mg : In (g, sg) models) by (eapply nth_error_In; exact Hg).
  destruct (Hb _ Mf) as (Bf & Bf'). destruct (Hb _ Mg) as (Bg & Bg'). cbn in *. destruct (Hs _ Mf r Hr), (Hs _ Mg r Hr). cbn in *.
  unfold maxbias at 1. cbn. unfold sens_add. specialize (Bf' r Hr). specialize (Bg' r Hr). unfold maxbias in *.
  destruct (fw_sens f) as [a|]; [|contradiction]. destruct (fw_sens g) as [b|]; [|contradiction]. cbn. rewrite Bf', Bg'. unfold bias_of. rewrite Es. apply bias_equal_sigma; congruence || assumption || lra.
Qed.

(** Influence component of the contrast's maximal bias. *)
Lemma contrast_influence n nr show levels models fw arg h :
  NoDup levels -> (2 <= length levels)%nat -> length models = length levels -> level_models n nr (map fst models) ->
  (forall m, In m models -> nonneg_sens nr (snd m)) -> NoDup (refs_list arg) -> refs_list arg <> [] -> (forall r, In r (refs_list arg) -> In r levels) ->
  causal_contrast show levels (Some fw) (map Some models) arg = Ok h ->
  exists pairs, one_per_pair levels (refs_list arg) pairs /\ fw_n_thetas h = length pairs /\
  forall k i j f sf g sg r, nth_error pairs k = Some (nth i levels 0%Z, nth j levels 0%Z) -> (i < length levels)%nat -> (j < length levels)%nat ->
     nth_error models i = Some (f, sf) -> nth_error models j = Some (g, sg) ->
     maxbias h k r = sqrt (contrast_sigma2 sf sg r * contrast_nu2 sf sg r) /\
     (0 < contrast_sigma2 sf sg r * contrast_nu2 sf sg r -> forall o,
       derivable_pt_lim (fun t => sqrt ((contrast_sigma2 sf sg r + t * ((s4_psi_sigma2 sf o r + s4_psi_sigma2 sg o r) / 2)) * (contrast_nu2 sf sg r + t * (s4_psi_nu2 sf o r + s4_psi_nu2 sg o r)))) 0 (psi_maxbias h o k r)).
Proof.
  intros NL H2 Hl Hm Hs NR R0 S0 Hc. destruct (contrast_full n nr show levels models fw (refs_list arg) NL Hl H2 Hm Hs NR R0 S0 arg eq_refl) as (h' & A & B & C & D & E & F & G & I1 & J).
  rewrite Hc in A. injection A as <-. exists (level_pairs levels (contrast_loop (length levels) levels (refs_list arg) [])). split; [apply contrast_pairs; assumption|]. split; [apply C|].
  intros k i j f sf g sg r Hk Hi Hj Hf Hg. destruct (J k i j f sf g sg Hk Hi Hj Hf Hg r) as (J1 & J2). split; [exact J1|]. intros P o. rewrite J2. apply (L_Debias.sqrt_prod_derivative (contrast_sigma2 sf sg r) (contrast_nu2 sf sg r)), P.
Qed.

(** ** Witnesses *)
Definition sconst (s n : R) : sens4 := {| s4_sigma2 := fun _ => s; s4_nu2 := fun _ => n; s4_psi_sigma2 := fun _ _ => 0; s4_psi_nu2 := fun _ _ => 0 |}.
Definition lvl (th s n : R) : framework * sens4 :=
  (built 2 1 1 (fun _ _ => th) (fun i _ _ => if Nat.eqb i 0 then 1 else -1) (fun _ _ => sqrt (s * n)) (fun _ _ _ => 0), sconst s n).
Lemma lvl_models (l : list (R * R * R)) : level_models 2 1 (map fst (map (fun p => lvl (fst (fst p)) (snd (fst p)) (snd p)) l)).
Proof.
  intros f Hf. rewrite map_map in Hf. apply in_map_iff in Hf as (p & <- & _). cbn [lvl fst]. split; [apply built_wf|]. repeat split; cbn; lra.
Qed.
Definition lvls (l : list (R * R * R)) := map (fun p => lvl (fst (fst p)) (snd (fst p)) (snd p)) l.
Lemma lvls_nonneg (l : list (R * R * R)) : (forall p, In p l -> 0 <= snd (fst p) /\ 0 <= snd p) -> forall m, In m (lvls l) -> nonneg_sens 1 (snd m).
Proof. intros H m Hm. apply in_map_iff in Hm as (p & <- & Hp). intros r Hr. cbn. apply H, Hp. Qed.
Lemma lvls_bias l : forall m, In m (lvls l) -> carries_bias 2 1 (fst m) (snd m).
Proof. intros m Hm. apply in_map_iff in Hm as (p & <- & Hp). split; [discriminate|]. intros r Hr. reflexivity. Qed.
(** Levels 0, 1 with unequal residual variance. *)
Lemma contrast_bias_larger : exists h f sf g sg d, causal_contrast (fun _ => ""%string) [0%Z; 1%Z] (Some f) (map Some [(f, sf); (g, sg)]) (RefOne 0%Z) = Ok h /\
  level_models 2 1 [f; g] /\ carries_bias 2 1 f sf /\ carries_bias 2 1 g sg /\ nonneg_sens 1 sf /\ nonneg_sens 1 sg /\
  fw_sub g (OpFw f) = Ok d /\ maxbias d 0 0 < maxbias h 0 0.
Proof.
  set (l := [(0, 9, 0); (1, 0, 9)] : list (R * R * R)).
  assert (Nn : forall m, In m (lvls l) -> nonneg_sens 1 (snd m)) by (apply lvls_nonneg; intros p [<-|[<-|[]]]; cbn; lra).
  destruct (contrast_full 2 1 (fun _ => ""%string) [0%Z; 1%Z] (lvls l) (fst (lvl 0 9 0)) [0%Z]) with (arg := RefOne 0%Z) as (h & A & _ & _ & _ & _ & _ & _ & _ & J); try reflexivity.
  - repeat constructor; cbn; intuition discriminate.
  - exact (lvl_models l).
  - exact Nn.
  - repeat constructor; cbn; tauto.
  - discriminate.
  - cbn. tauto.
  - exists h, (fst (lvl 0 9 0)), (snd (lvl 0 9 0)), (fst (lvl 1 0 9)), (snd (lvl 1 0 9)), (comb_result Rminus (fst (lvl 1 0 9)) (fst (lvl 0 9 0))).
    split; [exact A|]. split; [exact (lvl_models l)|]. split; [apply (lvls_bias l (lvl 0 9 0)); left; reflexivity|]. split; [apply (lvls_bias l (lvl 1 0 9)); right; left; reflexivity|].
    split; [apply (Nn (lvl 0 9 0)); left; reflexivity|]. split; [apply (Nn (lvl 1 0 9)); right; left; reflexivity|]. split.
    + apply combine_fw_ok; [apply built_wf|apply built_wf|]. repeat split; intros; cbn in *; rewrite Rminus_diag_eq by reflexivity; rewrite Rabs_R0; pose proof (Rabs_pos (1 + 1)); lra.
    + rewrite (proj1 (J 0%nat 1%nat 0%nat (fst (lvl 1 0 9)) (snd (lvl 1 0 9)) (fst (lvl 0 9 0)) (snd (lvl 0 9 0)) eq_refl ltac:(cbn; lia) ltac:(cbn; lia) eq_refl eq_refl 0%nat)).
      cbn. replace (0 * 9) with 0 by ring. replace (9 * 0) with 0 by ring. rewrite sqrt_0. replace (0 + 0) with 0 by ring. apply sqrt_lt_R0. lra.
Qed.
(** Repeated treatment levels are accepted by the constructor; the loop looks the
    reference up by its first index. *)
Lemma self_contrast : exists h, causal_contrast (fun z => if Z.eqb z 0 then "0" else "1")%string [0%Z; 0%Z] (Some (fst (lvl 0 1 1))) (map Some (lvls [(0, 1, 1); (0, 1, 1)])) (RefOne 0%Z) = Ok h /\
  fw_names h = Some ["0 vs 0"%string].
Proof.
  set (m := lvl 0 1 1).
  assert (N1 : nonneg_sens 1 (snd m)) by (intros r Hr; cbn; lra).
  assert (L1 : level_models 2 1 [fst m; fst m]) by exact (lvl_models [(0, 1, 1); (0, 1, 1)]).
  unfold causal_contrast. cbv zeta. change (length [0%Z; 0%Z]) with 2%nat. cbn [Nat.eqb negb require refs_list]. change (forallb (fun r => zmem r [0%Z; 0%Z]) [0%Z]) with true. cbn [require].
  change (contrast_loop (length (map Some (lvls [(0, 1, 1); (0, 1, 1)]))) [0%Z; 0%Z] [0%Z] []) with [(1%nat, 0%nat)]. cbn [map_res].
  rewrite (one_contrast_ok 2 1 _ (1, 0)%nat (fst m) (snd m) (fst m) (snd m)); auto. cbn [bind map]. destruct (contrast_wf 2 1 (fst m) (fst m) (snd m) (snd m) L1 N1 N1) as (W & O1 & R1 & T1 & C1 & _).
  destruct (concat_ok [with_sens (comb_result Rminus (fst m) (fst m)) (Some (csens 2 1 (snd m) (snd m)))]) as (h & E & Wh & Ch).
  - discriminate.
  - intros g [<-|[]]. auto.
  - intros f g [<-|[]] [<-|[]]. auto.
  - cbn [map] in E. rewrite E. cbn [bind]. unfold set_names, check_names. rewrite (proj2 (all_some_ok _ _) eq_refl). rewrite (co_n_thetas _ _ Ch). cbn. eexists. split; reflexivity.
Qed.
Lemma empty_reference show levels fw models : (2 <= length levels)%nat -> causal_contrast show levels (Some fw) models (RefList []) = Err TypeError.
Proof. intro H. unfold causal_contrast. cbv zeta. destruct (Nat.eqb (length levels) 1) eqn:E; [apply Nat.eqb_eq in E; lia|]. reflexivity. Qed.
(** APOS: estimates on a split other than the reported one. *)
Definition wfit (t : nat) (k : Z) (s : list (list fold)) : result (framework * sens4) := Ok (lvl (INR (length s)) 1 1).
Definition wdraw (t : nat) : list (list fold) := repeat [] (S t).
Lemma apos_combine_two a b : exists h, apos_combine [fst (lvl a 1 1); fst (lvl b 1 1)] = Ok h.
Proof.
  destruct (concat_ok [fst (lvl a 1 1); fst (lvl b 1 1)]) as (h & E & _); [discriminate| | |exists h; exact E].
  - intros g [<-|[<-|[]]]; (split; [apply built_wf|reflexivity]).
  - intros f g [<-|[<-|[]]] [<-|[<-|[]]]; split; reflexivity.
Qed.
Lemma apos_stale : exists w', wr_fit wfit apos_combine (apos_run wfit wdraw [0%Z; 1%Z] apos_combine [WDraw] (apos_new wdraw [0%Z; 1%Z] true)) = (w', Ok tt) /\
  forall s, wr_smpls w' = Some s -> ~ estimated_on wfit apos_combine [0%Z; 1%Z] w' s.
Proof.
  destruct (apos_combine_two (INR 1) (INR 1)) as (h & E).
  set (w0 := apos_run wfit wdraw [0%Z; 1%Z] apos_combine [WDraw] (apos_new wdraw [0%Z; 1%Z] true)).
  set (x := lvl (INR 1) 1 1) in *. set (s0 := sb_smpls {| sb_key := 0%Z; sb_smpls := wdraw 0; sb_res := None |}).
  exists {| wr_smpls := Some (wdraw 1); wr_models := Some [{| sb_key := 0%Z; sb_smpls := s0; sb_res := Some x |}; {| sb_key := 1%Z; sb_smpls := s0; sb_res := Some x |}]; wr_fw := Some h; wr_tick := 4 |}.
  split.
  - transitivity (match apos_combine [fst x; fst x] with Ok f => ({| wr_smpls := Some (wdraw 1); wr_models := Some [{| sb_key := 0%Z; sb_smpls := s0; sb_res := Some x |}; {| sb_key := 1%Z; sb_smpls := s0; sb_res := Some x |}]; wr_fw := Some f; wr_tick := 4 |}, Ok tt)
      | Err e => ({| wr_smpls := Some (wdraw 1); wr_models := Some [{| sb_key := 0%Z; sb_smpls := s0; sb_res := Some x |}; {| sb_key := 1%Z; sb_smpls := s0; sb_res := Some x |}]; wr_fw := None; wr_tick := 4 |}, Err e) end); [reflexivity|].
    rewrite E. reflexivity.
  - cbn [wr_smpls]. intros s Hs (ms & res & h' & A & B & C & D & _).
  injection Hs as <-. cbn [wr_models] in A. injection A as <-. cbn [map sb_res] in C. destruct res as [|r0 res]; [discriminate|]. injection C as C _. assert (D1 : exists t, wfit t 0%Z (wdraw 1) = Ok r0) by (inversion D; assumption). destruct D1 as (t & D1). unfold wfit in D1.
  assert (G : lvl (INR (length (wdraw 1))) 1 1 = x) by congruence.
  apply (f_equal (fun p => at_ (fw_all_thetas (fst p)) [0%nat; 0%nat])) in G. unfold x in G. cbn in G. lra.
Qed.

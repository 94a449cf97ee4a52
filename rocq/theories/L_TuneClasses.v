(** Hyperparameter tuning of all model classes: the searched problems. *)
From Verif Require Export S_TuneClasses L_TuneLeak L_Tune L_Nuis.
From Coq Require Import Lia Lra.
Local Open Scope R_scope.
Local Open Scope res_scope.
Local Open Scope string_scope.

Lemma rows_once (t a b : list nat) : Sorted lt a -> Sorted lt b -> (forall j, In j a <-> In j b) -> a = b.
Proof.
  clear t. revert b. induction a as [|i a IH]; intros b Ha Hb H.
  - destruct b as [|j b]; [reflexivity|]. destruct (proj2 (H j) (or_introl eq_refl)).
  - destruct b as [|j b]; [destruct (proj1 (H i) (or_introl eq_refl))|].
    apply Sorted_StronglySorted in Ha; [|intros ? ? ? ? ?; lia]. apply Sorted_StronglySorted in Hb; [|intros ? ? ? ? ?; lia]. inversion_clear Ha as [|? ? Sa Fa]. inversion_clear Hb as [|? ? Sb Fb]. rewrite Forall_forall in Fa, Fb.
    assert (i = j). { destruct (proj1 (H i) (or_introl eq_refl)) as [Q|Q]; [congruence|]. destruct (proj2 (H j) (or_introl eq_refl)) as [Q'|Q']; [congruence|]. apply Fb in Q. apply Fa in Q'. lia. }
    subst j. f_equal. apply IH; [apply StronglySorted_Sorted, Sa|apply StronglySorted_Sorted, Sb|]. intro j. split; intro Q.
    + destruct (proj1 (H j) (or_intror Q)) as [<-|Q']; [apply Fa in Q; lia|exact Q'].
    + destruct (proj2 (H j) (or_intror Q)) as [<-|Q']; [apply Fb in Q; lia|exact Q'].
Qed.
Lemma by_rows_once sel t a b : by_rows sel -> sel t a -> sel t b -> a = b.
Proof.
  intros [->|(n & G & ->)]; [unfold whole_train; congruence|]. intros (Sa & Ha) (Sb & Hb). apply (rows_once t); [exact Sa|exact Sb|]. intro j. rewrite Ha, Hb. reflexivity.
Qed.

Lemma ok_eq {A} (a b : A) : Ok a = Ok b -> a = b.
Proof. congruence. Qed.
Lemma list_by_nth {A} (u v : list A) : (forall j, nth_error u j = nth_error v j) -> u = v.
Proof.
  revert v. induction u as [|a u IH]; intros [|b v] H; [reflexivity|discriminate (H O)|discriminate (H O)|]. f_equal; [specialize (H O); cbn in H; congruence|]. apply IH. intro j. apply (H (S j)).
Qed.
Lemma nth_combine {A B} (u : list A) (v : list B) k a b : nth_error u k = Some a -> nth_error v k = Some b -> nth_error (combine u v) k = Some (a, b).
Proof. revert v k. induction u as [|h u IH]; intros [|z v] [|k] H H'; try discriminate; cbn in *; [congruence|auto]. Qed.

Section Tuned.
Context {P S : Type}.
Variable search : string -> string -> nat -> list (row * R) -> result S.
Variable best : S -> P.
Variable spred : S -> row -> R.
Variable n : nat.

Lemma tuned_whole (srch : string -> nat -> list (row * R) -> result S) name x y smpls res : dml_tune srch name x y (map fst smpls) = Ok res -> tuned_for best srch name x y whole_train smpls (map best res).
Proof.
  intro H. apply dml_tune_nth in H as (Ln & H). rewrite map_length in Ln. split; [rewrite map_length; exact Ln|]. intros k h Hk.
  destruct (H k (fst h)) as (s & S1 & S2); [apply (map_nth_error fst); exact Hk|]. exists (fst h), s. split; [reflexivity|]. split; [exact S2|]. rewrite nth_error_map, S1. reflexivity.
Qed.
Lemma group_intersect (c : nat -> bool) (G : nat -> Prop) t : (forall i, c i = true <-> G i) -> group_rows n G t (intersect_where n c t).
Proof.
  intro H. split; [apply sub_sorted|]. intro j. unfold intersect_where. rewrite filter_In, in_seq, andb_true_iff, H. unfold nmem. rewrite existsb_exists. split.
  - intros (A & B & k & C & D). apply Nat.eqb_eq in D. subst k. split; [lia|auto].
  - intros (A & B & C). split; [lia|]. split; [exact B|]. exists j. split; [exact C|apply Nat.eqb_refl].
Qed.
Lemma tuned_part (srch : string -> nat -> list (row * R) -> result S) name x y (c : nat -> bool) (G : nat -> Prop) smpls res : (forall i, c i = true <-> G i) ->
  dml_tune srch name x y (map fst (cond_smpls n c smpls)) = Ok res -> tuned_for best srch name x y (group_rows n G) smpls (map best res).
Proof.
  intros Hc H. apply dml_tune_nth in H as (Ln & H). unfold cond_smpls in Ln. rewrite !map_length in Ln. split; [rewrite map_length; exact Ln|]. intros k h Hk.
  destruct (H k _ (cond_nth n c smpls k h Hk)) as (s & S1 & S2). eexists _, s. split; [apply group_intersect, Hc|]. split; [exact S2|]. rewrite nth_error_map, S1. reflexivity.
Qed.
Lemma tuned_ext srch name x (y y' : vec) sel smpls ps : (forall i, y i = y' i) -> tuned_for best srch name x y sel smpls ps -> tuned_for best srch name x y' sel smpls ps.
Proof.
  intros Hy (A & B). split; [exact A|]. intros k h Hk. destruct (B k h Hk) as (rows & so & B1 & B2 & B3). exists rows, so. split; [exact B1|]. split; [|exact B3]. rewrite <- B2. f_equal. apply map_ext. intro i. now rewrite Hy.
Qed.
Lemma is_group (v : vec) b i : reqb (v i) b = true <-> v i = b.
Proof. apply reqb_spec. Qed.
Lemma both_group (v w : vec) a b i : reqb (v i) a && reqb (w i) b = true <-> v i = a /\ w i = b.
Proof. rewrite andb_true_iff, !reqb_spec. reflexivity. Qed.

Ltac one H q := match type of H with context [dml_tune ?s ?nm ?x ?y ?t] => let r := fresh "r" in destruct (dml_tune s nm x y t) as [r|] eqn:q; [|discriminate H]; cbn [bind] in H end.
Ltac fin := first [apply tuned_whole; assumption | (eapply tuned_part; [|eassumption]); first [apply is_group|apply both_group]].

Lemma hat_scatter (F : nat -> R) ix : forall (v : nat -> option R) i, scatter ix (map F ix) v i = if in_dec Nat.eq_dec i ix then Some (F i) else v i.
Proof.
  induction ix as [|j ix IH]; intros v i; [reflexivity|]. unfold scatter. cbn [map combine fold_left fst snd]. change (scatter ix (map F ix) (fun j0 => if Nat.eqb j0 j then Some (F j) else v j0) i = if in_dec Nat.eq_dec i (j :: ix) then Some (F i) else v i).
  rewrite IH. cbn [in_dec]. destruct (in_dec Nat.eq_dec i ix) as [A|A], (in_dec Nat.eq_dec i (j :: ix)) as [B|B]; try reflexivity.
  - destruct B. now right.
  - destruct B as [->|B]; [now rewrite Nat.eqb_refl|contradiction].
  - destruct (Nat.eqb_spec i j) as [->|_]; [destruct B; now left|reflexivity].
Qed.
Lemma hat_trained (srch : string -> nat -> list (row * R) -> result S) cast name x y smpls res : dml_tune srch name x y (map fst smpls) = Ok res -> all_trained n smpls ->
  exists v, last_trained spred cast srch n name x y smpls v /\ forall i, (i < n)%nat -> train_hat spred cast x smpls res i = Some (v i).
Proof.
  intros H All. apply dml_tune_nth in H as (Ln & H). rewrite map_length in Ln.
  assert (G : forall ps i, match fold_left (fun v (p : fold * S) => scatter (fst (fst p)) (map (fun i => cast (spred (snd p) (x i))) (fst (fst p))) v) ps (fun _ => None) i with
    | Some a => exists k p, nth_error ps k = Some p /\ In i (fst (fst p)) /\ (forall k' p', nth_error ps k' = Some p' -> In i (fst (fst p')) -> (k' <= k)%nat) /\ a = cast (spred (snd p) (x i))
    | None => forall p, In p ps -> ~ In i (fst (fst p)) end).
  { induction ps as [|p ps IH] using rev_ind; intro i; [intros ? []|]. rewrite fold_left_app. cbn [fold_left]. rewrite (hat_scatter (fun i => cast (spred (snd p) (x i)))). destruct (in_dec Nat.eq_dec i (fst (fst p))) as [I|I].
    - exists (length ps), p. split; [rewrite nth_error_app2, Nat.sub_diag by lia; reflexivity|]. split; [exact I|]. split; [|reflexivity]. intros k' p' Hk _. assert (k' < length (ps ++ [p]))%nat by (apply nth_error_Some; congruence). rewrite app_length in *. cbn in *. lia.
    - specialize (IH i). destruct (fold_left _ ps (fun _ => None) i) as [a|].
      + destruct IH as (k & q & Hk & Hi & Hm & Ha). assert (k < length ps)%nat by (apply nth_error_Some; congruence). exists k, q. split; [rewrite nth_error_app1 by assumption; exact Hk|]. split; [exact Hi|]. split; [|exact Ha].
        intros k' p' Hk' Hi'. destruct (Nat.lt_ge_cases k' (length ps)) as [Q|Q]; [rewrite nth_error_app1 in Hk' by assumption; eapply Hm; eassumption|].
        rewrite nth_error_app2 in Hk' by assumption. destruct (k' - length ps)%nat as [|u]; [|destruct u; discriminate Hk']. injection Hk' as <-. contradiction.
      + intros q Hq. apply in_app_or in Hq as [Hq|[<-|[]]]; auto. }
  exists (fun i => match train_hat spred cast x smpls res i with Some a => a | None => 0 end).
  assert (T : forall i, (i < n)%nat -> exists a, train_hat spred cast x smpls res i = Some a /\
    exists k h so, nth_error smpls k = Some h /\ In i (fst h) /\ (forall k' h', nth_error smpls k' = Some h' -> In i (fst h') -> (k' <= k)%nat) /\ srch name k (map (fun j => (x j, y j)) (fst h)) = Ok so /\ a = cast (spred so (x i))).
  { intros i Hi. pose proof (G (combine smpls res) i) as Q. change (fold_left _ (combine smpls res) _ i) with (train_hat spred cast x smpls res i) in Q. destruct (train_hat spred cast x smpls res i) as [a|].
    - exists a. split; [reflexivity|]. destruct Q as (k & (h & so) & Hk & Hin & Hm & ->). assert (Hk1 : nth_error smpls k = Some h /\ nth_error res k = Some so).
      { clear -Hk Ln. revert res k Hk Ln. induction smpls as [|u us IH]; intros [|v vs] [|k] Hk Ln; try discriminate; cbn in Hk; [injection Hk as -> ->; split; reflexivity|]. cbn [nth_error]. apply IH; [exact Hk|cbn in Ln; lia]. }
      destruct Hk1 as (Hs & Hr). exists k, h, so. split; [exact Hs|]. split; [exact Hin|]. split.
      + intros k' h' Hk' Hi'. assert (K : (k' < length res)%nat) by (rewrite Ln; apply nth_error_Some; intro Q0; discriminate (eq_trans (eq_sym Hk') Q0)). destruct (nth_error res k') as [so'|] eqn:Hr'; [|apply nth_error_None in Hr'; lia]. eapply Hm; [apply nth_combine; eassumption|exact Hi'].
      + split; [|reflexivity]. destruct (H k (fst h)) as (s & S1 & S2); [apply (map_nth_error fst), Hs|]. rewrite Hr in S1. injection S1 as <-. exact S2.
    - exfalso. destruct (All i Hi) as (h & Hh & Hin). apply In_nth_error in Hh as (k & Hk). assert (K : (k < length res)%nat) by (rewrite Ln; apply nth_error_Some; intro Q0; discriminate (eq_trans (eq_sym Hk) Q0)). destruct (nth_error res k) as [so'|] eqn:Hr'; [|apply nth_error_None in Hr'; lia].
      apply (Q (h, so')); [|exact Hin]. eapply nth_error_In, nth_combine; eassumption. }
  split; intros i Hi; destruct (T i Hi) as (a & -> & Q); [exact Q|reflexivity].
Qed.
Lemma nanmean_is v w : (forall i, (i < n)%nat -> v i = Some (w i)) -> nanmean n v = meanf n w.
Proof.
  intro H. unfold nanmean, meanf, sumf, Rmean. assert (Q : forall l, (forall i, In i l -> (i < n)%nat) -> flat_map (fun i => match v i with Some a => [a] | None => [] end) l = map w l).
  { induction l as [|i l IH]; [reflexivity|]. intro Hl. cbn. rewrite H by (apply Hl; now left). cbn. f_equal. apply IH. intros j Hj. apply Hl. now right. }
  rewrite (Q (seq 0 n)) by (intros i Hi; apply in_seq in Hi; lia). rewrite map_length, seq_length. reflexivity.
Qed.
Lemma slope_iv y d z l m r lv mv rv : (forall i, (i < n)%nat -> l i = Some (lv i)) -> (forall i, (i < n)%nat -> m i = Some (mv i)) -> (forall i, (i < n)%nat -> r i = Some (rv i)) ->
  prelim_slope n y d z lv rv mv (initial_theta_z n y d z l m r).
Proof.
  intros Kl Km Kr Hne. unfold initial_theta_z.
  rewrite (nanmean_is _ (fun i => (z i - mv i) * (y i - lv i))) by (intros i Hi; rewrite (Kl i Hi), (Km i Hi); reflexivity).
  rewrite (nanmean_is _ (fun i => - ((z i - mv i) * (d i - rv i)))) by (intros i Hi; rewrite (Kr i Hi), (Km i Hi); cbn; f_equal; ring).
  rewrite meanf_opp. unfold meanf. assert (Hn : INR n <> 0).
  { intro E0. apply Hne. assert (He1 : n = 0%nat) by (apply INR_eq; rewrite E0; reflexivity). rewrite He1. reflexivity. }
  field. split; assumption.
Qed.
Lemma level_crude q tr y d : level_quantile n q tr y d (crude_quantile n q tr y d).
Proof.
  eexists. split; [|reflexivity]. split; [apply L_Resampling.filter_sorted, L_Resampling.seq_sorted|]. intro j. rewrite filter_In, in_seq, reqb_spec. split; [intros ((_ & A) & B); split; [exact A|split; [exact B|lia]]|intros (A & B & _); split; [lia|exact B]].
Qed.

Lemma plr_problems (srch : string -> nat -> list (row * R) -> result S) iv cy cd x y d smpls out : plr_tuning srch best spred n iv cy cd x y d smpls = Ok out -> exists pl pm,
  tuned_for best srch "ml_l" x y whole_train smpls pl /\ tuned_for best srch "ml_m" x d whole_train smpls pm /\
  if iv then exists pg theta, to_params out = [("ml_l", pl); ("ml_m", pm); ("ml_g", pg)] /\ tuned_for best srch "ml_g" x (fun i => y i - theta * d i) whole_train smpls pg /\
    (all_trained n smpls -> exists l m, last_trained spred cy srch n "ml_l" x y smpls l /\ last_trained spred cd srch n "ml_m" x d smpls m /\ prelim_slope n y d d l m m theta)
  else to_params out = [("ml_l", pl); ("ml_m", pm)].
Proof.
  unfold plr_tuning. intro H. one H He1. one H He2. exists (map best r), (map best r0). split; [fin|]. split; [fin|]. destruct iv.
  - one H He3. apply ok_eq in H as <-. eexists _, _. split; [reflexivity|]. split; [apply tuned_whole; exact He3|]. intro All.
    destruct (hat_trained _ cy _ _ _ _ _ He1 All) as (l & Hl & Kl). destruct (hat_trained _ cd _ _ _ _ _ He2 All) as (m & Hm & Km). exists l, m. split; [exact Hl|]. split; [exact Hm|].
    exact (slope_iv y d d _ _ _ l m m Kl Km Km).
  - apply ok_eq in H as <-. reflexivity.
Qed.
Lemma pq_problems (srch : string -> nat -> list (row * R) -> result S) q tr x y d smpls out : pq_tuning srch best n q tr x y d smpls = Ok out -> exists pg pm u,
  to_params out = [("ml_g", pg); ("ml_m", pm)] /\ level_quantile n q tr y d u /\
  tuned_for best srch "ml_g" x (fun i => if Rle_dec (y i) u then 1 else 0) (group_rows n (fun j => d j = tr)) smpls pg /\ tuned_for best srch "ml_m" x d whole_train smpls pm.
Proof.
  unfold pq_tuning. intro H. one H He1. one H He2. apply ok_eq in H as <-. eexists _, _, (crude_quantile n q tr y d). split; [reflexivity|]. split; [apply level_crude|]. split; [|fin].
  eapply tuned_ext; [|fin]. intro i. unfold rleb, crude_quantile. destruct (Rle_dec _ _); reflexivity.
Qed.
Lemma irm_problems (srch : string -> nat -> list (row * R) -> result S) x y d smpls out : irm_tuning srch best n x y d smpls = Ok out -> exists p0 p1 pm,
  to_params out = [("ml_g0", p0); ("ml_g1", p1); ("ml_m", pm)] /\
  tuned_for best srch "ml_g0" x y (group_rows n (fun j => d j = 0)) smpls p0 /\ tuned_for best srch "ml_g1" x y (group_rows n (fun j => d j = 1)) smpls p1 /\
  tuned_for best srch "ml_m" x d whole_train smpls pm.
Proof.
  unfold irm_tuning. intro H. one H He1. one H He2. one H He3. apply ok_eq in H as <-. eexists _, _, _. split; [reflexivity|]. split; [fin|]. split; fin.
Qed.
Lemma apo_problems x y d lvl smpls out : apo_tuning search best n x y d lvl smpls = Ok out -> exists p0 p1 pm,
  to_params out = [("ml_g_d_lvl0", p0); ("ml_g_d_lvl1", p1); ("ml_m", pm)] /\
  tuned_for best (search "ml_g") "ml_g_d_lvl0" (fun i => d i :: x i) y (group_rows n (fun j => lvl j = 0)) smpls p0 /\
  tuned_for best (search "ml_g") "ml_g_d_lvl1" x y (group_rows n (fun j => lvl j = 1)) smpls p1 /\ tuned_for best (search "ml_m") "ml_m" x lvl whole_train smpls pm.
Proof.
  unfold apo_tuning. intro H. one H He1. one H He2. one H He3. apply ok_eq in H as <-. eexists _, _, _. split; [reflexivity|]. split; [fin|]. split; fin.
Qed.
Lemma iivm_problems at_ nt x y z d smpls out : iivm_tuning search best n at_ nt x y z d smpls = Ok out -> exists p0 p1 pm r0 r1,
  to_params out = ([("ml_g0", p0); ("ml_g1", p1); ("ml_m", pm)] ++ (if at_ then [("ml_r0", r0)] else []) ++ (if nt then [("ml_r1", r1)] else []))%list /\
  tuned_for best (search "ml_g") "ml_g0" x y (group_rows n (fun j => z j = 0)) smpls p0 /\ tuned_for best (search "ml_g") "ml_g1" x y (group_rows n (fun j => z j = 1)) smpls p1 /\
  tuned_for best (search "ml_m") "ml_m" x z whole_train smpls pm /\
  (at_ = true -> tuned_for best (search "ml_r") "ml_r0" x d (group_rows n (fun j => z j = 0)) smpls r0) /\
  (nt = true -> tuned_for best (search "ml_r") "ml_r1" x d (group_rows n (fun j => z j = 1)) smpls r1).
Proof.
  unfold iivm_tuning. intro H. one H He1. one H He2. one H He3. destruct at_, nt.
  - one H He4. one H He5. apply ok_eq in H as <-. eexists _, _, _, _, _. split; [reflexivity|]. split; [fin|]. split; [fin|]. split; [fin|]. split; intros _; fin.
  - one H He4. apply ok_eq in H as <-. eexists _, _, _, _, []. split; [reflexivity|]. split; [fin|]. split; [fin|]. split; [fin|]. split; [intros _; fin|discriminate].
  - one H He4. apply ok_eq in H as <-. eexists _, _, _, [], _. split; [reflexivity|]. split; [fin|]. split; [fin|]. split; [fin|]. split; [discriminate|intros _; fin].
  - apply ok_eq in H as <-. eexists _, _, _, [], []. split; [reflexivity|]. split; [fin|]. split; [fin|]. split; [fin|]. split; discriminate.
Qed.
Lemma did_problems obs x y d smpls out : did_tuning search best n obs x y d smpls = Ok out -> exists p0 p1 pm,
  to_params out = ([("ml_g0", p0); ("ml_g1", p1)] ++ (if obs then [("ml_m", pm)] else []))%list /\
  tuned_for best (search "ml_g") "ml_g0" x y (group_rows n (fun j => d j = 0)) smpls p0 /\ tuned_for best (search "ml_g") "ml_g1" x y (group_rows n (fun j => d j = 1)) smpls p1 /\
  (obs = true -> tuned_for best (search "ml_m") "ml_m" x d whole_train smpls pm).
Proof.
  unfold did_tuning. intro H. one H He1. one H He2. destruct obs.
  - one H He3. apply ok_eq in H as <-. eexists _, _, _. split; [reflexivity|]. split; [fin|]. split; [fin|]. intros _; fin.
  - apply ok_eq in H as <-. eexists _, _, []. split; [reflexivity|]. split; [fin|]. split; [fin|]. discriminate.
Qed.
Lemma cs_problems obs x y d t smpls out : cs_tuning search best n obs x y d t smpls = Ok out -> exists p00 p01 p10 p11 pm,
  to_params out = ([("ml_g_d0_t0", p00); ("ml_g_d0_t1", p01); ("ml_g_d1_t0", p10); ("ml_g_d1_t1", p11)] ++ (if obs then [("ml_m", pm)] else []))%list /\
  tuned_for best (search "ml_g") "ml_g_d0_t0" x y (group_rows n (fun j => d j = 0 /\ t j = 0)) smpls p00 /\ tuned_for best (search "ml_g") "ml_g_d0_t1" x y (group_rows n (fun j => d j = 0 /\ t j = 1)) smpls p01 /\
  tuned_for best (search "ml_g") "ml_g_d1_t0" x y (group_rows n (fun j => d j = 1 /\ t j = 0)) smpls p10 /\ tuned_for best (search "ml_g") "ml_g_d1_t1" x y (group_rows n (fun j => d j = 1 /\ t j = 1)) smpls p11 /\
  (obs = true -> tuned_for best (search "ml_m") "ml_m" x d whole_train smpls pm).
Proof.
  unfold cs_tuning. intro H. one H He1. one H He2. one H He3. one H He4. destruct obs.
  - one H He5. apply ok_eq in H as <-. eexists _, _, _, _, _. split; [reflexivity|]. split; [fin|]. split; [fin|]. split; [fin|]. split; [fin|]. intros _; fin.
  - apply ok_eq in H as <-. eexists _, _, _, _, []. split; [reflexivity|]. split; [fin|]. split; [fin|]. split; [fin|]. split; [fin|]. discriminate.
Qed.
Lemma ssm_problems zrow x y d s smpls out : ssm_tuning search best n zrow x y d s smpls = Ok out -> exists p0 p1 pp pm,
  to_params out = [("ml_g_d0", p0); ("ml_g_d1", p1); ("ml_pi", pp); ("ml_m", pm)] /\
  tuned_for best (search "ml_g") "ml_g_d0" x y (group_rows n (fun j => d j = 0 /\ s j = 1)) smpls p0 /\ tuned_for best (search "ml_g") "ml_g_d1" x y (group_rows n (fun j => d j = 1 /\ s j = 1)) smpls p1 /\
  tuned_for best (search "ml_pi") "ml_pi" (fun i => match zrow with Some z => (x i ++ [d i] ++ z i)%list | None => (x i ++ [d i])%list end) s whole_train smpls pp /\
  tuned_for best (search "ml_m") "ml_m" x d whole_train smpls pm.
Proof.
  unfold ssm_tuning. intro H. one H He1. one H He2. one H He3. one H He4. apply ok_eq in H as <-. eexists _, _, _, _. split; [reflexivity|]. split; [fin|]. split; [fin|]. split; fin.
Qed.
Lemma pliv_problems iv cy cz cd x y d z smpls out : pliv_tuning search best spred n iv cy cz cd x y d z smpls = Ok out -> exists pl pm pr,
  tuned_for best (search "ml_l") "ml_l" x y whole_train smpls pl /\ tuned_for best (search "ml_m") "ml_m" x z whole_train smpls pm /\ tuned_for best (search "ml_r") "ml_r" x d whole_train smpls pr /\
  if iv then exists pg theta, to_params out = [("ml_l", pl); ("ml_m", pm); ("ml_r", pr); ("ml_g", pg)] /\ tuned_for best (search "ml_g") "ml_g" x (fun i => y i - theta * d i) whole_train smpls pg /\
    (all_trained n smpls -> exists l m r, last_trained spred cy (search "ml_l") n "ml_l" x y smpls l /\ last_trained spred cz (search "ml_m") n "ml_m" x z smpls m /\ last_trained spred cd (search "ml_r") n "ml_r" x d smpls r /\ prelim_slope n y d z l r m theta)
  else to_params out = [("ml_l", pl); ("ml_m", pm); ("ml_r", pr)].
Proof.
  unfold pliv_tuning. intro H. one H He1. one H He2. one H He3. exists (map best r), (map best r0), (map best r1). split; [fin|]. split; [fin|]. split; [fin|]. destruct iv.
  - one H He4. apply ok_eq in H as <-. eexists _, _. split; [reflexivity|]. split; [apply tuned_whole; exact He4|]. intro All.
    destruct (hat_trained _ cy _ _ _ _ _ He1 All) as (l & Hl & Kl). destruct (hat_trained _ cz _ _ _ _ _ He2 All) as (m & Hm & Km). destruct (hat_trained _ cd _ _ _ _ _ He3 All) as (rv & Hr & Kr).
    exists l, m, rv. split; [exact Hl|]. split; [exact Hm|]. split; [exact Hr|]. exact (slope_iv y d z _ _ _ l m rv Kl Km Kr).
  - apply ok_eq in H as <-. reflexivity.
Qed.
Lemma pliv_several_problems x y d zs smpls out : pliv_several_tuning search best x y d zs smpls = Ok out -> exists pl pr pms,
  to_params out = ([("ml_l", pl); ("ml_r", pr)] ++ pms)%list /\ map fst pms = map (fun p => "ml_m_" ++ fst p) zs /\
  tuned_for best (search "ml_l") "ml_l" x y whole_train smpls pl /\ tuned_for best (search "ml_r") "ml_r" x d whole_train smpls pr /\
  forall j zc z, nth_error zs j = Some (zc, z) -> exists pm, nth_error pms j = Some ("ml_m_" ++ zc, pm) /\ tuned_for best (search "ml_m") ("ml_m_" ++ zc) x z whole_train smpls pm.
Proof.
  unfold pliv_several_tuning. intro H. one H He1. match type of H with bind ?u _ = _ => destruct u as [ms|] eqn:He2; [|discriminate H] end. cbn [bind] in H. one H He3. apply ok_eq in H as <-. eexists _, _, _. split; [reflexivity|].
  apply map_res_nth_error in He2 as (Ln & He2).
  assert (Q : forall j zc z, nth_error zs j = Some (zc, z) -> exists r1, nth_error ms j = Some ("ml_m_" ++ zc, r1) /\ dml_tune (search "ml_m") ("ml_m_" ++ zc) x z (map fst smpls) = Ok r1).
  { intros j zc z Hj. destruct (He2 j _ Hj) as (s & S1 & S2). cbn [fst snd] in S2. one S2 He4. apply ok_eq in S2 as <-. exists r1. auto. }
  split.
  - apply list_by_nth. intro j. rewrite !nth_error_map. destruct (nth_error zs j) as [[zc z]|] eqn:Ej.
    + destruct (Q _ _ _ Ej) as (r1 & -> & _). reflexivity.
    + assert (O : nth_error ms j = None) by (apply nth_error_None; rewrite Ln; apply nth_error_None; exact Ej). rewrite O. reflexivity.
  - split; [fin|]. split; [fin|]. intros j zc z Hj. destruct (Q _ _ _ Hj) as (r1 & R1 & R2). exists (map best r1). split; [rewrite nth_error_map, R1; reflexivity|apply tuned_whole; exact R2].
Qed.
Lemma pliv_z_problems x zrow d smpls out : pliv_z_tuning search best x zrow d smpls = Ok out -> exists pr,
  to_params out = [("ml_r", pr)] /\ tuned_for best (search "ml_r") "ml_r" (fun i => (x i ++ zrow i)%list) d whole_train smpls pr.
Proof. unfold pliv_z_tuning. intro H. one H He1. apply ok_eq in H as <-. eexists. split; [reflexivity|fin]. Qed.
Lemma pliv_xz_problems x zrow y d smpls out : pliv_xz_tuning search best spred x zrow y d smpls = Ok out -> exists pl pm pr, let xz := fun i => (x i ++ zrow i)%list in
  to_params out = [("ml_l", pl); ("ml_m", pm); ("ml_r", pr)] /\
  tuned_for best (search "ml_l") "ml_l" x y whole_train smpls pl /\ tuned_for best (search "ml_m") "ml_m" xz d whole_train smpls pm /\ length pr = length smpls /\
  forall k h, nth_error smpls k = Some h -> exists sm sr, search "ml_m" "ml_m" k (map (fun j => (xz j, d j)) (fst h)) = Ok sm /\
    search "ml_r" "ml_r" k (map (fun j => (x j, spred sm (xz j))) (fst h)) = Ok sr /\ nth_error pr k = Some (best sr).
Proof.
  unfold pliv_xz_tuning. intro H. one H He1. one H He2. match type of H with bind ?u _ = _ => destruct u as [rr|] eqn:He3; [|discriminate H] end. cbn [bind] in H. apply ok_eq in H as <-.
  pose proof He2 as He2'. apply dml_tune_nth in He2' as (L2 & T2). rewrite map_length in L2. apply map_res_nth_error in He3 as (L3 & T3).
  rewrite !combine_length, seq_length, L2, !Nat.min_id in L3. eexists _, _, _. cbv zeta. split; [reflexivity|]. split; [fin|]. split; [fin|]. split; [rewrite map_length; exact L3|].
  intros k h Hk. destruct (T2 k (fst h)) as (sm & S1 & S2); [apply (map_nth_error fst); exact Hk|]. assert (K : (k < length smpls)%nat) by (apply nth_error_Some; congruence).
  destruct (T3 k (k, (h, sm))) as (sr & R1 & R2).
  { apply nth_combine; [rewrite (nth_error_nth' _ 0%nat) by (rewrite seq_length; exact K); now rewrite seq_nth|]. apply nth_combine; assumption. }
  cbn [fst snd] in R2. exists sm, sr. split; [exact S2|]. split; [exact R2|]. rewrite nth_error_map, R1. reflexivity.
Qed.
Lemma lpq_problems q tr x y z d smpls out : lpq_tuning search best n q tr x y z d smpls = Ok out -> exists pz p0 p1 h0 h1 u,
  to_params out = [("ml_m_z", pz); ("ml_m_d_z0", p0); ("ml_m_d_z1", p1); ("ml_g_du_z0", h0); ("ml_g_du_z1", h1)] /\ level_quantile n q tr y d u /\
  let du := fun i => if Req_EM_T (d i) tr then if Rle_dec (y i) u then 1 else 0 else 0 in
  tuned_for best (search "ml_m_z") "ml_m_z" x z whole_train smpls pz /\
  tuned_for best (search "ml_m_d_z0") "ml_m_d_z0" x d (group_rows n (fun j => z j = 0)) smpls p0 /\ tuned_for best (search "ml_m_d_z1") "ml_m_d_z1" x d (group_rows n (fun j => z j = 1)) smpls p1 /\
  tuned_for best (search "ml_g_du_z0") "ml_g_du_z0" x du (group_rows n (fun j => z j = 0)) smpls h0 /\ tuned_for best (search "ml_g_du_z1") "ml_g_du_z1" x du (group_rows n (fun j => z j = 1)) smpls h1.
Proof.
  unfold lpq_tuning. intro H. one H He1. one H He2. one H He3. 
  one H He4. one H He5. apply ok_eq in H as <-. eexists _, _, _, _, _, (crude_quantile n q tr y d). split; [reflexivity|]. split; [apply level_crude|]. cbv zeta.
  assert (Q : forall i, (if reqb (d i) tr && rleb (y i) (crude_quantile n q tr y d) then 1 else 0) = (if Req_EM_T (d i) tr then if Rle_dec (y i) (crude_quantile n q tr y d) then 1 else 0 else 0)).
  { intro i. unfold reqb, rleb. destruct (Req_EM_T _ _), (Rle_dec _ _); reflexivity. }
  split; [fin|]. split; [fin|]. split; [fin|]. split; (eapply tuned_ext; [exact Q|fin]).
Qed.
Lemma cvar_problems q tr x y d smpls out : cvar_tuning search best n q tr x y d smpls = Ok out -> exists pg pm u,
  to_params out = [("ml_g", pg); ("ml_m", pm)] /\ level_quantile n q tr y d u /\
  tuned_for best (search "ml_g") "ml_g" x (fun i => Rmax u ((y i - q * u) / (1 - q))) (group_rows n (fun j => d j = tr)) smpls pg /\ tuned_for best (search "ml_m") "ml_m" x d whole_train smpls pm.
Proof.
  unfold cvar_tuning. intro H. one H He1. one H He2. apply ok_eq in H as <-. eexists _, _, (crude_quantile n q tr y d). split; [reflexivity|]. split; [apply level_crude|]. split; fin.
Qed.
End Tuned.

(** Only the training rows of a fold matter for its parameters. *)
Lemma problem_no_leak {P S} (best : S -> P) srch name x x' y y' n (G G' : nat -> Prop) smpls ps ps' k h :
  tuned_for best srch name x y (group_rows n G) smpls ps -> tuned_for best srch name x' y' (group_rows n G') smpls ps' -> nth_error smpls k = Some h ->
  (forall i, In i (fst h) -> x i = x' i /\ y i = y' i /\ (G i <-> G' i)) -> nth_error ps k = nth_error ps' k.
Proof.
  intros (_ & H) (_ & H') Hk Ag. destruct (H k h Hk) as (rows & so & (S1 & R1) & A1 & A2). destruct (H' k h Hk) as (rows' & so' & (S2 & R2) & B1 & B2).
  assert (rows = rows').
  { apply (rows_once []); [exact S1|exact S2|]. intro j. rewrite R1, R2. split; intros (U & V & W); split; [exact U|split; [apply (Ag j W); exact V|exact W]|exact U|split; [apply (Ag j W); exact V|exact W]]. }
  subst rows'. assert (Q : map (fun j => (x j, y j)) rows = map (fun j => (x' j, y' j)) rows).
  { apply map_ext_in. intros j Hj. apply R1 in Hj as (_ & _ & Hj). destruct (Ag j Hj) as (-> & -> & _). reflexivity. }
  rewrite Q in A1. congruence.
Qed.
Lemma problem_no_leak_whole {P S} (best : S -> P) srch name x x' y y' smpls ps ps' k h :
  tuned_for best srch name x y whole_train smpls ps -> tuned_for best srch name x' y' whole_train smpls ps' -> nth_error smpls k = Some h ->
  (forall i, In i (fst h) -> x i = x' i /\ y i = y' i) -> nth_error ps k = nth_error ps' k.
Proof.
  intros (_ & H) (_ & H') Hk Ag. destruct (H k h Hk) as (rows & so & -> & A1 & A2). destruct (H' k h Hk) as (rows' & so' & -> & B1 & B2).
  assert (Q : map (fun j => (x j, y j)) (fst h) = map (fun j => (x' j, y' j)) (fst h)).
  { apply map_ext_in. intros j Hj. destruct (Ag j Hj) as (-> & ->). reflexivity. }
  rewrite Q in A1. congruence.
Qed.

Lemma fit_on_tuned {E P S} (L : learner E row P) f g (su : setup E P) (best : S -> P) srch name lrn x y sel smpls ps v :
  by_rows sel -> tuned_for best srch name x y sel smpls ps -> su_params su name = FoldDicts ps -> cross_fitted L f g su name lrn x y sel smpls v ->
  exists c, (if su_proba su lrn then codes (su_n su) y c else c = y) /\
    forall i, (i < su_n su)%nat -> predicted_after_tuning L f g best srch (su_learner su lrn) (su_proba su lrn) name x y c sel smpls i (v i).
Proof.
  intros Hs (_ & T) Hp (c & C1 & C2). exists c. split; [exact C1|]. intros i Hi. destruct (C2 i Hi) as (k & h & rows & p & m & T1 & T2 & T3 & T4 & T5). destruct (T k h (proj1 T1)) as (rows' & so & S1 & S2 & S3).
  pose proof (by_rows_once _ _ _ _ Hs T2 S1). subst rows'. rewrite Hp in T3. cbn in T3. destruct T3 as (q & Q1 & ->). rewrite S3 in Q1. injection Q1 as <-.
  exists k, h, rows, so, m. auto.
Qed.

Lemma fit_after_tuning {E P S} (L : learner E row P) f g (mc : machinery E P) (best : S -> P) srch (C : ctx P) names (tn : nat -> option nat -> list fold -> result (tune_out P (list (list S)))) a w w1 r0
  n ext r t col name lrn x y sel sm fs v :
  is_true (ta_on_folds a) = true -> is_true (ta_set a) = true -> NoDup (c_dcols C) -> tune C names tn a w = (w1, Ok r0) ->
  m_smpls (w_obj w) = Some sm -> nth_error sm r = Some fs -> (r < m_n_rep (w_obj w))%nat -> nth_error (c_dcols C) t = Some col -> by_rows sel ->
  (forall r' fs' res, tn t (Some r') fs' = Ok res -> exists ps, dict_get name (to_params res) = Some ps /\ tuned_for best srch name x y sel fs' ps) ->
  (forall e, ~ supplied ext col name r e) -> used_prediction L f g mc w1 n ext r t col name lrn x y sel fs v ->
  tuned_prediction L f g mc n best srch name lrn x y sel fs v.
Proof.
  intros H1 H2 H3 H4 Hs Hf Hr Ht Hsel Htn Hno (_ & Hu). specialize (Hu Hno). destruct (tuned_folds C names tn a w w1 r0 H1 H2 H3 H4) as (_ & T).
  destruct (T t col Ht) as (res0 & (sm0 & fs0 & A1 & A2 & A3) & T1 & _). destruct (Htn _ _ _ A3) as (ps0 & D0 & _).
  assert (I0 : In name (map fst (to_params res0))). { clear -D0. induction (to_params res0) as [|[l u] p IH]; [discriminate|]. cbn in D0 |- *. destruct (String.eqb_spec name l); [left; congruence|right; auto]. }
  destruct (T1 name I0) as (_ & T2). destruct (T2 r Hr) as (res & ps & (sm1 & fs1 & B1 & B2 & B3) & B4 & B5 & _). rewrite Hs in B1. injection B1 as <-. rewrite Hf in B2. injection B2 as <-.
  destruct (Htn _ _ _ B3) as (ps' & D' & T'). rewrite B4 in D'. injection D' as <-.
  match type of Hu with cross_fitted _ _ _ ?s0 _ _ _ _ _ _ _ => assert (Hp : su_params s0 name = FoldDicts ps) end.
  { cbn [su_params setup_of]. rewrite (nth_error_nth _ _ None B5). reflexivity. }
  exact (fit_on_tuned L f g _ best srch name lrn x y sel fs ps v Hsel T' Hp Hu).
Qed.

(** Lemmas: regression discontinuity estimator. *)
From Verif Require Import S_Rdd L_Sum L_Order L_Quantile.
From Coq Require Import Lra.
Local Open Scope R_scope.

(** ** Kernels *)
Lemma tri_unit x h : 0 < h -> (h - Rabs x) / h = 1 - Rabs x / h.
Proof. intros. field. lra. Qed.
Lemma div_le_one a h : 0 < h -> a <= h -> a / h <= 1.
Proof. intros Hh H. apply (Rmult_le_reg_r h); [exact Hh|]. unfold Rdiv. rewrite Rmult_assoc, Rinv_l by lra. lra. Qed.
Lemma div_ge_one a h : 0 < h -> h <= a -> 1 <= a / h.
Proof. intros Hh H. apply (Rmult_le_reg_r h); [exact Hh|]. unfold Rdiv. rewrite Rmult_assoc, Rinv_l by lra. lra. Qed.
Lemma div_nonneg' a h : 0 < h -> 0 <= a -> 0 <= a / h.
Proof. intros Hh H. unfold Rdiv. apply Rmult_le_pos; [exact H|]. left. apply Rinv_0_lt_compat. exact Hh. Qed.
Lemma sq_abs x h : 0 < h -> (x / h) ^ 2 = (Rabs x / h) ^ 2.
Proof. intros Hh. unfold Rdiv. rewrite !Rpow_mult_distr. rewrite <- (pow2_abs x). reflexivity. Qed.
Lemma kernel_range k x h : 0 < h -> 0 <= kernel k x h <= 1.
Proof.
  intros Hh. destruct k; cbn [kernel].
  - destruct (rleb _ _); lra.
  - rewrite tri_unit by exact Hh. pose proof (div_nonneg' (Rabs x) h Hh (Rabs_pos x)). split; [apply Rmax_l|]. apply Rmax_lub; lra.
  - destruct (rltb (Rabs x) h) eqn:E; [|lra]. apply rltb_true in E. rewrite sq_abs by exact Hh.
    pose proof (div_nonneg' (Rabs x) h Hh (Rabs_pos x)) as P. pose proof (div_le_one (Rabs x) h Hh ltac:(lra)) as Q.
    set (u := Rabs x / h) in *. nra.
Qed.
Lemma kernel_outside k x h : 0 < h -> h < Rabs x -> kernel k x h = 0.
Proof.
  intros Hh H. destruct k; cbn [kernel].
  - replace (rleb (Rabs x) h) with false; [reflexivity|]. symmetry. apply rleb_false. exact H.
  - rewrite tri_unit by exact Hh. apply Rmax_left. pose proof (div_ge_one (Rabs x) h Hh ltac:(lra)). lra.
  - replace (rltb (Rabs x) h) with false; [reflexivity|]. symmetry. apply rltb_false. lra.
Qed.
Lemma kernel_symmetric k x h : kernel k (- x) h = kernel k x h.
Proof. destruct k; cbn [kernel]; rewrite Rabs_Ropp; try reflexivity. destruct (rltb _ _); [|reflexivity]. unfold Rdiv. ring. Qed.
Lemma kernel_decreasing k x x' h : 0 < h -> Rabs x <= Rabs x' -> kernel k x' h <= kernel k x h.
Proof.
  intros Hh H. destruct (Rlt_dec h (Rabs x')) as [Hx|Hx].
  { rewrite (kernel_outside k x' h Hh Hx). apply kernel_range. exact Hh. }
  apply Rnot_lt_le in Hx. destruct k; cbn [kernel].
  - replace (rleb (Rabs x) h) with true by (symmetry; apply rleb_true; lra). destruct (rleb _ _); lra.
  - rewrite !tri_unit by exact Hh. apply Rle_max_compat_l. assert (Rabs x / h <= Rabs x' / h); [|lra].
    unfold Rdiv. apply Rmult_le_compat_r; [left; apply Rinv_0_lt_compat; exact Hh|exact H].
  - destruct (rltb (Rabs x') h) eqn:E.
    + apply rltb_true in E. replace (rltb (Rabs x) h) with true by (symmetry; apply rltb_true; lra). rewrite (sq_abs x h), (sq_abs x' h) by exact Hh.
      assert (A : Rabs x / h <= Rabs x' / h) by (unfold Rdiv; apply Rmult_le_compat_r; [left; apply Rinv_0_lt_compat; exact Hh|exact H]).
      pose proof (div_nonneg' (Rabs x) h Hh (Rabs_pos x)) as P. set (u := Rabs x / h) in *. set (v := Rabs x' / h) in *. nra.
    + pose proof (kernel_range Epanechnikov x h Hh) as [P _]. exact P.
Qed.
Lemma kernel_centre k h : 0 < h -> kernel k 0 h = match k with Epanechnikov => 3 / 4 | _ => 1 end.
Proof.
  intros Hh. destruct k; cbn [kernel]; rewrite Rabs_R0.
  - replace (rleb 0 h) with true; [reflexivity|]. symmetry. apply rleb_true. lra.
  - rewrite Rmax_right; [field; lra|]. apply div_nonneg'; lra.
  - replace (rltb 0 h) with true by (symmetry; apply rltb_true; exact Hh). unfold Rdiv. ring.
Qed.
Lemma set_kernel_inv cf a f : set_kernel cf a = Ok f -> (exists k, f = kernel k) \/ a = KCall f.
Proof.
  destruct a as [s|g|]; cbn [set_kernel]; [|intros H; injection H as <-; right; reflexivity|discriminate].
  destruct (String.eqb (cf s) "uniform"); [intros H; injection H as <-; left; eexists; reflexivity|].
  destruct (String.eqb (cf s) "triangular"); [intros H; injection H as <-; left; eexists; reflexivity|].
  destruct (String.eqb (cf s) "epanechnikov"); [intros H; injection H as <-; left; eexists; reflexivity|discriminate].
Qed.
(** A negative bandwidth passes the type check and gives weights above one. *)
Lemma negative_bandwidth dflt : set_h_fs dflt (PFloat (-1)) = Ok (-1) /\ kernel Triangular 2 (-1) = 3.
Proof. split; [reflexivity|]. cbn [kernel]. rewrite Rabs_pos_eq by lra. rewrite Rmax_right; [field|]. replace ((-1 - 2) / -1) with 3 by field. lra. Qed.

(** ** Features *)
Lemma z_left_unit sp : z_left sp = unit_features sp 0 0.
Proof. destruct sp; cbn; try rewrite Rmult_0_l; reflexivity. Qed.
Lemma z_right_unit sp : z_right sp = unit_features sp 1 0.
Proof. destruct sp; cbn; try rewrite Rmult_0_r; reflexivity. Qed.
Lemma z_sample_unit sp s : z_sample sp s = unit_features sp (if Rle_dec 0 s then 1 else 0) s.
Proof. destruct sp; unfold z_sample, intended, rleb, unit_features; destruct (Rle_dec 0 s); reflexivity. Qed.

(** ** Cross-fitted adjustment *)
Section Nuisance.
  Variables (t : dtype) (learn : rd_learner) (sp : fs_spec) (score : nat -> R) (x : nat -> list R) (y w junk : nat -> R).
  Let step := fun (mu : (nat -> R) * (nat -> R)) (f : fold) =>
    let est := learn (map (fun i => (z_sample sp (score i) ++ x i, y i, w i)) (fst f)) in
    (write_rows (snd f) (fun i => cast t (est (z_left sp ++ x i))) (fst mu), write_rows (snd f) (fun i => cast t (est (z_right sp ++ x i))) (snd mu)).
  Lemma steps_keep smpls mu i : (forall f, In f smpls -> ~ In i (snd f)) ->
    fst (fold_left step smpls mu) i = fst mu i /\ snd (fold_left step smpls mu) i = snd mu i.
  Proof.
    revert mu. induction smpls as [|f r IH]; intros mu H; [split; reflexivity|]. cbn [fold_left].
    destruct (IH (step mu f)) as [E1 E2]; [intros g Hg; apply H; right; exact Hg|]. rewrite E1, E2. cbn [step fst snd]. unfold write_rows.
    replace (existsb (Nat.eqb i) (snd f)) with false; [split; reflexivity|]. symmetry. apply Bool.not_true_iff_false. intro E.
    apply existsb_exists in E. destruct E as (j & Hj & E). apply Nat.eqb_eq in E. subst j. exact (H f (or_introl eq_refl) Hj).
  Qed.
  Lemma trained_eq f : learn (map (fun i => (z_sample sp (score i) ++ x i, y i, w i)) (fst f)) = trained learn sp score x y w f.
  Proof. unfold trained. f_equal. apply map_ext. intro i. rewrite z_sample_unit. reflexivity. Qed.
  Lemma steps_write smpls mu i f : tested_only smpls i f ->
    fst (fold_left step smpls mu) i = cast t (trained learn sp score x y w f (unit_features sp 0 0 ++ x i)) /\
    snd (fold_left step smpls mu) i = cast t (trained learn sp score x y w f (unit_features sp 1 0 ++ x i)).
  Proof.
    intros (k & Hk & Hi & Hu). revert mu k Hk Hu. induction smpls as [|g r IH]; intros mu k Hk Hu; [destruct k; discriminate|]. cbn [fold_left].
    destruct k as [|k].
    - cbn in Hk. injection Hk as ->. destruct (steps_keep r (step mu f) i) as [E1 E2].
      { intros g Hg Hin. apply In_nth_error in Hg. destruct Hg as (j & Hj). specialize (Hu (S j) g Hj Hin). discriminate. }
      rewrite E1, E2. cbn [step fst snd]. unfold write_rows. replace (existsb (Nat.eqb i) (snd f)) with true.
      + rewrite z_left_unit, z_right_unit, trained_eq. split; reflexivity.
      + symmetry. apply existsb_exists. exists i. split; [exact Hi|apply Nat.eqb_refl].
    - apply (IH _ k); [exact Hk|]. intros j h Hj Hin. specialize (Hu (S j) h Hj Hin). lia.
  Qed.
  Lemma nuisance_spec smpls i f : tested_only smpls i f ->
    fit_nuisance t learn sp score x y w junk smpls i =
    average t (cast t (trained learn sp score x y w f (unit_features sp 0 0 ++ x i))) (cast t (trained learn sp score x y w f (unit_features sp 1 0 ++ x i))).
  Proof. intros H. unfold fit_nuisance. destruct (steps_write smpls (junk, junk) i f H) as [E1 E2]. fold step. rewrite E1, E2. reflexivity. Qed.
End Nuisance.
Lemma nuisance_float learn sp score x y w junk smpls i f : tested_only smpls i f ->
  fit_nuisance DFloat learn sp score x y w junk smpls i = cutoff_average (trained learn sp score x y w f) sp (x i).
Proof. intros H. rewrite (nuisance_spec _ _ _ _ _ _ _ _ _ _ _ H). reflexivity. Qed.

Lemma trunc_small v : -1 < v < 1 -> trunc v = 0%Z.
Proof.
  intros H. unfold trunc. destruct (rleb 0 v) eqn:E.
  - apply rleb_true in E. unfold Int_part. rewrite <- (tech_up v 1); [reflexivity|lra|cbn; lra].
  - apply rleb_false in E. assert (Z1 : Int_part (- v) = 0%Z) by (unfold Int_part; rewrite <- (tech_up (- v) 1); [reflexivity|lra|cbn; lra]). rewrite Z1. reflexivity.
Qed.
(** Integer column and predictions in (-1,1): no adjustment at all. *)
Lemma nuisance_int learn sp score x y w junk smpls i f : tested_only smpls i f ->
  (forall t, t = 0 \/ t = 1 -> -1 < trained learn sp score x y w f (unit_features sp t 0 ++ x i) < 1) ->
  fit_nuisance DInt learn sp score x y w junk smpls i = 0.
Proof.
  intros H B. rewrite (nuisance_spec _ _ _ _ _ _ _ _ _ _ _ H). cbn [cast average]. rewrite !trunc_small; [cbn; lra|apply B; right; reflexivity|apply B; left; reflexivity].
Qed.
(** Boolean column and positive predictions: always one half. *)
Lemma nuisance_bool learn sp score x y w junk smpls i f : tested_only smpls i f ->
  (forall t, t = 0 \/ t = 1 -> 0 < trained learn sp score x y w f (unit_features sp t 0 ++ x i)) ->
  fit_nuisance DBool learn sp score x y w junk smpls i = 1 / 2.
Proof.
  intros H B. rewrite (nuisance_spec _ _ _ _ _ _ _ _ _ _ _ H). cbn [cast average]. unfold reqb.
  pose proof (B 0 (or_introl eq_refl)) as B0. pose proof (B 1 (or_intror eq_refl)) as B1.
  set (a := trained _ _ _ _ _ _ _ (unit_features sp 0 0 ++ x i)) in *. set (b := trained _ _ _ _ _ _ _ (unit_features sp 1 0 ++ x i)) in *.
  destruct (Req_EM_T a 0) as [E|_]; [lra|]. destruct (Req_EM_T b 0) as [E|_]; [lra|]. destruct (Req_EM_T 1 0) as [E|_]; [lra|]. cbn. reflexivity.
Qed.
Lemma proper_tested n smpls i : proper_split n smpls -> (i < n)%nat -> exists f, tested_only smpls i f.
Proof.
  intros [P _] Hi. assert (Hin : In i (flat_map snd smpls)) by (eapply Permutation_in; [apply Permutation_sym; exact P|apply in_seq; lia]).
  assert (D : NoDup (flat_map snd smpls)) by (eapply Permutation_NoDup; [apply Permutation_sym; exact P|apply seq_NoDup]).
  clear P Hi. induction smpls as [|g r IH]; [destruct Hin|]. cbn [flat_map] in Hin, D. apply in_app_iff in Hin.
  assert (Dr : NoDup (flat_map snd r) /\ forall z, In z (snd g) -> ~ In z (flat_map snd r)).
  { clear -D. induction (snd g) as [|a l IHl]; cbn in D; [split; [exact D|intros z []]|]. inversion_clear D as [|? ? N D']. destruct (IHl D') as [A B].
    split; [exact A|]. intros z [<-|Hz]; [intro; apply N, in_app_iff; right; assumption|apply B; exact Hz]. }
  destruct Dr as [Dr Dx]. destruct Hin as [Hg|Hr].
  - exists g, 0%nat. split; [reflexivity|]. split; [exact Hg|]. intros [|j] h Hj Hh; [reflexivity|]. elim (Dx i Hg). apply in_flat_map. exists h.
    split; [eapply nth_error_In; exact Hj|exact Hh].
  - destruct (IH Hr Dr) as (f & k & Hk & Hf & Hu). exists f, (S k). split; [exact Hk|]. split; [exact Hf|]. intros [|j] h Hj Hh.
    + cbn in Hj. injection Hj as <-. elim (Dx i Hh). exact Hr.
    + f_equal. exact (Hu j h Hj Hh).
Qed.

(** ** The object *)
Lemma iterate_spec o smpls k : forall w hb, exists W : nat -> nat -> R,
  W 0%nat = w /\
  (forall t, (t < k)%nat -> W (S t) = kernel_weights o (Rmax (fst (rr_h (fit_rdd o (W t) smpls None))) (snd (rr_h (fit_rdd o (W t) smpls None))))) /\
  snd (iterate o k w hb smpls) = match k with 0%nat => hb | S k' => let r := fit_rdd o (W k') smpls None in
     Some (Rmax (fst (rr_h r)) (snd (rr_h r)), Rmax (fst (rr_b r)) (snd (rr_b r))) end /\
  fst (iterate o k w hb smpls) = fit_rdd o (W k) smpls (snd (iterate o k w hb smpls)).
Proof.
  induction k as [|k IH]; intros w hb.
  - exists (fun _ => w). split; [reflexivity|]. split; [intros; lia|]. split; reflexivity.
  - cbn [iterate]. set (r := fit_rdd o w smpls None). destruct (IH (kernel_weights o (Rmax (fst (rr_h r)) (snd (rr_h r)))) (Some (Rmax (fst (rr_h r)) (snd (rr_h r)), Rmax (fst (rr_b r)) (snd (rr_b r))))) as (W & E0 & Es & Eb & Ef).
    exists (fun t => match t with 0%nat => w | S t' => W t' end). split; [reflexivity|]. split; [|split].
    + intros [|t] Ht; [exact E0|]. apply Es. lia.
    + rewrite Eb. destruct k; reflexivity.
    + exact Ef.
Qed.
Lemma run_len o k : length (rf_res (rd_run o k)) = ro_n_rep o.
Proof. unfold rd_run, aggregate_rd. cbn [rf_res]. rewrite !map_length. reflexivity. Qed.
Lemma run_rep o k r smpls : nth_error (ro_smpls o) r = Some smpls ->
  res_at (rf_res (rd_run o k)) r = fst (iterate o (k - 1) (kernel_weights o (ro_h_fs o)) None smpls) /\
  nth r (rf_h (rd_run o k)) None = option_map fst (snd (iterate o (k - 1) (kernel_weights o (ro_h_fs o)) None smpls)).
Proof.
  intros H. unfold rd_run, aggregate_rd. cbn [rf_res rf_h]. split.
  - unfold res_at. apply nth_error_nth. rewrite map_map. erewrite map_nth_error; [reflexivity|exact H].
  - apply nth_error_nth. rewrite map_map. erewrite map_nth_error; [reflexivity|exact H].
Qed.
Lemma run_repetition o k r smpls : nth_error (ro_smpls o) r = Some smpls -> (1 <= k)%nat ->
  exists (W : nat -> nat -> R) hb, W 0%nat = kernel_weights o (ro_h_fs o) /\
  (forall t, (S t < k)%nat -> W (S t) = kernel_weights o (Rmax (fst (rr_h (fit_rdd o (W t) smpls None))) (snd (rr_h (fit_rdd o (W t) smpls None))))) /\
  (k = 1%nat -> hb = None) /\
  (forall t, k = S (S t) -> hb = let r := fit_rdd o (W t) smpls None in Some (Rmax (fst (rr_h r)) (snd (rr_h r)), Rmax (fst (rr_b r)) (snd (rr_b r)))) /\
  res_at (rf_res (rd_run o k)) r = fit_rdd o (W (k - 1)%nat) smpls hb /\ nth r (rf_h (rd_run o k)) None = option_map fst hb.
Proof.
  intros H Hk. destruct (run_rep o k r smpls H) as [E1 E2]. destruct (iterate_spec o smpls (k - 1) (kernel_weights o (ro_h_fs o)) None) as (W & E0 & Es & Eb & Ef).
  exists W, (snd (iterate o (k - 1) (kernel_weights o (ro_h_fs o)) None smpls)). split; [exact E0|]. split; [intros t Ht; apply Es; lia|].
  split; [intros ->; exact Eb|]. split; [|split; [rewrite E1; exact Ef|exact E2]].
  intros t ->. cbn [Nat.sub] in Eb |- *. rewrite Eb. reflexivity.
Qed.
Lemma run_coef o k j : rf_coef (rd_run o k) j = medianf (ro_n_rep o) (fun r => rr_coef (res_at (rf_res (rd_run o k)) r) j).
Proof. rewrite <- (run_len o k). reflexivity. Qed.
Lemma run_se o k j : rf_se (rd_run o k) j = sqrt (medianf (ro_n_rep o) (fun r => let x := res_at (rf_res (rd_run o k)) r in
  (rr_se x j) ^ 2 + (rr_coef x j - rf_coef (rd_run o k) j) ^ 2 / INR (fst (rr_n x) + snd (rr_n x)))).
Proof. rewrite <- (run_len o k). reflexivity. Qed.
Lemma one_repetition o k smpls j : ro_smpls o = [smpls] -> let x := res_at (rf_res (rd_run o k)) 0 in
  0 <= rr_se x j -> rf_coef (rd_run o k) j = rr_coef x j /\ rf_se (rd_run o k) j = rr_se x j.
Proof.
  intros E x Hs. assert (En : ro_n_rep o = 1%nat) by (unfold ro_n_rep; rewrite E; reflexivity).
  assert (Ec : rf_coef (rd_run o k) j = rr_coef x j) by (rewrite run_coef, En; apply medianf_one).
  split; [exact Ec|]. rewrite run_se, En, medianf_one. cbv zeta. fold x. rewrite Ec. unfold Rminus. rewrite Rplus_opp_r.
  replace (rr_se x j ^ 2 + 0 ^ 2 / INR (fst (rr_n x) + snd (rr_n x))) with (Rsqr (rr_se x j)); [apply sqrt_Rsqr; exact Hs|]. unfold Rsqr, Rdiv. ring.
Qed.
Lemma se_at_least o k j : (0 < ro_n_rep o)%nat -> forall c, 0 <= c -> (forall r, (r < ro_n_rep o)%nat -> c <= rr_se (res_at (rf_res (rd_run o k)) r) j) ->
  c <= rf_se (rd_run o k) j.
Proof.
  intros Hn c Hc H. rewrite run_se. rewrite <- (sqrt_Rsqr c) by exact Hc. apply sqrt_le_1_alt. apply medianf_ge; [exact Hn|]. intros r Hr. cbv zeta.
  specialize (H r Hr). set (x := res_at _ r) in *. assert (0 <= (rr_coef x j - rf_coef (rd_run o k) j) ^ 2 / INR (fst (rr_n x) + snd (rr_n x))).
  { destruct (fst (rr_n x) + snd (rr_n x))%nat as [|m]; [cbn [INR]; unfold Rdiv; rewrite Rinv_0; lra|].
    apply div_nonneg'; [apply lt_0_INR; lia|apply pow2_ge_0]. }
  unfold Rsqr. nra.
Qed.

(** Calls. *)
Lemma fit_call_ok o st k : is_int k = true -> (1 <= int_val k)%Z -> rd_fit_call o st k = (Some (rd_run o (Z.to_nat (int_val k))), Ok tt).
Proof. intros E L. unfold rd_fit_call. rewrite E. replace (Z.ltb (int_val k) 1) with false; [reflexivity|]. symmetry. apply Z.ltb_ge. exact L. Qed.
Lemma fit_call_rejects o st k : (is_int k = false -> rd_fit_call o st k = (st, Err TypeError)) /\
  (is_int k = true -> (int_val k < 1)%Z -> rd_fit_call o st k = (st, Err ValueError)).
Proof.
  split; [intros E; unfold rd_fit_call; rewrite E; reflexivity|]. intros E L. unfold rd_fit_call. rewrite E.
  replace (Z.ltb (int_val k) 1) with true; [reflexivity|]. symmetry. apply Z.ltb_lt. exact L.
Qed.
Lemma last_fit_decides o st calls k rest : is_int k = true -> (1 <= int_val k)%Z ->
  (forall c, In c rest -> match c with CallFit j => is_int j = false \/ (int_val j < 1)%Z | CallConfint _ => True end) ->
  fold_left (rd_step o) (calls ++ CallFit k :: rest) st = Some (rd_run o (Z.to_nat (int_val k))).
Proof.
  intros E L H. rewrite fold_left_app. cbn [fold_left rd_step]. rewrite fit_call_ok by assumption. cbn [fst].
  generalize (Some (rd_run o (Z.to_nat (int_val k)))) as s. induction rest as [|c r IH]; intro s; [reflexivity|]. cbn [fold_left].
  rewrite IH by (intros; apply H; right; assumption). pose proof (H c (or_introl eq_refl)) as Hc. destruct c as [j|l]; [|reflexivity].
  cbn [rd_step]. destruct (fit_call_rejects o s j) as [R1 R2]. destruct (is_int j) eqn:Ej; [|rewrite R1 by reflexivity; reflexivity].
  destruct Hc as [Hc|Hc]; [discriminate|]. rewrite R2 by (reflexivity || exact Hc). reflexivity.
Qed.

(** Intervals. *)
Lemma rd_confint_inv ppf f level ci : rd_confint ppf (Some f) level = Ok ci -> exists lv g, level = PFloat lv /\ 0 < lv < 1 /\ ci = Some g /\
  forall j, g j = (medianf (length (rf_res f)) (fun r => rr_coef (res_at (rf_res f) r) j - rr_se (res_at (rf_res f) r) j * ppf (1 - (1 - lv) / 2)),
                   medianf (length (rf_res f)) (fun r => rr_coef (res_at (rf_res f) r) j + rr_se (res_at (rf_res f) r) j * ppf (1 - (1 - lv) / 2))).
Proof.
  unfold rd_confint. destruct level as [lv| | | | | |]; try discriminate. unfold require. destruct (negb _) eqn:E; [|discriminate].
  apply Bool.negb_true_iff, Bool.orb_false_iff in E. destruct E as [E1 E2]. apply rleb_false in E1, E2. intros H. injection H as <-.
  eexists lv, _. split; [reflexivity|]. split; [lra|]. split; [reflexivity|]. reflexivity.
Qed.
Lemma rd_ci_total ppf st lv : 0 < lv < 1 -> exists ci, rd_confint ppf st (PFloat lv) = Ok ci.
Proof.
  intros H. unfold rd_confint, require. replace (negb (rleb lv 0 || rleb 1 lv)) with true.
  - destruct st; eexists; reflexivity.
  - symmetry. apply Bool.negb_true_iff, Bool.orb_false_iff. split; apply rleb_false; lra.
Qed.
Section Intervals.
  Variables (ppf : R -> R) (o : rd_obj) (k : nat).
  Let f := rd_run o k.
  Hypothesis Hp : ppf_ok ppf.
  Hypothesis Hs : forall r j, 0 <= rr_se (res_at (rf_res f) r) j.
  Lemma rd_ci_contains lv g : rd_confint ppf (Some f) (PFloat lv) = Ok (Some g) -> forall j, fst (g j) <= rf_coef f j <= snd (g j).
  Proof.
    intros H j. destruct (rd_confint_inv _ _ _ _ H) as (lv' & g' & E1 & L & E2 & Eg). injection E1 as <-. injection E2 as <-.
    rewrite Eg. cbn [fst snd]. assert (0 <= ppf (1 - (1 - lv) / 2)) by (apply Hp; lra).
    assert (P : forall r, 0 <= rr_se (res_at (rf_res f) r) j * ppf (1 - (1 - lv) / 2)) by (intro r; apply Rmult_le_pos; [apply Hs|assumption]).
    change (rf_coef f j) with (medianf (length (rf_res f)) (fun r => rr_coef (res_at (rf_res f) r) j)).
    split; apply medianf_mono; intros r _; specialize (P r); lra.
  Qed.
  Lemma rd_ci_nested lv lv' g g' : lv <= lv' -> rd_confint ppf (Some f) (PFloat lv) = Ok (Some g) -> rd_confint ppf (Some f) (PFloat lv') = Ok (Some g') ->
    forall j, fst (g' j) <= fst (g j) /\ snd (g j) <= snd (g' j).
  Proof.
    intros Hl H H' j. destruct (rd_confint_inv _ _ _ _ H) as (l1 & g1 & E1 & L & E2 & Eg). injection E1 as <-. injection E2 as <-.
    destruct (rd_confint_inv _ _ _ _ H') as (l1 & g1 & E1 & L' & E2 & Eg'). injection E1 as <-. injection E2 as <-.
    rewrite Eg, Eg'. cbn [fst snd]. assert (M : ppf (1 - (1 - lv) / 2) <= ppf (1 - (1 - lv') / 2)) by (apply Hp; lra).
    assert (P : forall r, rr_se (res_at (rf_res f) r) j * ppf (1 - (1 - lv) / 2) <= rr_se (res_at (rf_res f) r) j * ppf (1 - (1 - lv') / 2)) by (intro r; apply Rmult_le_compat_l; [apply Hs|exact M]).
    split; apply medianf_mono; intros r _; specialize (P r); lra.
  Qed.
End Intervals.
Lemma rd_unfitted ppf lv : 0 < lv < 1 -> rd_confint ppf None (PFloat lv) = Ok None.
Proof.
  intros H. unfold rd_confint, require. replace (negb (rleb lv 0 || rleb 1 lv)) with true; [reflexivity|].
  symmetry. apply Bool.negb_true_iff, Bool.orb_false_iff. split; apply rleb_false; lra.
Qed.
Lemma bandwidth_one_iteration o r smpls : nth_error (ro_smpls o) r = Some smpls -> nth r (rf_h (rd_run o 1)) None = None.
Proof. intros H. destruct (run_rep o 1 r smpls H) as [_ E]. rewrite E. reflexivity. Qed.

(** Two repetitions on four rows, constant learner, final stage: mean of the
    adjusted outcome. *)
Definition rd_example : rd_obj := {|
  ro_n := 4; ro_y := INR; ro_d := fun i => INR (i / 2); ro_ty := DFloat; ro_td := DInt; ro_score := fun i => INR i - 3 / 2; ro_x := fun _ => [];
  ro_fuzzy := false; ro_spec := CutoffAndScore; ro_kernel := kernel Triangular; ro_h_fs := 2;
  ro_smpls := [[([2; 3], [0; 1]); ([0; 1], [2; 3])]; [([1; 3], [0; 2]); ([0; 2], [1; 3])]]%nat;
  ro_ml_g := fun _ _ => 1; ro_ml_m := fun _ _ => 1; ro_junk := fun _ => 0;
  ro_robust := fun y _ _ => {| rr_coef := fun _ => y 0%nat; rr_se := fun _ => 1; rr_ci := fun _ _ => 0; rr_h := (1, 2); rr_b := (2, 2); rr_n := (2%nat, 2%nat) |} |}.

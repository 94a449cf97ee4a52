(** What constructed regression discontinuity objects estimate. *)
From Verif Require Import L_DataProps.
From Verif Require Export L_RddInit.
From Coq Require Import Lia Lra FunctionalExtensionality Classical.
Local Open Scope R_scope.
Local Open Scope res_scope.
Local Open Scope string_scope.

(** ** Weights of named kernels *)
Lemma kernel_within k x h : 0 < h -> (0 < kernel k x h <-> within k x h).
Proof.
  intro Hh. unfold kernel, within. destruct k.
  - unfold rleb. destruct (Rle_dec (Rabs x) h); split; intro; lra.
  - split.
    + intro H. apply Rnot_le_lt. intro N. assert ((h - Rabs x) / h <= 0).
      { unfold Rdiv. rewrite <- (Rmult_0_l (/ h)). apply Rmult_le_compat_r; [left; apply Rinv_0_lt_compat; exact Hh|lra]. }
      rewrite Rmax_left in H by assumption. lra.
    + intro H. assert (0 < (h - Rabs x) / h) by (apply Rdiv_lt_0_compat; lra). unfold Rmax. destruct (Rle_dec 0 _); lra.
  - unfold rltb. destruct (Rlt_dec (Rabs x) h) as [H|H]; [|split; intro; lra]. split; [intros _; exact H|]. intros _.
    rewrite (sq_abs x h Hh). assert (0 <= Rabs x / h) by (apply div_nonneg'; [exact Hh|apply Rabs_pos]). assert (Rabs x / h < 1) by (apply Rmult_lt_reg_r with h; [exact Hh|]; field_simplify; lra).
    assert ((Rabs x / h) ^ 2 < 1) by (cbn; nra). lra.
Qed.
Lemma weight_left_named n score k h : 0 < h -> (weight_left n score (fun i => kernel k (score i) h) <> 0 <-> exists i, (i < n)%nat /\ score i < 0 /\ within k (score i) h).
Proof.
  intro Hh. assert (Nn : forall i, (i < n)%nat -> 0 <= (if Rlt_dec (score i) 0 then kernel k (score i) h else 0)) by (intros i _; destruct (Rlt_dec _ _); [apply kernel_range; exact Hh|lra]). split.
  - intro H. apply NNPP. intro N. apply H. apply sumf_zero. intros i Hi. destruct (Rlt_dec (score i) 0) as [a|a]; [|reflexivity].
    destruct (kernel_range k (score i) h Hh) as ([b|b] & _); [|auto]. exfalso. apply N. exists i. split; [exact Hi|]. split; [exact a|]. apply (kernel_within k _ h Hh), b.
  - intros (i & Hi & A & B). apply Rgt_not_eq. apply sumf_pos; [exact Nn|]. exists i. split; [exact Hi|]. destruct (Rlt_dec (score i) 0); [|contradiction]. apply kernel_within; assumption.
Qed.
Lemma weight_right_named n score k h : 0 < h -> (weight_right n score (fun i => kernel k (score i) h) <> 0 <-> exists i, (i < n)%nat /\ 0 < score i /\ within k (score i) h).
Proof.
  intro Hh. assert (Nn : forall i, (i < n)%nat -> 0 <= (if Rlt_dec 0 (score i) then kernel k (score i) h else 0)) by (intros i _; destruct (Rlt_dec _ _); [apply kernel_range; exact Hh|lra]). split.
  - intro H. apply NNPP. intro N. apply H. apply sumf_zero. intros i Hi. destruct (Rlt_dec 0 (score i)) as [a|a]; [|reflexivity].
    destruct (kernel_range k (score i) h Hh) as ([b|b] & _); [|auto]. exfalso. apply N. exists i. split; [exact Hi|]. split; [exact a|]. apply (kernel_within k _ h Hh), b.
  - intros (i & Hi & A & B). apply Rgt_not_eq. apply sumf_pos; [exact Nn|]. exists i. split; [exact Hi|]. destruct (Rlt_dec 0 (score i)); [|contradiction]. apply kernel_within; assumption.
Qed.
Lemma nothing_left n score w : (forall i, (i < n)%nat -> 0 <= score i) -> weight_left n score w = 0.
Proof. intro H. apply sumf_zero. intros i Hi. specialize (H i Hi). destruct (Rlt_dec (score i) 0); [lra|reflexivity]. Qed.
Lemma nothing_right n score w : (forall i, (i < n)%nat -> score i <= 0) -> weight_right n score w = 0.
Proof. intro H. apply sumf_zero. intros i Hi. specialize (H i Hi). destruct (Rlt_dec 0 (score i)); [lra|reflexivity]. Qed.

(** ** Learners that ignore the weights *)
Lemma nuisance_weightless t l sp score x v w w' junk smpls : weightless l -> M_Rdd.fit_nuisance t l sp score x v w junk smpls = M_Rdd.fit_nuisance t l sp score x v w' junk smpls.
Proof.
  intro H. unfold M_Rdd.fit_nuisance. apply functional_extensionality. intro i. cbv zeta.
  assert (Q : forall fo : fold, l (map (fun i => ((z_sample sp (score i) ++ x i)%list, v i, w i)) (fst fo)) = l (map (fun i => ((z_sample sp (score i) ++ x i)%list, v i, w' i)) (fst fo))).
  { intro fo. apply H. rewrite !map_map. reflexivity. }
  assert (Sx : (fun (mu : (nat -> R) * (nat -> R)) (fo : fold) =>
     (write_rows (snd fo) (fun i => cast t (l (map (fun i => ((z_sample sp (score i) ++ x i)%list, v i, w i)) (fst fo)) (z_left sp ++ x i)%list)) (fst mu),
      write_rows (snd fo) (fun i => cast t (l (map (fun i => ((z_sample sp (score i) ++ x i)%list, v i, w i)) (fst fo)) (z_right sp ++ x i)%list)) (snd mu))) =
    (fun mu fo =>
     (write_rows (snd fo) (fun i => cast t (l (map (fun i => ((z_sample sp (score i) ++ x i)%list, v i, w' i)) (fst fo)) (z_left sp ++ x i)%list)) (fst mu),
      write_rows (snd fo) (fun i => cast t (l (map (fun i => ((z_sample sp (score i) ++ x i)%list, v i, w' i)) (fst fo)) (z_right sp ++ x i)%list)) (snd mu)))).
  { apply functional_extensionality. intro mu. apply functional_extensionality. intro fo. rewrite (Q fo). reflexivity. }
  rewrite Sx. reflexivity.
Qed.
Lemma fit_weightless o w w' smpls hb : weightless (ro_ml_g o) -> (ro_fuzzy o = true -> weightless (ro_ml_m o)) -> fit_rdd o w smpls hb = fit_rdd o w' smpls hb.
Proof.
  intros G M. unfold fit_rdd. assert (Y : adjusted_y o w smpls = adjusted_y o w' smpls) by (apply functional_extensionality; intro i; unfold adjusted_y; rewrite (nuisance_weightless _ _ _ _ _ _ w w' _ _ G); reflexivity).
  rewrite Y. destruct (ro_fuzzy o) eqn:F; [|reflexivity].
  assert (D : adjusted_d o w smpls = adjusted_d o w' smpls) by (apply functional_extensionality; intro i; unfold adjusted_d; rewrite (nuisance_weightless _ _ _ _ _ _ w w' _ _ (M eq_refl)); reflexivity).
  rewrite D. reflexivity.
Qed.
Lemma iterate_weightless o smpls w0 k : weightless (ro_ml_g o) -> (ro_fuzzy o = true -> weightless (ro_ml_m o)) -> forall w hb,
  iterate o (S k) w hb smpls = let r := fit_rdd o w0 smpls None in let hb' := Some (larger (rr_h r), larger (rr_b r)) in (fit_rdd o w0 smpls hb', hb').
Proof.
  intros G M. induction k as [|k IH]; intros w hb.
  - cbn [iterate]. cbv zeta. rewrite (fit_weightless o w w0 smpls None G M). unfold larger. f_equal. apply fit_weightless; assumption.
  - change (iterate o (S (S k)) w hb smpls) with (let r := fit_rdd o w smpls None in iterate o (S k) (kernel_weights o (Rmax (fst (rr_h r)) (snd (rr_h r)))) (Some (Rmax (fst (rr_h r)) (snd (rr_h r)), Rmax (fst (rr_b r)) (snd (rr_b r)))) smpls).
    cbv zeta. apply IH.
Qed.
(** More than two iterations change nothing. *)
Lemma run_weightless o k : weightless (ro_ml_g o) -> (ro_fuzzy o = true -> weightless (ro_ml_m o)) -> (2 <= k)%nat -> rd_run o k = rd_run o 2.
Proof.
  intros G M K. unfold rd_run. assert (Q : map (iterate o (k - 1) (kernel_weights o (ro_h_fs o)) None) (ro_smpls o) = map (iterate o (2 - 1) (kernel_weights o (ro_h_fs o)) None) (ro_smpls o)).
  { apply map_ext. intro sm. destruct k as [|[|k]]; [lia|lia|]. replace (S (S k) - 1)%nat with (S k) by lia. change (2 - 1)%nat with 1%nat. rewrite !(iterate_weightless o sm (fun _ => 0) _ G M). reflexivity. }
  rewrite Q. reflexivity.
Qed.
(** Two objects that differ in kernel and first-stage bandwidth only. *)
Definition same_but_weights (o o' : rd_obj) : Prop :=
  ro_y o = ro_y o' /\ ro_d o = ro_d o' /\ ro_ty o = ro_ty o' /\ ro_td o = ro_td o' /\ ro_score o = ro_score o' /\ ro_x o = ro_x o' /\ ro_fuzzy o = ro_fuzzy o' /\ ro_spec o = ro_spec o' /\
  ro_smpls o = ro_smpls o' /\ ro_ml_g o = ro_ml_g o' /\ (ro_fuzzy o = true -> ro_ml_m o = ro_ml_m o') /\ ro_junk o = ro_junk o' /\ ro_robust o = ro_robust o'.
Lemma fit_same o o' w sm hb : same_but_weights o o' -> fit_rdd o w sm hb = fit_rdd o' w sm hb.
Proof.
  intros (E1 & E2 & E3 & E4 & E5 & E6 & E7 & E8 & E9 & E10 & E11 & E12 & E13). unfold fit_rdd, adjusted_y, adjusted_d. rewrite E1, E2, E3, E4, E5, E6, E8, E10, E12, E13.
  rewrite <- E7 in *. destruct (ro_fuzzy o); [rewrite (E11 eq_refl)|]; reflexivity.
Qed.
Lemma run_same o o' k : same_but_weights o o' -> weightless (ro_ml_g o) -> (ro_fuzzy o = true -> weightless (ro_ml_m o)) -> rd_run o k = rd_run o' k.
Proof.
  intros Sm G M. assert (G' : weightless (ro_ml_g o')) by (destruct Sm as (_ & _ & _ & _ & _ & _ & _ & _ & _ & <- & _); exact G).
  assert (M' : ro_fuzzy o' = true -> weightless (ro_ml_m o')). { destruct Sm as (_ & _ & _ & _ & _ & _ & Fz & _ & _ & _ & Em & _). rewrite <- Fz. intro F. rewrite <- (Em F). exact (M F). }
  unfold rd_run. assert (Es : ro_smpls o = ro_smpls o') by apply Sm. rewrite <- Es.
  assert (Q : map (iterate o (k - 1) (kernel_weights o (ro_h_fs o)) None) (ro_smpls o) = map (iterate o' (k - 1) (kernel_weights o' (ro_h_fs o')) None) (ro_smpls o)).
  { apply map_ext. intro sm. destruct (k - 1)%nat as [|j].
    - cbn [iterate]. rewrite (fit_same _ _ _ _ _ Sm). f_equal. apply fit_weightless; assumption.
    - rewrite (iterate_weightless o sm (fun _ => 0) j G M), (iterate_weightless o' sm (fun _ => 0) j G' M'). cbv zeta. rewrite !(fit_same _ _ _ _ _ Sm). reflexivity. }
  rewrite Q. reflexivity.
Qed.
(** A sharp design does not look at the treatment column. *)
Lemma run_sharp o o' k : ro_fuzzy o = false -> ro_fuzzy o' = false -> ro_y o = ro_y o' -> ro_ty o = ro_ty o' -> ro_score o = ro_score o' -> ro_x o = ro_x o' -> ro_spec o = ro_spec o' ->
  ro_kernel o = ro_kernel o' -> ro_h_fs o = ro_h_fs o' -> ro_smpls o = ro_smpls o' -> ro_ml_g o = ro_ml_g o' -> ro_junk o = ro_junk o' -> ro_robust o = ro_robust o' -> rd_run o k = rd_run o' k.
Proof.
  intros F F' E1 E2 E3 E4 E5 E6 E7 E8 E9 E10 E11.
  assert (Ft : forall w sm hb, fit_rdd o w sm hb = fit_rdd o' w sm hb) by (intros; unfold fit_rdd, adjusted_y; rewrite F, F', E1, E2, E3, E4, E5, E9, E10, E11; reflexivity).
  assert (Kw : forall h, kernel_weights o h = kernel_weights o' h) by (intro; unfold kernel_weights; rewrite E3, E6; reflexivity).
  assert (It : forall j w hb sm, iterate o j w hb sm = iterate o' j w hb sm) by (induction j as [|j IH]; intros; cbn [iterate]; rewrite Ft; [reflexivity|cbv zeta; rewrite Kw; apply IH]).
  unfold rd_run. rewrite <- E8, <- E7, Kw. rewrite (map_ext _ _ (fun sm => It (k - 1)%nat (kernel_weights o' (ro_h_fs o)) None sm)). reflexivity.
Qed.

Lemma nodup_not {A} (l l' : list A) x : NoDup (l ++ l') -> In x l -> In x l' -> False.
Proof. induction l as [|a l IH]; cbn; intros N H H'; [exact H|]. inversion N as [|? ? Na N']; subst. destruct H as [->|H]; [apply Na, in_or_app; right; exact H'|exact (IH N' H H')]. Qed.
Lemma nodup_left {A} (l l' : list A) : NoDup (l ++ l') -> NoDup l.
Proof. induction l as [|a l IH]; cbn; intros N; [constructor|]. inversion N as [|? ? Na N']; subst. constructor; [intro Q; apply Na, in_or_app; left; exact Q|exact (IH N')]. Qed.

Section RD.
Context {E : Type}.
Variable learn : E -> bool -> rd_learner.
Variable bwselect : vec -> vec -> option vec -> R.
Variable robust : vec -> vec -> option vec -> option (R * R) -> rd_res.
Variable casefold : string -> string.
Variable ty td : dtype.
Variable junk : nat -> R.
Variable g : rng.
Let init := rd_init learn bwselect robust casefold ty td junk g.

(** ** A cutoff at the end of the score *)
Lemma cutoff_at_end f s : S_Data.constructed f s -> forall ml_g ml_m fuzzy cutoff nf nr h spec ka a, rd_learners_ok f s fuzzy ml_g ml_m -> rd_setup bwselect casefold f s fuzzy cutoff nf nr h spec ka a ->
  (forall i, (i < M_Data.frows f)%nat -> 0 <= fs_score a i) \/ (forall i, (i < M_Data.frows f)%nat -> fs_score a i <= 0) ->
  init f s ml_g ml_m fuzzy cutoff nf nr h spec ka = Err ZeroDivisionError.
Proof.
  intros Con ml_g ml_m fuzzy cutoff nf nr h spec ka a Lr Su Q. apply (rd_division learn bwselect robust casefold ty td junk g f s Con). split; [exact Lr|]. exists a. split; [exact Su|].
  destruct Q as [Q|Q]; [left; apply nothing_left, Q|right; apply nothing_right, Q].
Qed.

(** ** Only the distance to the cutoff matters *)
Lemma same_object f f' s s' c : S_Data.constructed f s -> S_Data.constructed f' s' -> M_Data.dd_roles s' = M_Data.dd_roles s -> M_Data.r_d (M_Data.dd_roles s) = [c] ->
  M_Data.c_y s' = M_Data.c_y s /\ M_Data.c_d s' = M_Data.c_d s /\ M_Data.c_x s' = M_Data.c_x s.
Proof.
  intros Con Con' Er Rd. destruct (arrays f s Con) as (Ay & _ & _ & _ & _ & Ad). destruct (arrays f' s' Con') as (Ay' & _ & _ & _ & _ & Ad'). rewrite Er in Ay', Ad'. rewrite Rd in Ad, Ad'. destruct Ad as [Ad|[]], Ad' as [Ad'|[]].
  split; [congruence|]. split; [congruence|]. rewrite (proj1 (features_reachable f s (S_Data.R_new f s Con))), (proj1 (features_reachable f' s' (S_Data.R_new f' s' Con'))). unfold S_Data.features. rewrite Er, Rd, <- Ad, <- Ad'.
  cbn [filter]. rewrite String.eqb_refl. cbn [negb]. destruct (M_Data.dd_other s), (M_Data.dd_other s'); reflexivity.
Qed.
Lemma score_not_elsewhere f s c : S_Data.constructed f s -> M_Data.r_s (M_Data.dd_roles s) = Some c ->
  M_Data.c_y s <> c /\ M_Data.c_d s <> c /\ forall c', In c' (M_Data.c_x s) -> c' <> c.
Proof.
  intros Con Rs. destruct (arrays f s Con) as (Ay & _ & _ & _ & _ & Ad). destruct (roles_reachable f s (S_Data.R_new f s Con)) as (Nd & _). unfold S_Data.role_columns in Nd. rewrite Rs in Nd. cbn [M_Data.opt1] in Nd.
  assert (N : forall c', In c' ([M_Data.r_y (M_Data.dd_roles s)] ++ M_Data.r_d (M_Data.dd_roles s) ++ M_Data.r_x (M_Data.dd_roles s)) -> c' <> c).
  { intros c' H ->. rewrite !app_assoc in Nd. apply nodup_left in Nd. apply (nodup_not _ _ c Nd); [rewrite !in_app_iff in *; tauto|left; reflexivity]. }
  split; [rewrite Ay; apply N; left; reflexivity|]. split; [apply N; rewrite !in_app_iff; auto|].
  intros c' H. apply N. rewrite (proj1 (features_reachable f s (S_Data.R_new f s Con))) in H. unfold S_Data.features in H. rewrite !in_app_iff. apply in_app_or in H as [H|H]; [auto|].
  right. left. destruct (M_Data.dd_other s); [|destruct H]. apply filter_In in H. tauto.
Qed.
Lemma col_same f f' c : M_Data.fcell f' c = M_Data.fcell f c -> col f' c = col f c.
Proof. intro H. unfold col. rewrite H. reflexivity. Qed.
Lemma feats_same f f' l : (forall c, In c l -> M_Data.fcell f' c = M_Data.fcell f c) -> feats f' l = feats f l.
Proof.
  intro H. apply functional_extensionality. intro i. unfold feats. induction l as [|c l IH]; [reflexivity|]. cbn. rewrite (H c (or_introl eq_refl)), IH; [reflexivity|]. intros c' Hc. apply H. right. exact Hc.
Qed.
Lemma existsb_same {A} (p q : A -> bool) l : (forall x, In x l -> p x = q x) -> existsb p l = existsb q l.
Proof. intro H. induction l as [|x l IH]; [reflexivity|]. cbn. rewrite (H x (or_introl eq_refl)), IH; [reflexivity|]. intros y Hy. apply H. right. exact Hy. Qed.
Lemma rd_shift f f' s s' c a cutoff cutoff' c0 : S_Data.constructed f s -> S_Data.constructed f' s' -> M_Data.dd_roles s' = M_Data.dd_roles s -> (exists d, M_Data.r_d (M_Data.dd_roles s) = [d]) -> M_Data.r_s (M_Data.dd_roles s) = Some c -> M_Data.frows f' = M_Data.frows f ->
  (forall c', c' <> c -> M_Data.fcell f' c' = M_Data.fcell f c') -> (forall i, col f' c i = col f c i + a) ->
  level_number cutoff = Some c0 -> level_number cutoff' = Some (c0 + a) ->
  (exists i, (i < M_Data.frows f)%nat /\ forall z, col f c i <> IZR z) -> (exists i, (i < M_Data.frows f)%nat /\ forall z, col f' c i <> IZR z) ->
  forall ml_g ml_m fuzzy nf nr h spec ka, init f' s' ml_g ml_m fuzzy cutoff' nf nr h spec ka = init f s ml_g ml_m fuzzy cutoff nf nr h spec ka.
Proof.
  intros Con Con' Er (dc & Rd) Rs En Ec Es L1 L2 F1 F2 ml_g ml_m fuzzy nf nr h spec ka. destruct (score_not_elsewhere f s c Con Rs) as (Ny & Nd & Nx). destruct (arrays f s Con) as (_ & _ & _ & As & _).
  destruct (same_object f f' s s' dc Con Con' Er Rd) as (Qy & Qd & Qx). destruct (arrays f' s' Con') as (_ & _ & _ & As' & _). rewrite Er in As'.
  assert (Cy : col f' (M_Data.c_y s) = col f (M_Data.c_y s)) by (apply col_same, Ec, Ny). assert (Cd : col f' (M_Data.c_d s) = col f (M_Data.c_d s)) by (apply col_same, Ec, Nd).
  assert (Cx : feats f' (M_Data.c_x s) = feats f (M_Data.c_x s)) by (apply feats_same; intros c' Hc; apply Ec, Nx, Hc).
  assert (Zd : zero_one_col f' (M_Data.c_d s) = zero_one_col f (M_Data.c_d s)) by (unfold zero_one_col, M_Data.col_all; rewrite En, (Ec _ Nd); reflexivity).
  assert (Sc : (fun i => col f' c i - (c0 + a)) = (fun i => col f c i - c0)) by (apply functional_extensionality; intro i; rewrite Es; ring).
  assert (By : M_Data.dd_by s' = M_Data.dd_by s).
  { destruct (binary_constructed f s Con) as (B & _). destruct (binary_constructed f' s' Con') as (B' & _). rewrite Er in B'. destruct (arrays f s Con) as (Ay & _). rewrite Ay in Ny.
    assert (X : S_Data.zero_one_column f' (M_Data.r_y (M_Data.dd_roles s)) <-> S_Data.zero_one_column f (M_Data.r_y (M_Data.dd_roles s))) by (unfold S_Data.zero_one_column; rewrite En, (Ec _ Ny); tauto).
    rewrite X, <- B in B'. destruct (M_Data.dd_by s) eqn:Q1, (M_Data.dd_by s') eqn:Q2; try reflexivity; [apply B'; reflexivity|symmetry; apply B'; reflexivity]. }
  assert (Nz : no_z s' = no_z s) by (unfold no_z; rewrite Er; reflexivity). assert (Ot : one_treat s' = one_treat s) by (unfold one_treat; rewrite Er; reflexivity).
  assert (D : check_rd_data f' s' cutoff' = Ok (col f' c, c0 + a) /\ check_rd_data f s cutoff = Ok (col f c, c0) \/ exists e, check_rd_data f' s' cutoff' = Err e /\ check_rd_data f s cutoff = Err e).
  { unfold check_rd_data. rewrite As, As', Rs, Nz, Ot, Qd. change (cutoff_number cutoff) with (level_number cutoff). change (cutoff_number cutoff') with (level_number cutoff'). rewrite L1, L2, En.
    unfold require. rewrite (proj2 (fractional _ _) F1), (proj2 (fractional _ _) F2), Zd.
    rewrite (existsb_same (fun i => rleb (col f' c i) (c0 + a)) (fun i => rleb (col f c i) c0)), (existsb_same (fun i => rleb (c0 + a) (col f' c i)) (fun i => rleb c0 (col f c i))).
    2,3: intros i _; rewrite Es; unfold rleb; destruct (Rle_dec _ _), (Rle_dec _ _); try reflexivity; lra.
    destruct (_ && _); [|right; eauto]. destruct (_ && _); [|right; eauto]. destruct (no_z s); [left; split; reflexivity|right; eauto]. }
  unfold init, rd_init. destruct D as [(-> & ->)|(e & -> & ->)]; [|reflexivity]. cbn [bind]. unfold check_effect_sign, check_rd_learners. rewrite Qy, Qd, Qx, By, Cy, Cd, Cx, En.
  change (fun i : nat => (fun i0 : nat => col f' c i0 - (c0 + a)) i) with (fun i : nat => col f' c i - (c0 + a)).
  rewrite Sc. assert (Sp : forall i, col f' c i - (c0 + a) = col f c i - c0) by (intro i; rewrite Es; ring). 
  assert (K : forall (k : R -> R -> R) hh, (fun i => k (col f' c i - (c0 + a)) hh) = (fun i => k (col f c i - c0) hh)) by (intros; apply functional_extensionality; intro i; rewrite Sp; reflexivity).
  assert (B1 : (fun i => rltb (col f' c i - (c0 + a)) 0) = (fun i => rltb (col f c i - c0) 0)) by (apply functional_extensionality; intro i; rewrite Sp; reflexivity).
  assert (B2 : (fun i => rltb 0 (col f' c i - (c0 + a))) = (fun i => rltb 0 (col f c i - c0))) by (apply functional_extensionality; intro i; rewrite Sp; reflexivity).
  rewrite B1, B2. rewrite (existsb_same (fun i => negb (reqb (col f (M_Data.c_d s) i) (intended (col f' c i - (c0 + a))))) (fun i => negb (reqb (col f (M_Data.c_d s) i) (intended (col f c i - c0))))) by (intros; rewrite Sp; reflexivity).
  f_equal. apply functional_extensionality. intros [ls w2]. f_equal. apply functional_extensionality. intros _. f_equal. apply functional_extensionality. intro hh. f_equal. apply functional_extensionality. intro sp. f_equal. apply functional_extensionality. intro k.
  rewrite K. reflexivity.
Qed.

(** ** Sharp designs and the treatment column *)
Lemma rd_sharp f f' s s' c ml_g ml_m ml_m' cutoff nf nr h spec ka o o' ws ws' k : S_Data.constructed f s -> S_Data.constructed f' s' -> M_Data.dd_roles s' = M_Data.dd_roles s -> M_Data.r_d (M_Data.dd_roles s) = [c] -> M_Data.frows f' = M_Data.frows f ->
  (forall c', c' <> c -> M_Data.fcell f' c' = M_Data.fcell f c') ->
  init f s ml_g ml_m false cutoff nf nr h spec ka = Ok (o, ws) -> init f' s' ml_g ml_m' false cutoff nf nr h spec ka = Ok (o', ws') -> ro_smpls o = ro_smpls o' -> rd_run o k = rd_run o' k.
Proof.
  intros Con Con' Er Rd En Ec H H' Es. destruct (same_object f f' s s' c Con Con' Er Rd) as (Qy & Qd & Qx). unfold init in H, H'. rewrite (init_split learn bwselect robust casefold ty td junk g f s) in H. rewrite (init_split learn bwselect robust casefold ty td junk g f' s') in H'.
  bi H p Pre. destruct p as ((((((sc & c0) & ls) & w2) & hh) & sp) & kk). bi H' p' Pre'. destruct p' as ((((((sc' & c0') & ls') & w2') & hh') & sp') & kk').
  unfold rd_post in H, H'. cbv zeta in H, H'. bi H w3 Sg. bi H sm Rsm. apply ok_inj in H. injection H as <- _. bi H' w3' Sg'. bi H' sm' Rsm'. apply ok_inj in H'. injection H' as <- _. cbn [ro_smpls] in Es. subst sm'.
  unfold rd_pre in Pre, Pre'. bi Pre q D. destruct q as [a b]. bi Pre q Lr. destruct q as [ls0 w0]. bi Pre u Rs. bi Pre h0 B. bi Pre sp0 Sp. bi Pre k0 K. apply ok_inj in Pre. injection Pre as -> -> -> -> -> -> ->.
  bi Pre' q D'. destruct q as [a b]. bi Pre' q Lr'. destruct q as [ls0 w0]. bi Pre' u' Rs'. bi Pre' h0 B'. bi Pre' sp0 Sp'. bi Pre' k0 K'. apply ok_inj in Pre'. injection Pre' as -> -> -> -> -> -> ->.
  apply learners_val in Lr as (V & _). apply learners_val in Lr' as (V' & _). assert (sp = sp') by congruence. assert (kk = kk') by congruence. subst sp' kk'.
  apply (data_iff f s Con) in D. apply (data_iff f' s' Con') in D'. unfold rd_data_ok, running_variable in D'. rewrite Er in D'. destruct D as ((cs & Rc & ->) & _ & Lv & _). destruct D' as ((cs' & Rc' & ->) & _ & Lv' & _). assert (cs' = cs) by congruence. assert (c0' = c0) by congruence. subst cs' c0'.
  destruct (arrays f s Con) as (Ay & _ & _ & _ & _ & Ad). rewrite Rd in Ad. destruct Ad as [Ad|[]].
  destruct (roles_reachable f s (S_Data.R_new f s Con)) as (Nd & _). unfold S_Data.role_columns in Nd. rewrite Rd, Rc in Nd. cbn [M_Data.opt1] in Nd.
  assert (N : forall c', In c' (M_Data.r_y (M_Data.dd_roles s) :: cs :: M_Data.r_x (M_Data.dd_roles s)) -> c' <> c).
  { intros c' X ->. cbn [app] in Nd. inversion Nd as [|? ? Ny Nd']; subst. inversion Nd' as [|? ? Nc Nd'']; subst. destruct X as [X|[X|X]].
    - apply Ny. left. symmetry. exact X.
    - apply Nc. rewrite !in_app_iff. cbn [In]. tauto.
    - apply Nc. rewrite !in_app_iff. tauto. }
  assert (Cy : col f' (M_Data.c_y s) = col f (M_Data.c_y s)) by (apply col_same, Ec; rewrite Ay; apply N; left; reflexivity).
  assert (Cs : col f' cs = col f cs) by (apply col_same, Ec, N; right; left; reflexivity).
  assert (Cx : feats f' (M_Data.c_x s) = feats f (M_Data.c_x s)).
  { apply feats_same. intros c' Hc. apply Ec, N. right. right. rewrite (proj1 (features_reachable f s (S_Data.R_new f s Con))) in Hc. unfold S_Data.features in Hc. apply in_app_or in Hc as [Hc|Hc]; [exact Hc|]. exfalso.
    destruct (M_Data.dd_other s); [|destruct Hc]. rewrite Rd, <- Ad in Hc. cbn [filter] in Hc. rewrite String.eqb_refl in Hc. destruct Hc. }
  cbn iota in B, B'. rewrite Qy, Cy, Cs in B'. assert (hh' = hh) by congruence. subst hh'.
  apply run_sharp; cbn [ro_fuzzy ro_y ro_ty ro_score ro_x ro_spec ro_kernel ro_h_fs ro_smpls ro_ml_g ro_junk ro_robust]; try reflexivity; try (symmetry; assumption); try congruence.
  all: rewrite ?Qy, ?Qx, ?Cy, ?Cs, ?Cx; reflexivity.
Qed.

(** ** Learners without weights *)
Lemma rd_global f s ml_g ml_m fuzzy cutoff nf nr h h' spec ka ka' o o' ws ws' : S_Data.constructed f s ->
  init f s ml_g ml_m fuzzy cutoff nf nr h spec ka = Ok (o, ws) -> init f s ml_g ml_m fuzzy cutoff nf nr h' spec ka' = Ok (o', ws') ->
  weightless (ro_ml_g o) -> (fuzzy = true -> weightless (ro_ml_m o)) -> (forall k, rd_run o k = rd_run o' k) /\ forall k, (2 <= k)%nat -> rd_run o k = rd_run o 2.
Proof.
  intros Con H H' G M. unfold init in H, H'. rewrite (init_split learn bwselect robust casefold ty td junk g f s) in H. rewrite (init_split learn bwselect robust casefold ty td junk g f s) in H'.
  bi H p Pre. destruct p as ((((((sc & c0) & ls) & w2) & hh) & sp) & kk). bi H' p' Pre'. destruct p' as ((((((sc' & c0') & ls') & w2') & hh') & sp') & kk').
  unfold rd_post in H, H'. cbv zeta in H, H'. bi H w3 Sg. bi H sm Rsm. apply ok_inj in H. injection H as <- _. bi H' w3' Sg'. bi H' sm' Rsm'. apply ok_inj in H'. injection H' as <- _. 
  cbn [ro_ml_g ro_ml_m] in G, M.
  unfold rd_pre in Pre, Pre'. bi Pre q D. destruct q as [a b]. bi Pre q Lr. destruct q as [ls0 w0]. bi Pre u Rs. bi Pre h0 B. bi Pre sp0 Sp. bi Pre k0 K. apply ok_inj in Pre. injection Pre as -> -> -> -> -> -> ->.
  bi Pre' q D'. destruct q as [a b]. bi Pre' q Lr'. destruct q as [ls0 w0]. bi Pre' u' Rs'. bi Pre' h0 B'. bi Pre' sp0 Sp'. bi Pre' k0 K'. apply ok_inj in Pre'. injection Pre' as -> -> -> -> -> -> ->.
  rewrite D in D'. apply ok_inj in D'. injection D' as <- <-. rewrite Lr in Lr'. apply ok_inj in Lr'. injection Lr' as <- <-. assert (sp' = sp) by congruence. assert (sm' = sm) by congruence. subst sp' sm'.
  split; [|intros k Hk; apply run_weightless; assumption]. intro k. apply run_same; [|assumption|assumption]. unfold same_but_weights. cbn [ro_y ro_d ro_ty ro_td ro_score ro_x ro_fuzzy ro_spec ro_smpls ro_ml_g ro_ml_m ro_junk ro_robust]. repeat (split; [reflexivity|]). reflexivity.
Qed.
Lemma global_weightless {B} (plain : B -> bool -> list (list R * R) -> list R -> R) base proba : weightless (global_rule plain base proba).
Proof. intros t t' H. unfold global_rule. rewrite H. reflexivity. Qed.

(** ** Clusters *)
Lemma rd_drop_clusters f s : init f s = init f (drop_clusters s).
Proof. reflexivity. Qed.
Lemma rd_cluster_split f s ml_g ml_m fuzzy cutoff nf nr h spec ka o ws (cv : nat -> Z) : S_Data.constructed f s -> shuffles g -> init f s ml_g ml_m fuzzy cutoff nf nr h spec ka = Ok (o, ws) ->
  (forall i j, (i < M_Data.frows f)%nat -> (j < M_Data.frows f)%nat -> cv i = cv j) ->
  forall smpls, In smpls (ro_smpls o) -> exists fo i j, In fo smpls /\ In i (fst fo) /\ In j (snd fo) /\ cv i = cv j.
Proof.
  intros Con Sh H One smpls Hs. destruct (proj1 (rd_accepts learn bwselect robust casefold ty td junk g f s Con _ _ _ _ _ _ _ _ _) (ex_intro _ _ H)) as (_ & a & Su & Fo & _).
  destruct (rd_made learn bwselect robust casefold ty td junk g f s Con _ _ _ _ _ _ _ _ _ _ _ Sh H) as (a' & Su' & _ & _ & _ & _ & _ & _ & _ & _ & _ & _ & _ & _ & _ & _ & (_ & St) & _).
  assert (Ea : fs_treatment a' = fs_treatment a). { destruct Su as (v & c0 & D & _). destruct Su' as (v' & c0' & D' & _). rewrite (data_active f s Con _ _ _ _ D), (data_active f s Con _ _ _ _ D'). reflexivity. }
  rewrite Ea in St. destruct (St smpls Hs) as (Ln & (Pm & Pf) & _ & Tr). destruct Fo as (i & Hi & Fi). destruct Su as (v & c0 & _ & _ & _ & F2 & _).
  assert (Ii : In i (flat_map snd smpls)) by (apply (Permutation_in i (Permutation_sym Pm)), in_seq; lia). apply in_flat_map in Ii as (fo & Hf & Hi').
  destruct (Tr fo i Hf Hi ltac:(lia)) as (j & Hj & Ij & _). exists fo, j, i. split; [exact Hf|]. split; [exact Ij|]. split; [exact Hi'|]. apply One; assumption.
Qed.

(** ** Estimation *)
Lemma held_out_split n smpls : proper_split n smpls -> exists fold_of, held_out n smpls fold_of /\ forall i, (i < n)%nat -> tested_only smpls i (fold_of i).
Proof.
  intro P. set (dflt := ([], []) : fold). set (fold_of := fun i => match find (fun fo : fold => existsb (Nat.eqb i) (snd fo)) smpls with Some fo => fo | None => dflt end).
  assert (T : forall i, (i < n)%nat -> tested_only smpls i (fold_of i)).
  { intros i Hi. destruct (proper_tested n smpls i P Hi) as (fo & k & Nk & It & Un). unfold fold_of. destruct (find _ smpls) as [fo'|] eqn:Fd.
    - apply find_some in Fd as (Ff & Fe). apply existsb_exists in Fe as (i' & Hi' & Ei). apply Nat.eqb_eq in Ei. subst i'. apply In_nth_error in Ff as (k' & Nk'). pose proof (Un k' fo' Nk' Hi') as ->.
      assert (fo' = fo) by congruence. subst fo'. exists k. auto.
    - exfalso. pose proof (find_none _ _ Fd fo (nth_error_In _ _ Nk)) as Q. cbn in Q. assert (existsb (Nat.eqb i) (snd fo) = true) by (apply existsb_exists; exists i; split; [exact It|apply Nat.eqb_refl]). congruence. }
  exists fold_of. split; [|exact T]. intros i Hi. destruct (T i Hi) as (k & Nk & It & _). apply nth_error_In in Nk. split; [exact Nk|]. split; [exact It|].
  destruct P as (_ & P). destruct (P _ Nk) as (_ & _ & P'). intro Q. apply P' in Q. tauto.
Qed.
Lemma residual_float (o : rd_obj) t rule v a fold_of smpls w i : ro_spec o = fs_spec_of a -> ro_score o = fs_score a -> tested_only smpls i (fold_of i) -> t = DFloat ->
  v i - M_Rdd.fit_nuisance t rule (ro_spec o) (ro_score o) (ro_x o) v w (ro_junk o) smpls i = residuals rule a (ro_x o) v w fold_of i.
Proof. intros E1 E2 T ->. rewrite (nuisance_float _ _ _ _ _ _ _ _ _ _ T). unfold residuals. rewrite E1, E2. reflexivity. Qed.
Lemma rd_stages f s ml_g ml_m fuzzy cutoff nf nr h spec ka o ws : S_Data.constructed f s -> shuffles g -> rows_only (M_Data.frows f) robust -> ty = DFloat -> (fuzzy = true -> td = DFloat) ->
  init f s ml_g ml_m fuzzy cutoff nf nr h spec ka = Ok (o, ws) ->
  exists a, rd_setup bwselect casefold f s fuzzy cutoff nf nr h spec ka a /\
  forall r, (r < Z.to_nat (int_val nr))%nat -> exists smpls fold_of, nth_error (ro_smpls o) r = Some smpls /\ length smpls = Z.to_nat (int_val nf) /\ proper_split (M_Data.frows f) smpls /\ held_out (M_Data.frows f) smpls fold_of /\
    let stage := both_stages robust (fitted_rule learn ml_g) (if fuzzy then option_map (fun m => learn (ly_obj (wl_learner m)) true) ml_m else None) a
                   (covariates f s (fs_treatment a)) (outcome f s) (col f (fs_treatment a)) fold_of in
    forall k, (1 <= k)%nat -> exists (W : nat -> vec) hb, W 0%nat = fs_weights a /\
      (forall t, (S t < k)%nat -> W (S t) = fun i => fs_kern a (fs_score a i) (larger (rr_h (stage (W t) None)))) /\
      (k = 1%nat -> hb = None) /\ (forall t, k = S (S t) -> hb = Some (larger (rr_h (stage (W t) None)), larger (rr_b (stage (W t) None)))) /\
      res_at (rf_res (rd_run o k)) r = stage (W (k - 1)%nat) hb /\ nth r (rf_h (rd_run o k)) None = option_map fst hb.
Proof.
  intros Con Sh Ro Ty Td H. destruct (rd_made learn bwselect robust casefold ty td junk g f s Con _ _ _ _ _ _ _ _ _ _ _ Sh H) as (a & Su & E1 & E2 & E3 & E4 & E5 & E6 & E7 & E8 & E9 & E10 & E11 & E12 & E13 & E14 & (Ls & St) & _).
  exists a. split; [exact Su|]. intros r Hr. destruct (nth_error (ro_smpls o) r) as [smpls|] eqn:Nr; [|apply nth_error_None in Nr; lia]. destruct (St smpls (nth_error_In _ _ Nr)) as (Ln & Ps & _).
  destruct (held_out_split _ _ Ps) as (fold_of & Ho & T). exists smpls, fold_of. split; [reflexivity|]. split; [exact Ln|]. split; [exact Ps|]. split; [exact Ho|]. cbv zeta.
  assert (Fit : forall w hb, fit_rdd o w smpls hb = both_stages robust (fitted_rule learn ml_g) (if fuzzy then option_map (fun m => learn (ly_obj (wl_learner m)) true) ml_m else None) a
                   (covariates f s (fs_treatment a)) (outcome f s) (col f (fs_treatment a)) fold_of w hb).
  { intros w hb. unfold fit_rdd, both_stages. rewrite E6, E12.
    assert (Y : forall i, (i < M_Data.frows f)%nat -> adjusted_y o w smpls i = residuals (fitted_rule learn ml_g) a (covariates f s (fs_treatment a)) (outcome f s) w fold_of i).
    { intros i Hi. unfold adjusted_y. rewrite E10, E13. rewrite (residual_float o ty _ _ a fold_of smpls w i E7 E5 (T i Hi) Ty), E4, E2. reflexivity. }
    destruct fuzzy.
    - destruct (E14 eq_refl) as (m & -> & Em). cbn [option_map]. apply (Ro (fs_score a) _ _ hb Y). intros i Hi. unfold adjusted_d. rewrite E11, Em. rewrite (residual_float o td _ _ a fold_of smpls w i E7 E5 (T i Hi) (Td eq_refl)), E4, E3. reflexivity.
    - cbn [option_map]. apply (Ro (fs_score a) _ _ hb Y). }
  intros k Hk. destruct (run_repetition o k r smpls Nr Hk) as (W & hb & W0 & Wt & H1 & H2 & R1 & R2). exists W, hb.
  split; [rewrite W0; unfold kernel_weights, fs_weights; rewrite E8, E5, E9; reflexivity|]. split; [intros t Ht; rewrite (Wt t Ht), !Fit; unfold kernel_weights; rewrite E8, E5; reflexivity|].
  split; [exact H1|]. split; [intros t Ht; rewrite (H2 t Ht); cbv zeta; rewrite !Fit; reflexivity|]. split; [rewrite R1, Fit; reflexivity|exact R2].
Qed.
End RD.

(** A global learner around a base estimator of the wrong kind is accepted; it
    fails when it is fitted. *)
Lemma global_accepted {E G : Type} (wrap : E -> G) (class : bool) (base : pylearner E) : estimator (wl_learner (global_arg wrap class base)) /\ wl_weights (global_arg wrap class base) = true /\
  (if class then predicts_probabilities (wl_learner (global_arg wrap class base)) else predicts_values (wl_learner (global_arg wrap class base))) /\ ly_classifier (wl_learner (global_arg wrap class base)) = class.
Proof. repeat split; destruct class; reflexivity || (repeat split). Qed.
Lemma global_fit_wrong {E : Type} (plain : E -> bool -> list (list R * R) -> list R -> R) (class : bool) (base : pylearner E) (proba : bool) train :
  (if class then ly_classifier base else ly_regressor base) = false -> global_fit plain class base proba train = Err ValueError.
Proof. intro H. unfold global_fit, base_kind, require. rewrite H. reflexivity. Qed.
Lemma global_fit_right {E : Type} (plain : E -> bool -> list (list R * R) -> list R -> R) (class : bool) (base : pylearner E) (proba : bool) train :
  (if class then ly_classifier base else ly_regressor base) = true -> global_fit plain class base proba train = Ok (plain (ly_obj base) proba (map fst train)).
Proof. intro H. unfold global_fit, base_kind, require. rewrite H. reflexivity. Qed.
Lemma global_fit_inv {B : Type} (plain : B -> bool -> list (list R * R) -> list R -> R) (class : bool) (base : pylearner B) (proba : bool) train rule : global_fit plain class base proba train = Ok rule ->
  rule = plain (ly_obj base) proba (map fst train) /\ (if class then ly_classifier base else ly_regressor base) = true.
Proof.
  intro H. destruct (if class then ly_classifier base else ly_regressor base) eqn:K.
  - rewrite (global_fit_right plain class base proba train K) in H. apply ok_inj in H. subst rule. split; reflexivity.
  - rewrite (global_fit_wrong plain class base proba train K) in H. discriminate H.
Qed.
Lemma wrong_base {B G : Type} (wrap : B -> G) (plain : B -> bool -> list (list R * R) -> list R -> R) (class : bool) (base : pylearner B) f s :
  (if class then ly_classifier base else ly_regressor base) = false -> (class = true -> S_Data.zero_one_column f (M_Data.r_y (M_Data.dd_roles s))) ->
  rd_learners_ok f s false (global_arg wrap class base) None /\ forall proba train, global_fit plain class base proba train = Err ValueError.
Proof.
  intros K Z1. split; [|intros proba train; apply global_fit_wrong, K]. split; [|split; [reflexivity|discriminate]].
  split; [|exact Z1]. unfold predicts_either. destruct (global_accepted wrap class base) as (_ & _ & P & Q). rewrite Q. exact P.
Qed.
(** The folds of an object. *)
Lemma rd_folds {E : Type} (learn : E -> bool -> rd_learner) bwselect robust casefold ty td junk g f s ml_g ml_m fuzzy cutoff nf nr h spec ka o ws :
  rd_init learn bwselect robust casefold ty td junk g f s ml_g ml_m fuzzy cutoff nf nr h spec ka = Ok (o, ws) ->
  resampling (Z.to_nat (int_val nf)) (Z.to_nat (int_val nr)) (M_Data.frows f) (Some (value_codes (col f (M_Data.c_d s)))) g = Ok (ro_smpls o).
Proof.
  intro H. rewrite (init_split learn bwselect robust casefold ty td junk g f s) in H. bi H p Pre. destruct p as ((((((sc & c0) & ls) & w2) & hh) & sp) & kk).
  unfold rd_post in H. cbv zeta in H. bi H w3 Sg. bi H sm Rsm. apply ok_inj in H. injection H as <- _. exact Rsm.
Qed.

(** Construction of regression discontinuity objects. *)
From Verif Require Import L_DataProps.
From Verif Require Export S_RddInit L_InitSplit L_Rdd.
From Coq Require Import Lia Lra FunctionalExtensionality.
Local Open Scope R_scope.
Local Open Scope res_scope.
Local Open Scope string_scope.

Ltac bi H x X := apply bind_ok in H as (x & X & H).
Ltac ri H X := apply require_ok in H as (X & H).

Lemma rle_b x y : rleb x y = true <-> x <= y.
Proof. unfold rleb. destruct (Rle_dec x y); split; intro; try lra; try discriminate; reflexivity. Qed.
Lemma rlt_b x y : rltb x y = true <-> x < y.
Proof. unfold rltb. destruct (Rlt_dec x y); split; intro; try lra; try discriminate; reflexivity. Qed.
Lemma req_b x y : reqb x y = true <-> x = y.
Proof. unfold reqb. destruct (Req_EM_T x y); split; intro; try contradiction; try discriminate; auto. Qed.
Lemma fractional n v : negb (all_whole n v) = true <-> exists i, (i < n)%nat /\ forall z, v i <> IZR z.
Proof.
  rewrite negb_true_iff. split.
  - intro H. unfold all_whole in H. assert (Q : existsb (fun i => negb (M_Init.whole (v i))) (seq 0 n) = true).
    { revert H. generalize (seq 0 n). intro l. induction l as [|a l IH]; cbn; [discriminate|]. destruct (M_Init.whole (v a)); cbn; auto. }
    apply existsb_exists in Q as (i & Hi & Q). apply in_seq in Hi. exists i. split; [lia|]. intros z E. unfold M_Init.whole in Q. destruct (Req_EM_T _ _) as [e|e]; [discriminate|].
    apply e. rewrite E. f_equal. rewrite <- (up_tech (IZR z) z); [lia|lra|]. rewrite plus_IZR. lra.
  - intros (i & Hi & F). destruct (all_whole n v) eqn:A; [|reflexivity]. apply whole_iff in A. destruct (A i Hi) as (z & Q). destruct (F z Q).
Qed.
Lemma some_row n (p : nat -> bool) (Q : nat -> Prop) : (forall i, p i = true <-> Q i) -> (existsb p (seq 0 n) = true <-> exists i, (i < n)%nat /\ Q i).
Proof.
  intro H. rewrite existsb_exists. split; intros (i & A & B); exists i.
  - apply in_seq in A. split; [lia|apply H, B].
  - split; [apply in_seq; lia|apply H, B].
Qed.
Lemma filter_len {A} (p : A -> bool) l : (length (filter p l) <= length l)%nat.
Proof. induction l as [|a l IH]; cbn; [lia|]. destruct (p a); cbn; lia. Qed.
Lemma sum_left n score w : masked_sum n (fun i => rltb (score i) 0) w = weight_left n score w.
Proof. apply sumf_ext. intros i _. unfold rltb. destruct (Rlt_dec (score i) 0); reflexivity. Qed.
Lemma sum_right n score w : masked_sum n (fun i => rltb 0 (score i)) w = weight_right n score w.
Proof. apply sumf_ext. intros i _. unfold rltb. destruct (Rlt_dec 0 (score i)); reflexivity. Qed.
Lemma spec_iff v sp : set_fs_spec v = Ok sp <-> specification_is v sp.
Proof.
  unfold specification_is. destruct v; cbn; try (split; [discriminate|intros [(Q & _)|[(Q & _)|(Q & _)]]; discriminate]).
  destruct (String.eqb_spec s "cutoff") as [->|N1]; [split; [intro H; injection H as <-; auto|intros [(_ & ->)|[(Q & _)|(Q & _)]]; [reflexivity|discriminate|discriminate]]|].
  destruct (String.eqb_spec s "cutoff and score") as [->|N2]; [split; [intro H; injection H as <-; auto|intros [(Q & _)|[(_ & ->)|(Q & _)]]; [discriminate|reflexivity|discriminate]]|].
  destruct (String.eqb_spec s "interacted cutoff and score") as [->|N3]; [split; [intro H; injection H as <-; auto|intros [(Q & _)|[(Q & _)|(_ & ->)]]; [discriminate|discriminate|reflexivity]]|].
  split; [discriminate|]. intros [(Q & _)|[(Q & _)|(Q & _)]]; injection Q as ->; congruence.
Qed.
Lemma kernel_iff cf a k : set_kernel cf a = Ok k <-> kernel_is cf a k.
Proof.
  unfold kernel_is. destruct a as [name|k'|]; cbn.
  - split.
    + intro H. right. exists name. split; [reflexivity|]. destruct (String.eqb_spec (cf name) "uniform") as [->|N1]; [injection H as <-; auto|].
      destruct (String.eqb_spec (cf name) "triangular") as [->|N2]; [injection H as <-; auto|]. destruct (String.eqb_spec (cf name) "epanechnikov") as [->|N3]; [injection H as <-; auto|discriminate].
    + intros [Q|(m & Q & H)]; [discriminate|]. injection Q as <-. destruct H as [(-> & ->)|[(-> & ->)|(-> & ->)]]; reflexivity.
  - split; [intro H; injection H as <-; auto|]. intros [Q|(m & Q & _)]; [injection Q as <-; reflexivity|discriminate].
  - split; [discriminate|]. intros [Q|(m & Q & _)]; discriminate.
Qed.
Lemma bandwidth_iff dflt v h : set_h_fs dflt v = Ok h <-> bandwidth_is dflt v h.
Proof.
  unfold bandwidth_is. destruct v; cbn; (split; [intro H; try discriminate; injection H as <-; auto|intros [(Q & ->)|Q]; try discriminate; try reflexivity]). injection Q as ->. reflexivity.
Qed.
Lemma folds_iff nf nr : resampling_specification nf nr = Ok tt <-> is_int nf = true /\ (2 <= int_val nf)%Z /\ is_int nr = true /\ (1 <= int_val nr)%Z.
Proof.
  unfold resampling_specification, require. destruct (is_int nf); [|split; [discriminate|intros (Q & _); discriminate]]. destruct (Z.leb_spec 2 (int_val nf)); [|split; [discriminate|lia]].
  destruct (is_int nr); [|split; [discriminate|intros (_ & _ & Q & _); discriminate]]. destruct (Z.leb_spec 1 (int_val nr)); [|split; [discriminate|lia]]. split; auto.
Qed.
Lemma td_folds nf nr : type_or_value_error (resampling_specification nf nr).
Proof. unfold resampling_specification. repeat first [apply td_req_t|apply td_req_v|apply td_ok]. Qed.
Lemma td_spec v : type_or_value_error (set_fs_spec v).
Proof. destruct v; cbn; try apply td_type. repeat (destruct (String.eqb _ _); [apply td_ok|]). apply td_value. Qed.
Lemma td_kernel cf a : type_or_value_error (set_kernel cf a).
Proof. destruct a; cbn; try apply td_type; try apply td_ok. repeat (destruct (String.eqb _ _); [apply td_ok|]). apply td_value. Qed.
Lemma td_bandwidth d v : type_or_value_error (set_h_fs d v).
Proof. destruct v; cbn; try apply td_type; apply td_ok. Qed.

Section RD.
Context {E : Type}.
Variable learn : E -> bool -> rd_learner.
Variable bwselect : vec -> vec -> option vec -> R.
Variable robust : vec -> vec -> option vec -> option (R * R) -> rd_res.
Variable casefold : string -> string.
Variable ty td : dtype.
Variable junk : nat -> R.
Variable g : rng.
Variable f : M_Data.frame.
Variable s : M_Data.ddata.
Hypothesis Con : S_Data.constructed f s.
Let n := M_Data.frows f.
Let roles := M_Data.dd_roles s.

Lemma data_iff cutoff v c0 : check_rd_data f s cutoff = Ok (v, c0) <-> rd_data_ok f s cutoff v c0 (M_Data.c_d s).
Proof.
  destruct (arrays f s Con) as (_ & _ & _ & As & _). unfold check_rd_data, rd_data_ok, running_variable. rewrite As. change (cutoff_number cutoff) with (level_number cutoff). split.
  - intro H. destruct (M_Data.r_s _) as [c|] eqn:Rs; [|discriminate]. ri H F. destruct (level_number cutoff) as [c1|] eqn:Lv; [|discriminate]. ri H Rg. ri H D. ri H Zn. apply ok_inj in H. injection H as <- <-.
    apply andb_true_iff in Rg as (G1 & G2). apply (some_row _ _ (fun i => col f c i <= c1)) in G1; [|intro; apply rle_b]. apply (some_row _ _ (fun i => c1 <= col f c i)) in G2; [|intro; apply rle_b].
    split; [eauto|]. split; [apply fractional, F|]. split; [reflexivity|]. split; [exact G1|]. split; [exact G2|]. split; [apply (one_binary f s Con), D|apply no_z_iff, Zn].
  - intros ((c & Rs & ->) & F & -> & G1 & G2 & D & Z). rewrite Rs. unfold require. rewrite (proj2 (fractional _ _) F).
    rewrite (proj2 (some_row _ _ (fun i => col f c i <= c0) (fun i => rle_b _ _)) G1), (proj2 (some_row _ _ (fun i => c0 <= col f c i) (fun i => rle_b _ _)) G2), (proj2 (one_binary f s Con) D), (proj2 (no_z_iff s) Z).
    reflexivity.
Qed.
Lemma td_data cutoff : type_or_value_error (check_rd_data f s cutoff).
Proof.
  unfold check_rd_data. destruct (M_Data.c_s s); [|apply td_value]. apply td_req_v. destruct (cutoff_number cutoff); [|apply td_type]. do 3 apply td_req_v. apply td_ok.
Qed.
Lemma data_active cutoff v c0 c : rd_data_ok f s cutoff v c0 c -> c = M_Data.c_d s.
Proof. intros (_ & _ & _ & _ & _ & B & _). exact (binary_active f s Con c B). Qed.

Lemma learners_iff fuzzy (ml_g : rd_learner_arg E) ml_m : succeeds (check_rd_learners learn s fuzzy ml_g ml_m) <-> rd_learners_ok f s fuzzy ml_g ml_m.
Proof.
  unfold check_rd_learners, rd_learners_ok. split.
  - intros (o & H). bi H c G. bi H u W. bi H u' Og. destruct u, u'. apply (outcome_iff f s Con _ _ G) in Og. split; [exact Og|].
    unfold check_weights_supported in W. ri W W'. split; [exact W'|]. intros ->. destruct ml_m as [m|]; [|discriminate]. bi H c' M. bi H u2 W2. unfold check_weights_supported in W2. ri W2 W2'.
    apply learner_proba in M as (M & _). eauto.
  - intros (O & W & Fz). assert (G : check_learner (wl_learner ml_g) true true = Ok (ly_classifier (wl_learner ml_g))) by (apply learner_either; split; [apply O|reflexivity]).
    rewrite G. cbn [bind]. unfold check_weights_supported at 1. rewrite W. cbn [require bind]. rewrite (proj2 (outcome_iff f s Con _ _ G) O). cbn [bind]. destruct fuzzy; [|eexists; reflexivity].
    destruct (Fz eq_refl) as (m & -> & M & Wm). rewrite (proj2 (learner_proba _ true) (conj M eq_refl)). cbn [bind]. unfold check_weights_supported. rewrite Wm. eexists; reflexivity.
Qed.
Definition ignored (fuzzy : bool) (ml_m : option (rd_learner_arg E)) : list rd_warning := if fuzzy then [] else match ml_m with Some _ => [IgnoredLearner] | None => [] end.
Lemma learners_val fuzzy (ml_g : rd_learner_arg E) ml_m ls ws : check_rd_learners learn s fuzzy ml_g ml_m = Ok (ls, ws) ->
  fst ls = fitted_rule learn ml_g /\ ws = ignored fuzzy ml_m /\ (fuzzy = true -> exists m, ml_m = Some m /\ snd ls = learn (ly_obj (wl_learner m)) true).
Proof.
  unfold check_rd_learners. intro H. bi H c G. bi H u W. bi H u' Og. apply learner_either in G as (_ & ->). cbv zeta in H. unfold ignored. destruct fuzzy.
  - destruct ml_m as [m|]; [|discriminate]. bi H c' M. bi H u2 W2. apply ok_inj in H. injection H as <- <-. split; [reflexivity|]. split; [reflexivity|]. intros _. exists m. split; reflexivity.
  - apply ok_inj in H. injection H as <- <-. split; [reflexivity|]. split; [reflexivity|]. discriminate.
Qed.
Lemma td_learners fuzzy (ml_g : rd_learner_arg E) ml_m : type_or_value_error (check_rd_learners learn s fuzzy ml_g ml_m).
Proof.
  unfold check_rd_learners. apply td_bind; [apply td_learner|intro c]. apply td_bind; [apply td_req_v, td_ok|intros _]. apply td_bind; [apply td_outcome|intros _]. cbv zeta.
  destruct fuzzy; [|apply td_ok]. destruct ml_m as [m|]; [|apply td_value]. apply td_bind; [apply td_learner|intros _]. apply td_bind; [apply td_req_v, td_ok|intros _]. apply td_ok.
Qed.

(** The checks before the weights are summed. *)
Definition rd_pre (ml_g : rd_learner_arg E) ml_m (fuzzy : bool) (cutoff nf nr h_fs spec : pyval) (ka : kern_arg) : result (vec * R * (rd_learner * rd_learner) * list rd_warning * R * fs_spec * (R -> R -> R)) :=
  let! (sc, c0) := check_rd_data f s cutoff in
  let! (ls, w2) := check_rd_learners learn s fuzzy ml_g ml_m in
  let! _ := resampling_specification nf nr in
  let! h := set_h_fs (bwselect (col f (M_Data.c_y s)) (fun i => sc i - c0) (if fuzzy then Some (col f (M_Data.c_d s)) else None)) h_fs in
  let! sp := set_fs_spec spec in
  let! k := set_kernel casefold ka in
  Ok (sc, c0, ls, w2, h, sp, k).
Definition rd_post (fuzzy : bool) (nf nr : pyval) (p : vec * R * (rd_learner * rd_learner) * list rd_warning * R * fs_spec * (R -> R -> R)) : result (rd_obj * list rd_warning) :=
  let '(sc, c0, ls, w2, h, sp, k) := p in
  let score := fun i => sc i - c0 in
  let d := col f (M_Data.c_d s) in
  let! w3 := check_effect_sign f s score (fun i => k (score i) h) in
  let! smpls := resampling (Z.to_nat (int_val nf)) (Z.to_nat (int_val nr)) n (Some (value_codes d)) g in
  Ok ({| ro_n := n; ro_y := col f (M_Data.c_y s); ro_d := d; ro_ty := ty; ro_td := td; ro_score := score; ro_x := feats f (M_Data.c_x s);
         ro_fuzzy := fuzzy; ro_spec := sp; ro_kernel := k; ro_h_fs := h; ro_smpls := smpls;
         ro_ml_g := fst ls; ro_ml_m := snd ls; ro_junk := junk; ro_robust := robust score |},
      ((if negb fuzzy && existsb (fun i => negb (reqb (d i) (intended (score i)))) (seq 0 n) then [LooksFuzzy] else []) ++ w2 ++ w3)%list).
Let init := rd_init learn bwselect robust casefold ty td junk g f s.
Lemma init_split ml_g ml_m fuzzy cutoff nf nr h spec ka : init ml_g ml_m fuzzy cutoff nf nr h spec ka = bind (rd_pre ml_g ml_m fuzzy cutoff nf nr h spec ka) (rd_post fuzzy nf nr).
Proof.
  unfold init, rd_init, rd_pre. destruct (check_rd_data f s cutoff) as [[sc c0]|e]; cbn [bind]; [|reflexivity].
  destruct (check_rd_learners learn s fuzzy ml_g ml_m) as [[ls w2]|e]; cbn [bind]; [|reflexivity].
  destruct (resampling_specification nf nr) as [u|e]; cbn [bind]; [|reflexivity].
  destruct (set_h_fs _ h) as [hh|e]; cbn [bind]; [|reflexivity]. destruct (set_fs_spec spec) as [sp|e]; cbn [bind]; [|reflexivity]. destruct (set_kernel casefold ka) as [k|e]; cbn [bind]; reflexivity.
Qed.
Lemma td_pre ml_g ml_m fuzzy cutoff nf nr h spec ka : type_or_value_error (rd_pre ml_g ml_m fuzzy cutoff nf nr h spec ka).
Proof.
  unfold rd_pre. apply td_bind; [apply td_data|intros [sc c0]]. apply td_bind; [apply td_learners|intros [ls w2]]. apply td_bind; [apply td_folds|intros _].
  apply td_bind; [apply td_bandwidth|intro]. apply td_bind; [apply td_spec|intro]. apply td_bind; [apply td_kernel|intro; apply td_ok].
Qed.
Let setup := rd_setup bwselect casefold f s.
Lemma y_col : col f (M_Data.c_y s) = outcome f s.
Proof. destruct (arrays f s Con) as (A & _). unfold outcome. rewrite A. reflexivity. Qed.
Lemma pre_inv ml_g ml_m fuzzy cutoff nf nr h spec ka sc c0 ls w2 hh sp k : rd_pre ml_g ml_m fuzzy cutoff nf nr h spec ka = Ok (sc, c0, ls, w2, hh, sp, k) ->
  setup fuzzy cutoff nf nr h spec ka {| fs_score := fun i => sc i - c0; fs_h := hh; fs_spec_of := sp; fs_kern := k; fs_treatment := M_Data.c_d s |} /\
  rd_learners_ok f s fuzzy ml_g ml_m /\ fst ls = fitted_rule learn ml_g /\ w2 = ignored fuzzy ml_m /\ (fuzzy = true -> exists m, ml_m = Some m /\ snd ls = learn (ly_obj (wl_learner m)) true).
Proof.
  intro H. unfold rd_pre in H. bi H p D. destruct p as [sc' c0']. bi H q Lr. destruct q as [ls' w2']. bi H u Rs. destruct u. bi H hh' B. bi H sp' Sp. bi H k' K. apply ok_inj in H. injection H as -> -> -> -> -> -> ->.
  pose proof (learners_val _ _ _ _ _ Lr) as (V1 & V2 & V3). split; [|split; [apply learners_iff; eexists; exact Lr|tauto]].
  exists sc, c0. cbn [fs_treatment fs_score fs_h fs_spec_of fs_kern]. apply data_iff in D. apply folds_iff in Rs. apply bandwidth_iff in B. apply spec_iff in Sp. apply kernel_iff in K. rewrite y_col in B. tauto.
Qed.
Lemma pre_ok ml_g ml_m fuzzy cutoff nf nr h spec ka a : setup fuzzy cutoff nf nr h spec ka a -> rd_learners_ok f s fuzzy ml_g ml_m ->
  exists sc c0 ls w2, rd_pre ml_g ml_m fuzzy cutoff nf nr h spec ka = Ok (sc, c0, ls, w2, fs_h a, fs_spec_of a, fs_kern a) /\ fs_score a = (fun i => sc i - c0) /\ fs_treatment a = M_Data.c_d s.
Proof.
  intros (v & c0 & D & Es & F1 & F2 & R1 & R2 & B & Sp & K) Lr. pose proof (data_active _ _ _ _ D) as At. apply learners_iff in Lr as ((ls & w2) & Lr).
  exists v, c0, ls, w2. split; [|auto]. unfold rd_pre. rewrite At in D. rewrite (proj2 (data_iff _ _ _) D). cbn [bind]. rewrite Lr. cbn [bind]. rewrite (proj2 (folds_iff nf nr) (conj F1 (conj F2 (conj R1 R2)))). cbn [bind].
  rewrite Es, At in B. rewrite y_col, (proj2 (bandwidth_iff _ _ _) B). cbn [bind]. rewrite (proj2 (spec_iff _ _) Sp). cbn [bind]. rewrite (proj2 (kernel_iff _ _ _) K). reflexivity.
Qed.
Lemma average_cases m (a w : vec) : np_average n m a w = if reqb (masked_sum n m w) 0 then Err ZeroDivisionError else Ok (masked_sum n m (fun i => a i * w i) / masked_sum n m w).
Proof. unfold np_average, require. destruct (reqb _ 0); reflexivity. Qed.
Lemma sign_inv score w l : check_effect_sign f s score w = Ok l -> weight_left n score w <> 0 /\ weight_right n score w <> 0 /\
  l = if rltb (/ 10 ^ 6) (share_left n score w (col f (M_Data.c_d s)) - share_right n score w (col f (M_Data.c_d s))) then [WrongSide] else [].
Proof.
  unfold check_effect_sign. fold n. rewrite !average_cases, !sum_left, !sum_right. destruct (reqb (weight_left n score w) 0) eqn:Q; cbn [bind]; [discriminate|].
  destruct (reqb (weight_right n score w) 0) eqn:Q'; cbn [bind]; [discriminate|]. intro H. apply ok_inj in H. subst l.
  split; [intro X; apply req_b in X; congruence|]. split; [intro X; apply req_b in X; congruence|reflexivity].
Qed.
Lemma sign_ok score w : weight_left n score w <> 0 -> weight_right n score w <> 0 -> exists l, check_effect_sign f s score w = Ok l.
Proof.
  intros A B. unfold check_effect_sign. fold n. rewrite !average_cases, !sum_left, !sum_right. destruct (reqb (weight_left n score w) 0) eqn:Q; [apply req_b in Q; contradiction|]. cbn [bind].
  destruct (reqb (weight_right n score w) 0) eqn:Q'; [apply req_b in Q'; contradiction|]. eexists; reflexivity.
Qed.
Lemma sign_zero score w : weight_left n score w = 0 \/ weight_right n score w = 0 -> check_effect_sign f s score w = Err ZeroDivisionError.
Proof.
  intros A. unfold check_effect_sign. fold n. rewrite !average_cases, !sum_left, !sum_right. destruct (reqb (weight_left n score w) 0) eqn:Q; [reflexivity|]. cbn [bind].
  destruct A as [A|A]; apply req_b in A; [congruence|]. rewrite A. reflexivity.
Qed.
Lemma foldable_iff nf nr : (2 <= int_val nf)%Z -> (1 <= int_val nr)%Z ->
  (succeeds (resampling (Z.to_nat (int_val nf)) (Z.to_nat (int_val nr)) n (Some (value_codes (col f (M_Data.c_d s)))) g) <-> foldable n nf (col f (M_Data.c_d s))).
Proof.
  intros F R. unfold succeeds. rewrite resampling_defined by lia. unfold foldable. split.
  - intros (_ & i & Hi & K). exists i. split; [exact Hi|]. rewrite <- code_count. exact K.
  - intros (i & Hi & K). assert (K' := K). rewrite <- code_count in K. split; [|exists i; split; [exact Hi|exact K]].
    split; [lia|]. unfold rows_with in K'. pose proof (filter_len (fun j => if Req_EM_T (col f (M_Data.c_d s) j) (col f (M_Data.c_d s) i) then true else false) (seq 0 n)) as X. rewrite seq_length in X. lia.
Qed.

Lemma rd_accepts ml_g ml_m fuzzy cutoff nf nr h spec ka : succeeds (init ml_g ml_m fuzzy cutoff nf nr h spec ka) <->
  rd_learners_ok f s fuzzy ml_g ml_m /\ exists a, setup fuzzy cutoff nf nr h spec ka a /\ foldable n nf (col f (fs_treatment a)) /\
    weight_left n (fs_score a) (fs_weights a) <> 0 /\ weight_right n (fs_score a) (fs_weights a) <> 0.
Proof.
  rewrite init_split. split.
  - intros (o & H). bi H p Pre. destruct p as ((((((sc & c0) & ls) & w2) & hh) & sp) & k). destruct (pre_inv _ _ _ _ _ _ _ _ _ _ _ _ _ _ _ _ Pre) as (Su & Lr & _). split; [exact Lr|].
    eexists. split; [exact Su|]. cbn [fs_treatment fs_score]. unfold fs_weights. cbn [fs_score fs_h fs_kern]. unfold rd_post in H. cbv zeta in H. bi H w3 Sg. bi H sm Rs. apply sign_inv in Sg as (A & B & _).
    destruct Su as (v & c1 & _ & _ & _ & F2 & _ & R2 & _). split; [|auto]. apply (foldable_iff nf nr F2 R2). eexists; exact Rs.
  - intros (Lr & a & Su & Fo & A & B). destruct (pre_ok _ _ _ _ _ _ _ _ _ _ Su Lr) as (sc & c0 & ls & w2 & Q & Es & Et). rewrite Q. cbn [bind]. unfold rd_post. cbv zeta. unfold fs_weights in A, B. rewrite Es in A, B.
    destruct (sign_ok _ _ A B) as (l & ->). cbn [bind]. destruct Su as (v & c1 & _ & _ & _ & F2 & _ & R2 & _). rewrite Et in Fo. destruct (proj2 (foldable_iff nf nr F2 R2) Fo) as (sm & ->). eexists; reflexivity.
Qed.
Lemma rd_division ml_g ml_m fuzzy cutoff nf nr h spec ka : init ml_g ml_m fuzzy cutoff nf nr h spec ka = Err ZeroDivisionError <->
  rd_learners_ok f s fuzzy ml_g ml_m /\ exists a, setup fuzzy cutoff nf nr h spec ka a /\ (weight_left n (fs_score a) (fs_weights a) = 0 \/ weight_right n (fs_score a) (fs_weights a) = 0).
Proof.
  rewrite init_split. split.
  - intro H. destruct (rd_pre ml_g ml_m fuzzy cutoff nf nr h spec ka) as [p|e] eqn:Pre; cbn [bind] in H; [|injection H as ->; destruct (td_pre _ _ _ _ _ _ _ _ _ _ Pre); discriminate].
    destruct p as ((((((sc & c0) & ls) & w2) & hh) & sp) & k). destruct (pre_inv _ _ _ _ _ _ _ _ _ _ _ _ _ _ _ _ Pre) as (Su & Lr & _). split; [exact Lr|].
    eexists. split; [exact Su|]. unfold fs_weights. cbn [fs_score fs_h fs_kern]. unfold rd_post in H. cbv zeta in H.
    match goal with |- weight_left n ?sc' ?w' = 0 \/ _ => destruct (Req_EM_T (weight_left n sc' w') 0) as [Z1|Z1]; [left; exact Z1|]; destruct (Req_EM_T (weight_right n sc' w') 0) as [Z2|Z2]; [right; exact Z2|]; exfalso; destruct (sign_ok sc' w' Z1 Z2) as (l & Q); rewrite Q in H end.
    cbn [bind] in H. destruct (resampling _ _ _ _ _) as [sm|e] eqn:Rs; cbn [bind] in H; [discriminate|]. injection H as ->. destruct (td_resampling _ _ _ _ _ _ Rs); discriminate.
  - intros (Lr & a & Su & A). destruct (pre_ok _ _ _ _ _ _ _ _ _ _ Su Lr) as (sc & c0 & ls & w2 & Q & Es & Et). rewrite Q. cbn [bind]. unfold rd_post. cbv zeta. unfold fs_weights in A. rewrite Es in A.
    rewrite (sign_zero _ _ A). reflexivity.
Qed.
Lemma rd_errors ml_g ml_m fuzzy cutoff nf nr h spec ka e : init ml_g ml_m fuzzy cutoff nf nr h spec ka = Err e -> e = TypeError \/ e = ValueError \/ e = ZeroDivisionError.
Proof.
  rewrite init_split. intro H. destruct (rd_pre ml_g ml_m fuzzy cutoff nf nr h spec ka) as [p|e'] eqn:Pre; cbn [bind] in H; [|injection H as ->; destruct (td_pre _ _ _ _ _ _ _ _ _ _ Pre); auto].
  destruct p as ((((((sc & c0) & ls) & w2) & hh) & sp) & k). unfold rd_post in H. cbv zeta in H.
  match type of H with bind (check_effect_sign f s ?sc' ?w') _ = _ => destruct (Req_EM_T (weight_left n sc' w') 0) as [Z1|Z1]; [rewrite (sign_zero sc' w' (or_introl Z1)) in H; injection H as <-; auto|]; destruct (Req_EM_T (weight_right n sc' w') 0) as [Z2|Z2]; [rewrite (sign_zero sc' w' (or_intror Z2)) in H; injection H as <-; auto|]; destruct (sign_ok sc' w' Z1 Z2) as (l & Q); rewrite Q in H end.
  cbn [bind] in H. destruct (resampling _ _ _ _ _) as [sm|e'] eqn:Rs; cbn [bind] in H; [discriminate|]. injection H as ->. destruct (td_resampling _ _ _ _ _ _ Rs); auto.
Qed.

(** What an accepted call returns. *)
Lemma rd_made ml_g ml_m fuzzy cutoff nf nr h spec ka o ws : shuffles g -> init ml_g ml_m fuzzy cutoff nf nr h spec ka = Ok (o, ws) ->
  exists a, setup fuzzy cutoff nf nr h spec ka a /\
    ro_n o = n /\ ro_y o = outcome f s /\ ro_d o = col f (fs_treatment a) /\ ro_x o = covariates f s (fs_treatment a) /\ ro_score o = fs_score a /\ ro_fuzzy o = fuzzy /\
    ro_spec o = fs_spec_of a /\ ro_kernel o = fs_kern a /\ ro_h_fs o = fs_h a /\ ro_ty o = ty /\ ro_td o = td /\ ro_robust o = robust (fs_score a) /\
    ro_ml_g o = fitted_rule learn ml_g /\ (fuzzy = true -> exists m, ml_m = Some m /\ ro_ml_m o = learn (ly_obj (wl_learner m)) true) /\
    stratified_smpls n nf nr (col f (fs_treatment a)) (ro_smpls o) /\
    (In LooksFuzzy ws <-> fuzzy = false /\ exists i, (i < n)%nat /\ col f (fs_treatment a) i <> if Rle_dec 0 (fs_score a i) then 1 else 0) /\
    (In IgnoredLearner ws <-> fuzzy = false /\ ml_m <> None) /\
    (In WrongSide ws <-> / 10 ^ 6 < share_left n (fs_score a) (fs_weights a) (col f (fs_treatment a)) - share_right n (fs_score a) (fs_weights a) (col f (fs_treatment a))).
Proof.
  intros Sh H. rewrite init_split in H. bi H p Pre. destruct p as ((((((sc & c0) & ls) & w2) & hh) & sp) & k). destruct (pre_inv _ _ _ _ _ _ _ _ _ _ _ _ _ _ _ _ Pre) as (Su & Lr & V1 & V2 & V3).
  eexists. split; [exact Su|]. unfold rd_post in H. cbv zeta in H. bi H w3 Sg. bi H sm Rs. apply ok_inj in H. injection H as Eo Ew. destruct (sign_inv _ _ _ Sg) as (_ & _ & E3).
  unfold fs_weights. cbn [fs_score fs_h fs_kern fs_treatment fs_spec_of]. subst o. cbn [ro_n ro_y ro_d ro_x ro_score ro_fuzzy ro_spec ro_kernel ro_h_fs ro_ty ro_td ro_robust ro_ml_g ro_ml_m ro_smpls].
  split; [reflexivity|]. split; [exact y_col|]. split; [reflexivity|]. split; [exact (active_covariates f s (S_Data.R_new f s Con))|]. do 8 (split; [reflexivity|]). split; [exact V1|]. split; [exact V3|].
  split; [|split; [|split]].
  - destruct (draws _ _ _ _ _ _ Sh Rs) as (Ls & Fs). pose proof (draws_labels _ _ _ _ _ _ Sh Rs) as Lb. destruct Su as (v & c1 & _ & _ & _ & F2 & _). split; [exact Ls|]. intros fs Hf. destruct (Fs fs Hf) as (F1 & F3 & F4). split; [exact F1|]. split; [exact F3|]. split.
    + intros u w i Hh Hk Hi. pose proof (Lb fs Hf u w i Hh Hk Hi) as Q. rewrite !code_counts in Q. exact Q.
    + intros u i Hh Hi Two. destruct (train_has_label n (value_codes (col f (M_Data.c_d s))) fs u i F3 (Lb fs Hf)) as (j & Hj & Ej); [lia|exact Hh|exact Hi|rewrite code_count; exact Two|].
      exists j. split; [|split; [exact Hj|apply value_codes_eq, Ej]]. destruct F3 as (_ & F3). destruct (F3 u Hh) as (_ & _ & F3'). apply F3' in Hj. tauto.
  - assert (Ex : existsb (fun i => negb (reqb (col f (M_Data.c_d s) i) (intended (sc i - c0)))) (seq 0 n) = true <-> exists i, (i < n)%nat /\ col f (M_Data.c_d s) i <> (if Rle_dec 0 (sc i - c0) then 1 else 0)).
    { apply some_row. intro i. rewrite negb_true_iff. unfold intended, rleb. destruct (Rle_dec 0 (sc i - c0)); (split; [intros Q X; apply req_b in X; congruence|intro X; destruct (reqb _ _) eqn:Q; [apply req_b in Q; contradiction|reflexivity]]). }
    rewrite <- Ew. rewrite !in_app_iff. assert (N2 : ~ In LooksFuzzy w2) by (rewrite V2; unfold ignored; destruct fuzzy; [intros []|destruct ml_m; [intros [Q|[]]; discriminate|intros []]]).
    assert (N3 : ~ In LooksFuzzy w3) by (rewrite E3; destruct (rltb _ _); [intros [Q|[]]; discriminate|intros []]).
    destruct fuzzy; cbn [negb andb]; [split; [intros [[]|[Q|Q]]; contradiction|intros (Q & _); discriminate]|].
    destruct (existsb _ (seq 0 n)); [split; [intros _; split; [reflexivity|apply Ex; reflexivity]|intros _; left; left; reflexivity]|].
    split; [intros [[]|[Q|Q]]; contradiction|]. intros (_ & Q). apply Ex in Q. discriminate.
  - rewrite <- Ew. rewrite !in_app_iff. assert (N3 : ~ In IgnoredLearner w3) by (rewrite E3; destruct (rltb _ _); [intros [Q|[]]; discriminate|intros []]).
    assert (N1 : forall b : bool, ~ In IgnoredLearner (if b then [LooksFuzzy] else [])) by (intros []; [intros [Q|[]]; discriminate|intros []]).
    split.
    + intros [Q|[Q|Q]]; [apply N1 in Q; contradiction| |contradiction]. rewrite V2 in Q. unfold ignored in Q. destruct fuzzy; [destruct Q|]. destruct ml_m; [|destruct Q]. split; [reflexivity|discriminate].
    + intros (-> & Q). right. left. rewrite V2. unfold ignored. destruct ml_m; [left; reflexivity|contradiction].
  - rewrite <- Ew. rewrite !in_app_iff. assert (N1 : forall b : bool, ~ In WrongSide (if b then [LooksFuzzy] else [])) by (intros []; [intros [Q|[]]; discriminate|intros []]).
    assert (N2 : ~ In WrongSide w2) by (rewrite V2; unfold ignored; destruct fuzzy; [intros []|destruct ml_m; [intros [Q|[]]; discriminate|intros []]]).
    rewrite <- rlt_b. rewrite E3. destruct (rltb _ _).
    + split; [reflexivity|]. intros _. right. right. left. reflexivity.
    + split; [|discriminate]. intros [Q|[Q|[]]]; [apply N1 in Q|]; contradiction.
Qed.
End RD.

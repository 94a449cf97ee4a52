(** Complete fits of conditional value at risk objects. *)
From Verif Require Import L_Quantile L_Order L_LocalFit L_QNested L_Local.
From Verif Require Export L_QInit L_ClassDid L_InitFit.
From Coq Require Import Lia Lra Permutation.
Local Open Scope R_scope.
Local Open Scope res_scope.
Local Open Scope string_scope.

(** *** Start values *)
Lemma bounds_range n y : (0 < n)%nat -> range_of n y (pq_bounds n y).
Proof.
  intro Hn. unfold pq_bounds, minf. split; [|split]; cbn [fst snd].
  - intros i Hi. pose proof (maxf_ge n (fun i => - y i) i Hi). cbn in H. pose proof (maxf_ge n y i Hi). lra.
  - destruct (maxf_in n (fun i => - y i) Hn) as (i & Hi & E). exists i. split; [exact Hi|]. rewrite E. ring.
  - destruct (maxf_in n y Hn) as (i & Hi & E). exists i. auto.
Qed.
Lemma sorted_member l k : (k < length l)%nat -> In (nth k (rsort l) 0) l.
Proof. intro H. apply (Permutation_in _ (rsort_perm l)). apply nth_In. rewrite rsort_length. exact H. Qed.
Lemma quantile_members l q : l <> [] -> 0 < q < 1 -> exists a b, In a l /\ In b l /\ a <= quantile l q <= b.
Proof.
  intros Hl Hq. assert (Hq' : 0 <= q < 1) by lra. assert (Hn : (0 < length l)%nat) by (destruct l; [contradiction|cbn; lia]).
  destruct (quantile_between l q Hl Hq') as (A & B). pose proof (qk_lt (length l) q Hn Hq'). eexists; eexists. split; [|split; [|split; [exact A|exact B]]]; apply sorted_member; lia.
Qed.
Lemma arm_list n tr (y d : vec) : has_arm n tr d = true -> map y (filter (fun i => reqb (d i) (level tr)) (seq 0 n)) <> [].
Proof.
  intros H E. apply has_arm_iff in H as (i & Hi & Hd). apply map_eq_nil in E.
  assert (I : In i (filter (fun i => reqb (d i) (level tr)) (seq 0 n))) by (apply filter_In; split; [apply in_seq; lia|apply reqb_flag, Hd]). rewrite E in I. destruct I.
Qed.
Lemma arm_members n tr (y d : vec) v : In v (map y (filter (fun i => reqb (d i) (level tr)) (seq 0 n))) -> fst (pq_bounds n y) <= v <= snd (pq_bounds n y).
Proof.
  intro H. apply in_map_iff in H as (i & <- & Hi). apply filter_In in Hi as (Hi & _). apply in_seq in Hi. apply (bounds_range n y); lia.
Qed.
Lemma pq_start_range n tr q y d : has_arm n tr d = true -> 0 < q < 1 -> fst (pq_bounds n y) <= pq_start n tr q y d <= snd (pq_bounds n y).
Proof.
  intros Ha Hq. unfold pq_start. destruct (quantile_members _ q (arm_list n tr y d Ha) Hq) as (a & b & A & B & Q). apply arm_members in A. apply arm_members in B. lra.
Qed.
Lemma cvar_start_range n tr q y d : has_arm n tr d = true -> 0 < q < 1 -> fst (pq_bounds n y) <= cvar_start n tr q y d <= snd (pq_bounds n y).
Proof.
  intros Ha Hq. unfold cvar_start. cbv zeta. destruct (quantile_members _ q (arm_list n tr y d Ha) Hq) as (a & b & A & B & Q). set (l := map y _) in *.
  apply mean_between.
  - intro E. assert (I : In b (filter (fun v => rleb (quantile l q) v) l)) by (apply filter_In; split; [exact B|apply rleb_flag; lra]). rewrite E in I. destruct I.
  - intros v Hv. apply filter_In in Hv as (Hv & _). exact (arm_members n tr y d v Hv).
Qed.

Section Est.
Context {E P : Type}.
Variable L : learner E row P.
Lemma fold_ests_at (e : E) prm k es e0 : fold_ests L e prm k = Ok es -> forall j, (j < k)%nat -> fold_clone L prm e j (nth j es e0).
Proof.
  intros H j Hj. unfold fold_ests in H. destruct (map_res_seq _ _ _ j e0 H Hj) as (Q & _). apply bind_ok in Q as (p & A & B). unfold fold_clone.
  destruct prm as [l|]; cbn in A.
  - destruct (nth_error l j) as [p0|] eqn:N; [|discriminate]. injection A as <-. exists p0. split; [reflexivity|exact B].
  - injection A as <-. cbn in B. congruence.
Qed.
(** A machinery whose schedules fit the splits of [w]. *)
Definition dummy_machine (w : world P) (e : E) : machinery E P :=
  {| mc_learner := fun _ => e; mc_proba := fun _ => false; mc_classifier := fun _ => false;
     mc_order := fun r _ _ => match m_smpls (w_obj w) with Some sm => seq 0 (length (nth r sm [])) | None => [] end; mc_models := false |}.
Lemma dummy_sound f g w e : row_wise L f g -> clone_ok L -> sound_learning L f g (dummy_machine w e) w.
Proof.
  intros A B. constructor; [exact A|exact B|]. intros sm r t l fs Es Hr. cbn. rewrite Es, (nth_error_nth _ _ _ Hr). apply Permutation_refl.
Qed.
End Est.

Lemma cvar_made : forall (E P : Type) (L : learner E row P) rd fr s o ml_g ml_m treatment quantile nf nr score norm rule thr draw C w0,
  S_Data.reachable fr s -> sound_randomness rd -> cvar_init L rd fr s o ml_g ml_m treatment quantile nf nr score norm rule thr draw = Ok (C, w0) ->
  exists c mc tr q nm th st, binary_treatment fr s c /\
    let n := M_Data.frows fr in
    C = with_clusters fr s (cvar_ctx L mc n o c tr q nm th (cvar_start n tr q (outcome fr s) (col fr c)) (covariates fr s c) (outcome fr s) (col fr c) st) /\ soundly_reached C w0 /\
    mc_learner mc "ml_g" = ln_clone L (ly_obj ml_g) /\ mc_learner mc "ml_m" = ln_clone L (ly_obj ml_m) /\ quantile_ok quantile q /\ arm_number treatment (level tr) /\
    norm = PBool nm /\ thr = PFloat th /\ has_arm n tr (col fr c) = true.
Proof.
  intros until w0. intros Re Rd H. unfold cvar_init in H. bi H w B. ri H Zn. ri H D. bi H sc Sc. bi H q Q. bi H tr Tr. bi H nm Nm. ri H Ar. bi H w' Rw. bi H th T. bi H g G. bi H m M. cbv zeta in H. apply ok_inj in H. injection H as <- <-.
  destruct (one_binary_r fr s Re D) as (c & Ec & Bt). apply quantile_iff in Q. apply treatment_iff in Tr. apply bool_iff in Nm. apply trimming_th in T as (T2 & _).
  rewrite (outcome_col fr s Re), (active_covariates fr s Re), Ec. rewrite Ec in Rw, Ar. pose proof Bt as (Qd & _). rewrite Qd. cbn [hd].
  eexists c, _, tr, q, nm, th, _. split; [exact Bt|]. split; [reflexivity|].
  split; [eapply made_strat; [exact Rd|exact B|exact Rw|reflexivity|rewrite Qd; reflexivity|reflexivity..]|].
  split; [reflexivity|]. split; [reflexivity|]. auto 8.
Qed.

Lemma cvar_end : forall (E P : Type) (L : learner E row P) fv gv rd fr s o ml_g ml_m treatment quantile nf nr score nm rule thr draw C w0 w nj store ext smod w' q a,
  S_Data.reachable fr s -> unclustered s -> sound_randomness rd -> (0 < M_Data.frows fr)%nat ->
  cvar_init L rd fr s o ml_g ml_m treatment quantile nf nr score (PBool nm) rule (PFloat thr) draw = Ok (C, w0) -> later C w0 w ->
  quantile_ok quantile q -> arm_number treatment a ->
  exists dcol, binary_treatment fr s dcol /\
  let n := M_Data.frows fr in let x := covariates fr s dcol in let y := outcome fr s in let d := col fr dcol in
  (row_wise L fv gv -> classifier_ok L gv -> clone_ok L ->
  (forall sm r fs h, m_smpls (w_obj w) = Some sm -> nth_error sm r = Some fs -> In h fs ->
     let or := o r (length fs) in inner_split d (first_half or d h) (qo_skf or (map d (first_half or d h))) (qo_order or)) ->
  fit C nj store ext smod w = (w', Ok tt) ->
  ext = ExtNone /\
  exists F sm, fit_done w w' F sm 1 /\ forall r fs, nth_error sm r = Some fs -> exists c gh mh ipws,
    quantile_setting c true n y a q nm thr /\
    (forall k, (k < length fs)%nat -> fold_clone L (params_at w "ml_g" dcol r) (ln_clone L (ly_obj ml_g)) k (qc_g c k) /\ fold_clone L (params_at w "ml_m" dcol r) (ln_clone L (ly_obj ml_m)) k (qc_m c k)) /\
    length ipws = length fs /\
    (forall i, (i < n)%nat -> exists k h ipw, tested_in fs i k h /\ nth_error ipws k = Some ipw /\
       pq_preliminary L gv (o r (length fs)) c x y d k h ipw /\ pq_cross L L fv fv gv gv (o r (length fs)) c x y d k h ipw i (gh i) (mh i)) /\
    let wt := arm_weight n (qc_treated c) nm thr d mh in
    let theta := tail_mean n wt y q (Rmean ipws) + meanf n (fun i => (1 - wt i) * gh i) in
    (weights_defined n (qc_treated c) nm thr d mh ->
     estimate_is F n 0 r theta (fun i => wt i * cvar_target q (Rmean ipws) y i + (1 - wt i) * gh i - theta) (INR n))).
Proof.
  intros until a. intros Re Un Rd Hn H La Hq Ha.
  destruct (cvar_made _ _ _ _ _ _ _ _ _ _ _ _ _ _ _ _ _ _ _ _ Re Rd H) as (dc & mc & tr & q0 & nm0 & th & st & Bt & Ec & Sr & Lg & Lm & Q0 & A0 & En & Et & Har). injection En as <-. injection Et as <-.
  assert (q0 = q) as -> by (destruct Q0 as (X & _), Hq as (Y & _); congruence).
  assert (level tr = a) as <-. { destruct A0 as [(A1 & A2)|(A1 & A2)], Ha as [(A3 & A4)|(A3 & A4)]; rewrite ?A2, ?A4; try reflexivity; exfalso; destruct A1, A3; congruence. }
  subst C. rewrite (plain_ctx fr s Re _ Un) in *. pose proof (reached_later _ _ _ Sr La) as Sw. exists dc. split; [exact Bt|]. intros n x y d Rw Co Cl In_ Hf.
  assert (Hq' : 0 < q < 1) by apply Hq.
  set (C := cvar_ctx _ _ _ _ _ _ _ _ _ _ _ _ _ _) in *.
  split. { unfold fit in Hf. apply andthen_ok in Hf as (w1 & u & H1 & _). unfold check_fit, lift in H1.
    destruct (require _ _ _) as [v|ee] eqn:Rq in H1; [|discriminate]. apply require_ok in Rq as (_ & Rq). apply require_ok in Rq as (_ & Rq). apply require_ok in Rq as (_ & Rq).
    cbn [C cvar_ctx c_ext_ok] in Rq. destruct ext; [reflexivity|discriminate|discriminate]. }
  pose proof (dummy_sound L fv gv w (ly_obj ml_g) Rw Cl) as HL.
  destruct (fit_rep L fv gv (dummy_machine w (ly_obj ml_g)) C w nj store ext smod w') as (F & sm & out & Fd & Rp & K); [discriminate|discriminate|exact Sw|exact HL|exact Hf|].
  exists F, sm. split; [exact Fd|]. intros r fs Hr. destruct (K r 0%nat fs dc Hr eq_refl) as (Hr' & Ht' & e & M & S & N). cbn [C cvar_ctx c_nuis c_n] in N, S.
  unfold cvar_nuis in N. bi N gs Gs. bi N ms Ms. cbv zeta in N. bi N p Pq. apply ok_inj in N.
  set (c := cvar_cfg _ _ _ _ _ _ _ _ _) in *.
  edestruct (fun hm => pq_documented L L fv fv gv gv (o r (length fs)) [] c x y d Rw Co Rw Co Cl hm (cvar_start n tr q y d) n fs p) as (Li & _ & D).
  - reflexivity.
  - apply cvar_start_range; assumption.
  - apply S.
  - intros h Hh. exact (In_ sm r fs h (proj1 (proj2 (proj2 (proj2 Fd)))) Hr Hh).
  - exact Pq.
  - exists c, (val (po_g p)), (val (po_m p)), (po_ipw p). split. { constructor; try reflexivity. apply bounds_range, Hn. }
    split. { intros k Hk. rewrite <- Lg, <- Lm. split; eapply fold_ests_at; eassumption. }
    split; [exact Li|]. split.
    + intros i Hi. destruct (D i Hi) as (k & h & ipw & gi & mi & D1 & D2 & D3 & D4 & D5 & D6). exists k, h, ipw. unfold val. rewrite D3, D4. auto.
    + intros wt theta Wd. change n with (c_n C). eapply estimate_eq; [apply (mean_estimate C w out F r 0 (fun i => wt i * cvar_target q (Rmean (po_ipw p)) y i + (1 - wt i) * val (po_g p) i) Hn eq_refl Rp Hr' Ht')| | |reflexivity].
      * intros i Hi. rewrite <- N. split; [reflexivity|]. cbn [mk_out no_b cvar_score el_b]. unfold wt, arm_weight. specialize (Wd i Hi). change (qc_treated c) with tr in *. fold n y d. set (ma := pq_adjust _ _ _ _ _ _ _) in *. field. exact Wd.
      * unfold theta, tail_mean. rewrite <- meanf_plus. reflexivity.
      * intros i _. f_equal. f_equal. unfold theta, tail_mean. rewrite <- meanf_plus. reflexivity.
Qed.

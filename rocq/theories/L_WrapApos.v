(** DoubleMLAPOS objects: acceptance, splits and fits. *)
From Verif Require Import L_DataProps L_ModelProps L_ModelInv L_Framework L_Contrast L_Weights L_InitErrors.
From Verif Require Export L_WrapQteFit.
From Coq Require Import Lia Lra Permutation.
Local Open Scope R_scope.
Local Open Scope res_scope.
Local Open Scope string_scope.

Section Sub.
Context {P : Type}.
Variable n : nat.
Definition apo_sound (p : @apo_object P) : Prop := c_n (fst p) = n /\ c_cluster (fst p) = None /\ length (c_dcols (fst p)) = 1%nat /\ soundly_reached (fst p) (snd p).
Definition apo_good (p : @apo_object P) (sm : list (list fold)) : Prop := apo_on p sm /\ apo_sound p /\ untuned (snd p).
Definition apo_refit (nj st : pyval) (ext : ext_arg) (md : pyval) (p : @apo_object P) : @apo_object P * result unit := let (w', r) := fit (fst p) nj st ext md (snd p) in ((fst p, w'), r).
Definition apo_next (i : nat) (p p' : @apo_object P) : Prop := exists nj st ext md, p' = fst (apo_refit nj st ext md p).
Definition apo_later (p0 p : @apo_object P) : Prop := fst p = fst p0 /\ later (fst p0) (snd p0) (snd p).
Lemma apo_later_sound p0 p : apo_sound p0 -> apo_later p0 p -> apo_sound p.
Proof. destruct p0 as (C, w0), p as (C', w). intros (A & B & D & S) (Q & La). cbn in *. subst C'. repeat split; auto. exact (reached_later C w0 w S La). Qed.
Lemma apo_later_refl p : apo_later p p.
Proof. split; [reflexivity|]. exists []. split; [intros ? []|reflexivity]. Qed.
Lemma apo_next_later i p0 p p' : apo_later p0 p -> apo_next i p p' -> apo_later p0 p'.
Proof.
  destruct p0 as (C, w0), p as (C', w). intros (Q & La) (nj & st & ext & md & ->). cbn in Q, La. subst C'. unfold apo_refit. cbn [fst snd]. pose proof (later_step C w0 w (OFit nj st ext md) Logic.I La) as Z. cbn [run_op] in Z. destruct (fit C nj st ext md w) as (w', r). split; [reflexivity|exact Z].
Qed.
Lemma apo_next_on (i : nat) p p' sm : apo_next i p p' -> apo_good p sm -> apo_good p' sm.
Proof.
  intros N (On & S & U). assert (G : apo_on p' sm /\ untuned (snd p')); [|split; [apply G|split; [exact (apo_later_sound _ _ S (apo_next_later i _ _ _ (apo_later_refl p) N))|apply G]]]. destruct N as (nj & st & ext & md & ->). destruct p as (C, w), S as (_ & _ & _ & S). unfold apo_refit, apo_on in *. cbn [fst snd] in *.
  pose proof (fit_ends C nj st ext md w (reachable_wf _ _ (reached_reachable _ _ S))) as Q. destruct (fit C nj st ext md w) as (w', r). cbn [fst snd] in *. apply fe_split in Q. split; [transitivity (m_smpls (w_obj w)); [apply Q|exact On]|]. destruct Q as (_ & _ & _ & _ & _ & Q & _). unfold untuned, params_at. rewrite Q. exact U.
Qed.
Lemma apo_fw nj st ext md C w w' sm : (0 < n)%nat -> apo_good (C, w) sm -> fit C nj st ext md w = (w', Ok tt) ->
  exists F, framework_of w' = Some F /\ fw_wf F /\ fw_n_obs F = n /\ fw_n_rep F = length sm /\ fw_n_thetas F = 1%nat /\ fw_cluster F = None /\ at_ (fw_vs F) [0%nat] = INR n.
Proof.
  intros Hn (On & (A & B & D & S) & _) Hf. unfold apo_on in On. cbn [fst snd] in *.
  pose proof (reached_reachable _ _ S) as Rc. destruct (fit_reports C w nj st ext md w') as (out & F & (sm' & Em & _) & Cu & Rp & _ & _ & _ & _ & _); [intro Z; rewrite Z in D; discriminate|exact Rc|exact Hf|].
  assert (sm' = sm) by congruence. subst sm'. destruct Cu as (k & ob & C1 & C2 & C3). assert (Hsm : (0 < m_n_rep (w_obj w))%nat) by apply (reachable_wf _ _ Rc).
  destruct (rp_se _ _ _ _ Rp 0%nat 0%nat) as (s2 & V & _); [rewrite (rp_n_rep _ _ _ _ Rp); exact Hsm|rewrite (rp_n_thetas _ _ _ _ Rp), D; lia|].
  assert (Cl : split_cluster C w 0 = None) by (unfold split_cluster; rewrite B; reflexivity). rewrite Cl in V. unfold var_est in V. apply ok_inj in V. apply (f_equal snd) in V. cbn [snd] in V.
  pose proof (rp_cluster _ _ _ _ Rp) as Rc'. rewrite B in Rc'.
  exists F. split; [unfold framework_of; rewrite C1, C2, C3; reflexivity|]. split; [exact (rp_wf _ _ _ _ Rp)|].
  split; [rewrite (rp_n_obs _ _ _ _ Rp); exact A|]. split; [rewrite (rp_n_rep _ _ _ _ Rp); symmetry; exact (wf_smpls _ _ (reachable_wf _ _ Rc) sm Em)|]. split; [rewrite (rp_n_thetas _ _ _ _ Rp); exact D|]. split; [exact Rc'|]. rewrite <- V, A. reflexivity.
Qed.
End Sub.

Section Apos.
Context {E P : Type}.
Variable L : learner E row P.
Variable rd : randomness.
Variable f : M_Data.frame.
Variable s : M_Data.ddata.
Hypothesis Con : S_Data.constructed f s.
Hypothesis Un : unclustered s.
Hypothesis Rd : sound_randomness rd.
Let n := M_Data.frows f.
Let Re := S_Data.R_new f s Con.
Hypothesis Hn : (0 < n)%nat.
Let d := col f (M_Data.c_d s).

Lemma one_treatment c : M_Data.r_d (M_Data.dd_roles s) = [c] -> c = M_Data.c_d s.
Proof. intro D. destruct (arrays f s Con) as (_ & _ & _ & _ & _ & A). rewrite D in A. destruct A as [->|[]]. reflexivity. Qed.
Lemma ones_ok k : weights_ok (WArr (mk1 n (fun _ => 1))) ScATE n k.
Proof.
  cbn. split; [|discriminate]. split; [reflexivity|]. split; [intros [|i [|]] Hi; cbn; try lra|]. exists [0%nat]. cbn. split; [repeat split; auto|lra].
Qed.
Lemma stored_ok w k : weights_ok (stored_weights f w) ScATE n k <-> weights_ok w ScATE n k.
Proof. destruct w; cbn [stored_weights]; try tauto. split; [intros _; exact Logic.I|intros _; apply ones_ok]. Qed.
Lemma occurs_iff v : level_occurs f s v = true <-> occurs f s v.
Proof.
  unfold level_occurs, occurs. change (level_of v) with (level_number v). destruct (level_number v) as [r|]; [|split; [discriminate|intros (r & i & Q & _); discriminate]].
  rewrite existsb_exists. split.
  - intros (i & Hi & Q). apply in_seq in Hi. exists r, i. split; [reflexivity|]. split; [lia|]. unfold reqb in Q. destruct (Req_EM_T _ _); [assumption|discriminate].
  - intros (r' & i & Q & Hi & Z). injection Q as <-. exists i. split; [apply in_seq; lia|]. unfold reqb. destruct (Req_EM_T _ _); [reflexivity|contradiction].
Qed.
Lemma frequent_occurs v : frequent f (M_Data.c_d s) v -> occurs f s v.
Proof.
  intros (r & Lv & H). unfold rows_with in H. destruct (filter _ (seq 0 (M_Data.frows f))) as [|i l] eqn:Q; [cbn in H; lia|].
  assert (I : In i (filter (fun i => if Req_EM_T (col f (M_Data.c_d s) i) r then true else false) (seq 0 (M_Data.frows f)))) by (rewrite Q; left; reflexivity).
  apply filter_In in I as (I1 & I2). apply in_seq in I1. exists r, i. split; [exact Lv|]. split; [lia|]. destruct (Req_EM_T _ _); [assumption|discriminate].
Qed.
Section Obj.
Variables (ml_g ml_m : pylearner E) (levels : list pyval) (score : pyval) (weights : warg) (norm rule thr : pyval).
Let K := @apos_class E P L rd f s ml_g ml_m levels score weights norm rule thr.
Definition level_args (nfv nrv v : pyval) : Prop :=
  no_instruments s /\ M_Data.r_d (M_Data.dd_roles s) = [M_Data.c_d s] /\ frequent f (M_Data.c_d s) v /\ pos_ints nfv nrv /\ score = PStr "APO" /\ weights_ok weights ScATE n (Z.to_nat (int_val nrv)) /\
  outcome_learner f s ml_g /\ predicts_probabilities ml_m /\ boolean norm /\ trimming_ok rule thr.
Lemma apos_make_accepts nfv nrv i : succeeds (wk_make K nfv nrv i) <-> level_args nfv nrv (nth i levels PNone).
Proof.
  cbn [K wk_make apos_class]. etransitivity; [apply (apo_accepts L rd f s Con Un)|]. unfold level_args, frequent. fold n. split.
  - intros (A & (c & r & D & Lv & Fv & _ & Sp) & B). apply unsplit_args in Sp. pose proof (one_treatment c D) as Z. subst c. split; [exact A|]. split; [exact D|]. split; [exists r; auto|]. split; [exact Sp|exact B].
  - intros (A & D & (r & Lv & Fv) & Sp & B). split; [exact A|]. split; [|exact B]. exists (M_Data.c_d s), r. split; [exact D|]. split; [exact Lv|]. split; [exact Fv|]. split; [discriminate|]. apply unsplit_args, Sp.
Qed.
Lemma apos_make_sound nfv nrv i p : wk_make K nfv nrv i = Ok p -> apo_sound n p.
Proof.
  cbn [K wk_make apos_class]. destruct p as (C, w0). intro H. destruct (apo_made L rd f s Re Rd _ _ _ _ _ _ _ _ _ _ _ _ _ H) as (c & mc & nm & th & bo & st & D & EK & Sr & _). rewrite (plain_ctx f s Re _ Un) in EK.
  unfold apo_sound. cbn [fst snd]. split; [rewrite EK; reflexivity|]. split; [rewrite EK; reflexivity|]. split; [rewrite EK; reflexivity|exact Sr].
Qed.
Lemma apos_set_inv sp p p' : wk_set K sp p = Ok p' -> apo_later p p' /\ exists ck, check_sample_splitting (c_n (fst p)) sp = Ok ck /\ (c_cluster (fst p) = None -> apo_on p' (map (map nf) (ck_smpls ck)) /\ untuned (snd p')).
Proof.
  destruct p as (C, w). cbn [K wk_set apos_class fst snd]. destruct (set_sample_splitting C sp None w) as (w', [u|e]) eqn:Q; [|discriminate]. intro H. apply ok_inj in H. subst p'. split.
  - split; [reflexivity|]. cbn [fst snd]. replace w' with (fst (run_op C (OSet sp None) w)) by (cbn [run_op]; rewrite Q; reflexivity). apply later_step; [exact Logic.I|]. exists []. split; [intros ? []|reflexivity].
  - destruct (set_inv C sp None w) as [(ck & sc & Ec & Hs & Z)|(e & Z)]; rewrite Z in Q; [|discriminate]. exists ck. split; [exact Ec|]. intros _. apply pair_equal_spec in Q as (<- & _). split; [reflexivity|apply fresh_plain].
Qed.
Lemma apos_set_on nfv nrv i sp p p' : wk_make K nfv nrv i = Ok p -> wk_set K sp p = Ok p' -> exists ck, check_sample_splitting (wk_n K) sp = Ok ck /\ apo_good n p' (map (map nf) (ck_smpls ck)).
Proof.
  intros Mk St. pose proof (apos_make_sound _ _ _ _ Mk) as S. destruct (apos_set_inv _ _ _ St) as (La & ck & Ec & On). destruct S as (A & B & S'). rewrite A in Ec. exists ck. split; [exact Ec|]. split; [apply (On B)|]. split; [|apply (On B)]. apply (apo_later_sound n p); [|exact La]. split; [exact A|split; [exact B|exact S']].
Qed.
Lemma apos_set_ok nfv nrv i p sp ck : wk_make K nfv nrv i = Ok p -> check_sample_splitting (wk_n K) sp = Ok ck -> exists p', wk_set K sp p = Ok p'.
Proof.
  intros Mk H. destruct (apos_make_sound _ _ _ _ Mk) as (A & B & _). cbn [K wk_set apos_class]. change (wk_n K) with n in H. unfold set_sample_splitting. rewrite A, B, H. cbn. eexists. reflexivity.
Qed.
Definition apos_do (a : pyval * pyval * apos_ext * pyval) (b : wobj (@apo_object P)) : wobj apo_object * result unit := apos_call s levels K a b.
Lemma apos_do_is a b : fst (apos_do a b) = b \/ exists fitter, fst (apos_do a b) = fst (wrap_fit K fitter b) /\ forall i p, apo_next i p (fst (fitter i p)).
Proof.
  destruct a as (((nj, st), ext), md). unfold apos_do, apos_call, apos_fit. destruct (match ext with AxNone => _ | AxOther => _ | AxDict l => _ end) as [exts|e]; [|left; reflexivity].
  right. eexists. split; [reflexivity|]. intros i p. cbv beta. exists nj, st, (nth i exts ExtNone), md. reflexivity.
Qed.
Lemma apos_origin nfv nrv sm i p : origin K (@apo_next P) nfv nrv sm i p -> exists p0, wk_make K nfv nrv i = Ok p0 /\ apo_later p0 p.
Proof.
  intros (m0 & m1 & Mk & St & Rf). exists m0. split; [exact Mk|]. destruct (apos_set_inv _ _ _ St) as (La & _). induction Rf as [|p' p'' R IH N]; [exact La|]. exact (apo_next_later i _ _ _ IH N).
Qed.
Hypothesis Hq : (0 < length levels)%nat.
Lemma apos_new nfv nrv g : shuffles g -> (succeeds (wrap_new K nfv nrv true g) <->
  split_args n nfv nrv (PBool true) (Some d) /\ whole_numbers n d /\ forall v, In v levels -> level_args nfv nrv v).
Proof.
  intro Sh. etransitivity; [apply (new_accepts K Hn Hq apos_set_ok nfv nrv g Sh)|]. cbn [K wk_n wk_strata wk_count apos_class]. fold n d.
  split; intros (A & B & C); (split; [exact A|]); (split; [exact B|]).
  - intros v Hv. apply (In_nth _ _ PNone) in Hv as (i & Hi & <-). apply apos_make_accepts, C, Hi.
  - intros i Hi. apply apos_make_accepts, C, nth_In, Hi.
Qed.
Lemma apos_new_split nfv nrv g b : shuffles g -> wrap_new K nfv nrv true g = Ok b ->
  exists sm, wo_smpls b = Some sm /\ spread n nfv nrv d sm /\ all_on apo_on b sm.
Proof.
  intros Sh H. destruct (new_split K (apo_good n) apo_next Hn Hq apos_set_on (apo_next_on n) nfv nrv g b Sh H) as (sm & l & A & B & C & _ & D). exists sm. split; [exact A|]. split; [exact B|]. exists l. split; [exact C|]. intros m I. apply D, I.
Qed.
Lemma apos_inv nfv nrv draw g b0 b : shuffles g -> wrap_new K nfv nrv draw g = Ok b0 -> wlater K apos_do b0 b -> winv K (@apo_next P) b.
Proof.
  intros Sh H La. apply (calls_winv K apos_do (apo_good n) apo_next Hn Hq apos_set_on apos_do_is b0 b); [|exact La]. exact (new_winv K apos_do (apo_good n) apo_next Hn Hq apos_set_on apos_do_is nfv nrv draw g b0 Sh H).
Qed.
Lemma apos_shared nfv nrv draw g b0 b subs : shuffles g -> wrap_new K nfv nrv draw g = Ok b0 -> wlater K apos_do b0 b -> wo_subs b = Some subs ->
  length subs = length levels /\ exists sm, crossed n sm /\ all_on apo_on b sm.
Proof.
  intros Sh H La Es. destruct (proj2 (apos_inv nfv nrv draw g b0 b Sh H La) subs Es) as (nf1 & nr1 & sm & I). pose proof (subs_on K (apo_good n) apo_next apos_set_on (apo_next_on n) subs nf1 nr1 sm I) as On.
  destruct I as (Cr & _ & _ & Ln & _). split; [exact Ln|]. exists sm. split; [exact Cr|]. exists subs. split; [exact Es|]. intros m Im. apply On, Im.
Qed.
Lemma apos_any nfv nrv nfv' nrv' i p : (forall a b x, weights <> WDict a b x) -> wk_make K nfv nrv i = Ok p -> is_int nfv' = true -> (1 <= int_val nfv')%Z -> is_int nrv' = true -> (1 <= int_val nrv')%Z -> exists p', wk_make K nfv' nrv' i = Ok p'.
Proof.
  intros Nd H A B C D. destruct (proj1 (apos_make_accepts nfv nrv i) (ex_intro _ p H)) as (X1 & X2 & X3 & _ & X4 & X5 & X6). apply (proj2 (apos_make_accepts nfv' nrv' i)).
  unfold level_args. split; [exact X1|]. split; [exact X2|]. split; [exact X3|]. split; [split; auto|]. split; [exact X4|]. split; [|exact X6]. clear X6. destruct weights; try exact X5. exfalso. eapply Nd. reflexivity.
Qed.
Lemma apos_synced nfv nrv draw g b0 l : (forall a b x, weights <> WDict a b x) -> shuffles g -> wrap_new K nfv nrv draw g = Ok b0 -> (forall c, In c l -> wgood c /\ ~ asks_no_split n c /\ forall g, c <> WcDraw g) ->
  forall subs, wo_subs (wcalls K apos_do l b0) = Some subs -> exists sm, wo_smpls (wcalls K apos_do l b0) = Some sm /\ all_on apo_on (wcalls K apos_do l b0) sm.
Proof.
  intros Nd Sh H G subs Es. pose proof (new_synced K (apo_good n) apo_next Hn Hq apos_set_on (apo_next_on n) nfv nrv draw g b0 Sh H) as S0. pose proof (new_winv K apos_do (apo_good n) apo_next Hn Hq apos_set_on apos_do_is nfv nrv draw g b0 Sh H) as I0.
  destruct (calls_synced K apos_do (apo_good n) apo_next Hn Hq apos_set_on (apo_next_on n) apos_do_is apos_set_ok (fun nfv nrv nfv' nrv' i p => apos_any nfv nrv nfv' nrv' i p Nd) b0 l I0 S0) with (l := subs) as (sm & A & B).
  - intros c Hc. destruct (G c Hc) as (G1 & G2 & G3). auto.
  - exact Es.
  - exists sm. split; [exact A|]. exists subs. split; [exact Es|]. intros m I. apply B, I.
Qed.
Lemma apos_no_split b sp reps : good_split n sp reps -> no_split n reps ->
  exists b' e, wrap_set K sp b = (b', Err e) /\ wo_smpls b' = Some [[(seq 0 n, seq 0 n)]] /\ wo_subs b' = wo_subs b.
Proof. intros G N. destruct (no_split_set K (apo_good n) Hn Hq apos_set_on b sp reps G N) as (b' & e & A & B & _ & _ & C & _). eauto. Qed.
Lemma apos_never nfv nrv g b0 b v : In v levels -> ~ (exists c, M_Data.r_d (M_Data.dd_roles s) = [c]) \/ ~ frequent f (M_Data.c_d s) v -> wrap_new K nfv nrv false g = Ok b0 -> wlater K apos_do b0 b -> wo_subs b = None.
Proof.
  intros Iv Bad H La. apply (In_nth _ _ PNone) in Iv as (j & Hj & Ev). apply (never_made_later K apos_do apo_next Hn Hq apos_do_is j b0 b); [exact Hj| |injection H as <-; reflexivity|exact La].
  intros nf1 nr1 m Q. destruct (proj1 (apos_make_accepts nf1 nr1 j) (ex_intro _ m Q)) as (_ & D & Fr & _). rewrite Ev in Fr. destruct Bad as [X|X]; [apply X; eauto|exact (X Fr)].
Qed.
Lemma apos_refused_new nfv nrv g : shuffles g -> arrays_given weights -> type_or_value_error (wrap_new K nfv nrv true g).
Proof.
  intros Sh Ag e H. destruct (new_refused K Hn Hq apos_set_ok nfv nrv g e Sh H) as [R|(i & Hi & R)].
  - revert e R H. unfold resample. assert (X : forall kk, type_or_value_error (require (Z.leb 2 kk) ValueError (require (is_int nrv && Z.leb 1 (int_val nrv)) ValueError (require (all_whole (wk_n K) (wk_strata K)) ValueError (resampling (Z.to_nat kk) (Z.to_nat (int_val nrv)) (wk_n K) (Some (value_codes (wk_strata K))) g))))).
    { intro kk. apply td_req_v, td_req_v, td_req_v, td_resampling. }
    intros e R _. revert e R. destruct nfv; cbn [bind]; try apply X; first [apply td_type|apply td_value].
  - exact (apo_refused E P L rd f s Con Un _ _ _ _ _ _ _ _ _ _ _ Ag e R).
Qed.

(** What a fit reports. *)
Lemma levels_combine fs (sm : list (list fold)) : level_models n (length sm) fs -> fs <> [] -> exists h, fw_concat (map OpFw fs) = Ok h /\ levels_of n (length sm) fs h.
Proof.
  intros Lm N. assert (Th : forall g, In g fs -> fw_n_thetas g = 1%nat) by (intros g Hg; apply (Lm g Hg)).
  destruct (concat_ok fs N) as (h & Eh & W & C).
  - intros g Hg. destruct (Lm g Hg) as (A & _ & _ & _ & B & _). auto.
  - intros g g' Hg Hg'. destruct (Lm g Hg) as (_ & A1 & A2 & _), (Lm g' Hg') as (_ & B1 & B2 & _). split; congruence.
  - exists h. split; [exact Eh|]. split; [exact W|]. split; [rewrite (co_n_thetas _ _ C), sum_one; [reflexivity|exact Th]|].
    assert (D : fw_n_obs h = n /\ fw_n_rep h = length sm). { destruct fs as [|g l]; [congruence|]. destruct (co_dims _ _ C g (or_introl eq_refl)) as (-> & ->). destruct (Lm g (or_introl eq_refl)) as (_ & A & B & _). auto. }
    destruct D as (D1 & D2). split; [exact D1|]. split; [exact D2|]. intros k g Hk. destruct (Lm g (nth_error_In _ _ Hk)) as (_ & _ & _ & N1 & _).
    pose proof (co_vals _ _ C k g 0%nat Hk ltac:(rewrite N1; lia)) as V. rewrite block_one, Nat.add_0_r in V; [|exact Th|apply Nat.lt_le_incl, nth_error_Some; congruence]. destruct V as (V1 & V2 & _ & V4 & V5 & V6). auto.
Qed.
Lemma all_some_at {A} : forall (l : list (option A)) r, all_some l = Some r -> length r = length l /\ forall i x, nth_error r i = Some x -> nth_error l i = Some (Some x).
Proof.
  induction l as [|[a|] l IH]; intros r H; cbn in H.
  - injection H as <-. split; [reflexivity|]. intros [|i] x; discriminate.
  - destruct (all_some l) as [r'|] eqn:Q; [|discriminate]. injection H as <-. destruct (IH r' eq_refl) as (A1 & A2). split; [cbn; congruence|]. intros [|i] x Hx; [injection Hx as <-; reflexivity|apply A2, Hx].
  - discriminate.
Qed.
Lemma all_some_ok {A} : forall (l : list (option A)), (forall x, In x l -> x <> None) -> exists r, all_some l = Some r.
Proof.
  induction l as [|[a|] l IH]; intro H; cbn.
  - eauto.
  - destruct IH as (r & ->); [intros x Hx; apply H; right; exact Hx|eauto].
  - exfalso. apply (H None); [left; reflexivity|reflexivity].
Qed.
Lemma level_get_in v l e : level_get v l = Some e -> exists k, In (k, e) l /\ exists r, level_number k = Some r /\ level_number v = Some r.
Proof.
  induction l as [|(k, x) l IH]; cbn [level_get]; [discriminate|]. unfold same_level. change level_of with level_number. destruct (level_number v) as [a|] eqn:Ev.
  - destruct (level_number k) as [b|] eqn:Ek.
    + unfold reqb. destruct (Req_EM_T a b) as [->|].
      * intro H. injection H as <-. exists k. split; [left; reflexivity|]. exists b. auto.
      * intro H. destruct (IH H) as (k' & I & Q). exists k'. split; [right; exact I|exact Q].
    + intro H. destruct (IH H) as (k' & I & Q). exists k'. split; [right; exact I|exact Q].
  - intro H. destruct (IH H) as (k' & I & r & _ & Q). discriminate.
Qed.
Lemma inner_names (il : list (string * entry nd)) name :
  dict_get name (flat_map (fun nm => match dict_get nm il with Some e => [(nm, e)] | None => [] end) ["ml_g_d_lvl1"; "ml_m"; "ml_g_d_lvl0"]) =
  if smem name ["ml_g_d_lvl0"; "ml_g_d_lvl1"; "ml_m"] then dict_get name il else None.
Proof.
  assert (X : forall l, dict_get name (flat_map (fun nm => match dict_get nm il with Some e => [(nm, e)] | None => [] end) l) = if smem name l then dict_get name il else None).
  { induction l as [|a l IH]; [reflexivity|]. cbn [flat_map smem existsb]. unfold smem. cbn [existsb]. destruct (String.eqb name a) eqn:Q.
    - apply String.eqb_eq in Q. subst a. cbn [orb]. destruct (dict_get name il) as [e|] eqn:G; cbn [app]; [cbn [dict_get]; rewrite String.eqb_refl; reflexivity|]. rewrite IH. destruct (smem name l); reflexivity.
    - cbn [orb]. destruct (dict_get a il) as [e|]; cbn [app]; [cbn [dict_get]; rewrite Q; exact IH|exact IH]. }
  rewrite X. unfold smem. cbn [existsb]. destruct (String.eqb name "ml_g_d_lvl1"), (String.eqb name "ml_m"), (String.eqb name "ml_g_d_lvl0"); reflexivity.
Qed.
Definition exts_of (ext : apos_ext) : result (list ext_arg) :=
  match ext with
  | AxNone => Ok (map (fun _ => ExtNone) levels)
  | AxOther => Err TypeError
  | AxDict l => let! _ := check_level_ext levels l in map_res (renamed s l) levels
  end.
Lemma exts_at ext exts i v : exts_of ext = Ok exts -> nth_error levels i = Some v -> level_predictions (hd EmptyString (M_Data.r_d (M_Data.dd_roles s))) ext v (nth i exts ExtNone).
Proof.
  intros H Hv. unfold exts_of in H. destruct ext as [| |l]; [|discriminate|].
  - apply ok_inj in H. subst exts. left. split; [reflexivity|]. clear. revert i. induction levels as [|x l IH]; intros [|i]; cbn; auto.
  - apply bind_ok in H as (u & _ & H). right. destruct (map_res_at _ _ _ H) as (Ln & At). destruct (nth_error exts i) as [e|] eqn:Ei. 2:{ apply nth_error_None in Ei. assert (i < length levels)%nat by (apply nth_error_Some; congruence). lia. }
    rewrite (nth_error_nth _ _ _ Ei). destruct (At i e Ei) as (v' & Hv' & R). assert (v' = v) by congruence. subst v'. unfold renamed in R. destruct (level_get v l) as [[|il]|] eqn:G; try discriminate. apply ok_inj in R. subst e.
    apply level_get_in in G as (k & I & Q). exists l, k, il, (flat_map (fun name => match dict_get name il with Some e => [(name, e)] | None => [] end) ["ml_g_d_lvl1"; "ml_m"; "ml_g_d_lvl0"]).
    split; [reflexivity|]. split; [exact I|]. split; [exact Q|]. split; [reflexivity|]. intro name. apply inner_names.
Qed.
Lemma apos_fitted b nj st ext md b' : winv K (@apo_next P) b -> apos_fit s levels K nj st ext md b = (b', Ok tt) ->
  exists sm F fs, crossed n sm /\ all_on apo_on b sm /\ wo_fw b' = Some F /\ length fs = length levels /\ levels_of n (length sm) fs F /\
  forall i v Fi, nth_error levels i = Some v -> nth_error fs i = Some Fi -> exists nfv nrv e C w0 w w',
    level_predictions (hd EmptyString (M_Data.r_d (M_Data.dd_roles s))) ext v e /\ apo_init L rd f s ml_g ml_m v nfv nrv score weights norm rule thr (PBool false) = Ok (C, w0) /\
    int_val nrv = Z.of_nat (length sm) /\ later C w0 w /\ m_smpls (w_obj w) = Some sm /\ untuned w /\ fit C nj st e md w = (w', Ok tt) /\ framework_of w' = Some Fi.
Proof.
  intros I H. unfold apos_fit in H. destruct (exts_of ext) as [exts|e] eqn:Ex; pose proof Ex as Ex'; unfold exts_of in Ex'; rewrite Ex' in H; [|discriminate H]. clear Ex'.
  destruct (wrap_fit_ok K Hn Hq _ b b' H) as (l & l' & F & El & El' & EF & Co & Ln & Each). destruct (proj2 I l El) as (nf1 & nr1 & sm & Sub).
  pose proof (subs_on K (apo_good n) apo_next apos_set_on (apo_next_on n) l nf1 nr1 sm Sub) as On. destruct Sub as (Cr & Ir & _ & Lq & Or). change (wk_count K) with (length levels) in Lq.
  cbn [K wk_combine apos_class] in Co. destruct (all_some (map (fun p => framework_of (snd p)) l')) as [fs|] eqn:As; [|discriminate]. apply all_some_at in As as (Lf & At). rewrite map_length in Lf. change (ctx P * world P)%type with (@apo_object P) in Lf.
  assert (At' : forall i Fi, nth_error fs i = Some Fi -> exists p p', nth_error l i = Some p /\ nth_error l' i = Some p' /\ apo_good n p sm /\ fst p' = fst p /\ fit (fst p) nj st (nth i exts ExtNone) md (snd p) = (snd p', Ok tt) /\ framework_of (snd p') = Some Fi).
  { intros i Fi Hi. apply At in Hi. rewrite nth_error_map in Hi. change (ctx P * world P)%type with (@apo_object P) in Hi. destruct (nth_error l' i) as [p'|] eqn:Hp'; [|discriminate Hi]. cbn in Hi. injection Hi as Hi.
    destruct (nth_error l i) as [p|] eqn:Hp. 2:{ apply nth_error_None in Hp. assert (i < length l')%nat by (apply nth_error_Some; congruence). lia. }
    destruct (Each i p Hp) as (p'' & Z & Ft). assert (p'' = p') by congruence. subst p''. cbv beta in Ft. destruct (fit (fst p) nj st (nth i exts ExtNone) md (snd p)) as (w', r) eqn:Q. apply pair_equal_spec in Ft as (<- & ->). exists p, (fst p, w'). cbn [fst snd] in *.
    split; [reflexivity|]. split; [reflexivity|]. split; [apply On, (nth_error_In _ _ Hp)|]. auto. }
  exists sm, F, fs. split; [exact Cr|]. split; [exists l; split; [exact El|intros m Hm; apply On, Hm]|]. split; [exact EF|]. split; [congruence|]. split.
  - assert (Lm : level_models n (length sm) fs).
    { intros g Hg. apply In_nth_error in Hg as (i & Hi). destruct (At' i g Hi) as ((C, w) & (C', w') & _ & _ & Gd & _ & Ft & Fw). cbn [fst snd] in *. destruct (apo_fw n _ _ _ _ _ _ _ _ Hn Gd Ft) as (F0 & Q & Rest). assert (F0 = g) by congruence. subst F0. exact Rest. }
    destruct (levels_combine fs sm Lm) as (h & Eh & Rest); [destruct fs; [cbn in Lf; lia|discriminate]|]. assert (h = F) by congruence. subst h. exact Rest.
  - intros i v Fi Hv Hf. destruct (At' i Fi Hf) as ((C, w) & (C', w') & Hp & _ & (On' & _ & Ut) & Q & Ft & Fw). cbn [fst snd] in *. subst C'. destruct (apos_origin nf1 nr1 sm i (C, w) (Or i _ Hp)) as ((C0, w0) & Mk & (Q & La)). cbn [fst snd] in Q, La. subst C0.
    cbn [K wk_make apos_class] in Mk. rewrite (nth_error_nth _ _ PNone Hv) in Mk. exists nf1, nr1, (nth i exts ExtNone), C, w0, w, w'. split; [exact (exts_at ext exts i v Ex Hv)|]. auto 10.
Qed.
Lemma apos_succeeds b nj st md l : winv K (@apo_next P) b -> wo_subs b = Some l -> (forall p, In p l -> snd (fit (fst p) nj st ExtNone md (snd p)) = Ok tt) -> exists b', apos_fit s levels K nj st AxNone md b = (b', Ok tt).
Proof.
  intros I El Fk. unfold apos_fit. cbv iota. set (exts := map (fun _ => ExtNone) levels). assert (Z : forall i, nth i exts ExtNone = ExtNone) by (unfold exts; clear; induction levels as [|x l IH]; intros [|i]; cbn; auto).
  unfold wrap_fit. rewrite El. match goal with |- context [fit_each ?h 0 l] => set (fitter := h) end. destruct (fit_each_succeeds K Hn Hq fitter l 0) as (l' & Ef).
  { intros j p Hp. specialize (Fk p (nth_error_In _ _ Hp)). unfold fitter. rewrite Z. destruct (fit (fst p) nj st ExtNone md (snd p)) as (w', r). cbn in Fk. subst r. eexists. reflexivity. }
  rewrite Ef. cbn [bind]. destruct (fit_each_ok K Hn Hq _ _ _ _ Ef) as (Ln & Each). destruct (proj2 I l El) as (nf1 & nr1 & sm & Sub).
  pose proof (subs_on K (apo_good n) apo_next apos_set_on (apo_next_on n) l nf1 nr1 sm Sub) as On. destruct Sub as (_ & _ & _ & Lq & _). change (wk_count K) with (length levels) in Lq.
  assert (Fit' : forall i p', nth_error l' i = Some p' -> exists p, nth_error l i = Some p /\ fst p' = fst p /\ fit (fst p) nj st ExtNone md (snd p) = (snd p', Ok tt)).
  { intros i p' Hp'. destruct (nth_error l i) as [p|] eqn:Hp. 2:{ apply nth_error_None in Hp. assert (i < length l')%nat by (apply nth_error_Some; congruence). lia. }
    destruct (Each i p Hp) as (p'' & Y & Ft). assert (p'' = p') by congruence. subst p''. unfold fitter in Ft. rewrite Z in Ft. destruct (fit (fst p) nj st ExtNone md (snd p)) as (w', r) eqn:Q. apply pair_equal_spec in Ft as (<- & ->). exists p. auto. }
  assert (Fw : forall i p', nth_error l' i = Some p' -> exists F, framework_of (snd p') = Some F /\ level_models n (length sm) [F]).
  { intros i p' Hp'. destruct (Fit' i p' Hp') as ((C, w) & Hp & Q & Ft). destruct p' as (C', w'). cbn [fst snd] in *. destruct (apo_fw n _ _ _ _ _ _ _ _ Hn (On _ (nth_error_In _ _ Hp)) Ft) as (F & Q' & Rest). exists F. split; [exact Q'|]. intros g [<-|[]]. exact Rest. }
  cbn [K wk_combine apos_class]. destruct (all_some_ok (map (fun p => framework_of (snd p)) l')) as (fs & As).
  { intros x Hx. apply in_map_iff in Hx as (p' & <- & Hp'). apply In_nth_error in Hp' as (i & Hi). destruct (Fw i p' Hi) as (F & -> & _). discriminate. }
  rewrite As. apply all_some_at in As as (Lf & At). rewrite map_length in Lf. change (ctx P * world P)%type with (@apo_object P) in Lf. destruct (levels_combine fs sm) as (h & -> & _); [|destruct fs; [cbn in Lf; lia|discriminate]|eexists; reflexivity].
  intros g Hg. apply In_nth_error in Hg as (i & Hi). apply At in Hi. rewrite nth_error_map in Hi. change (ctx P * world P)%type with (@apo_object P) in Hi. destruct (nth_error l' i) as [p'|] eqn:Hp'; [|discriminate Hi]. cbn in Hi. injection Hi as Hi. destruct (Fw i p' Hp') as (F & Q & Lm). rewrite Hi in Q. injection Q as <-. apply Lm. left. reflexivity.
Qed.
(** External predictions that cover only some of the levels. *)
Lemma apos_missing b nj st md l v : (forall k e, In (k, e) l -> (exists v', In v' levels /\ exists r, level_number k = Some r /\ level_number v' = Some r) /\ exists il, e = LxDict il /\ forall x, In x il -> In (fst x) ["ml_g_d_lvl0"; "ml_g_d_lvl1"; "ml_m"]) ->
  In v levels -> (forall k e r, In (k, e) l -> level_number k = Some r -> level_number v <> Some r) -> apos_fit s levels K nj st (AxDict l) md b = (b, Err KeyError).
Proof.
  intros G Iv Miss. unfold apos_fit. assert (Ck : check_level_ext levels l = Ok tt).
  { unfold check_level_ext. replace (forallb (fun p => existsb (same_level (fst p)) levels) l) with true.
    - cbn [require]. assert (X : forall q, In q l -> match snd q with LxOther => Err TypeError | LxDict il => require (forallb (fun y => smem (fst y) apo_names) il) ValueError (Ok tt) end = Ok tt).
      { intros (k, e) Hke. destruct (G k e Hke) as (_ & il & -> & Nm). cbn [snd]. replace (forallb (fun y => smem (fst y) apo_names) il) with true; [reflexivity|]. symmetry. apply forallb_forall. intros y Hy. apply smem_in, Nm, Hy. }
      clear - X. induction l as [|q l IH]; [reflexivity|]. cbn [all_ok]. rewrite (X q (or_introl eq_refl)). cbn [bind]. apply IH. intros q' Hq'. apply X. right. exact Hq'.
    - symmetry. apply forallb_forall. intros (k, e) Hke. destruct (G k e Hke) as ((v' & Hv' & r & R1 & R2) & _). apply existsb_exists. exists v'. split; [exact Hv'|]. unfold same_level. cbn [fst]. change level_of with level_number. rewrite R1, R2. unfold reqb. destruct (Req_EM_T r r); [reflexivity|contradiction]. }
  rewrite Ck. cbn [bind]. assert (Mg : forall v', level_get v' l = None \/ exists il, level_get v' l = Some (LxDict il)).
  { intro v'. destruct (level_get v' l) as [e|] eqn:Q; [|auto]. apply level_get_in in Q as (k & Hk & _). destruct (G k e Hk) as (_ & il & -> & _). right. eauto. }
  assert (Mv : level_get v l = None). { destruct (level_get v l) as [e|] eqn:Q; [|reflexivity]. apply level_get_in in Q as (k & Hk & r & R1 & R2). exfalso. exact (Miss k e r Hk R1 R2). }
  assert (X : map_res (renamed s l) levels = Err KeyError).
  { clear - Iv Mg Mv. induction levels as [|v0 lv IH]; [destruct Iv|]. cbn [map_res]. unfold renamed at 1. destruct (Mg v0) as [Q|(il & Q)]; rewrite Q; [reflexivity|]. cbn [bind]. destruct Iv as [->|Iv]; [congruence|]. rewrite (IH Iv). reflexivity. }
  rewrite X. reflexivity.
Qed.
End Obj.
(** The constructor. *)
Definition apos_base (ml_g ml_m : pylearner E) (levels : list pyval) (nrv score : pyval) (weights : warg) (norm rule thr : pyval) : Prop :=
  no_instruments s /\ (forall v, In v levels -> occurs f s v) /\ score = PStr "APO" /\ weights_ok weights ScATE n (Z.to_nat (int_val nrv)) /\ outcome_learner f s ml_g /\ predicts_probabilities ml_m /\ boolean norm /\ trimming_ok rule thr.
Lemma apos_unfold ml_g ml_m levels nfv nrv score weights norm rule thr draw K b :
  @apos_init E P L rd f s ml_g ml_m levels nfv nrv score weights norm rule thr draw = Ok (K, b) <->
  apos_base ml_g ml_m levels nrv score weights norm rule thr /\ K = apos_class L rd f s (cloned_learner L ml_g) (cloned_learner L ml_m) levels score (stored_weights f weights) norm rule thr /\ wrap_new K nfv nrv draw (rd_g rd) = Ok b.
Proof.
  unfold apos_init, apos_base. split.
  - intro H. ri H Zn. ri H Lv. bi H sc Sc. bi H th T. bi H nm Nm. bi H gc G. bi H mm M. bi H u Og. bi H u' W. cbv zeta in H. bi H b' Wn. apply ok_inj in H. injection H as <- <-. destruct u, u'.
    apply (no_z_iff s) in Zn. rewrite forallb_forall in Lv. apply score_iff in Sc as (-> & Sc). apply trimming_iff in T as (T1 & T2 & T3). apply bool_iff in Nm. apply (outcome_iff f s Con ml_g gc G) in Og. apply learner_proba in M as (M & _). apply accepted_iff in W.
    split; [|auto]. split; [exact Zn|]. split; [intros v Hv; apply occurs_iff, Lv, Hv|]. split; [destruct Sc as [<-|[]]; reflexivity|]. split; [exact W|]. split; [exact Og|]. split; [exact M|]. split; [eexists; exact Nm|]. split; [exact T1|eauto].
  - intros ((Zn & Lv & -> & W & Og & Pm & (nm & Nm) & (T1 & th & T2 & T3)) & -> & Wn). rewrite (proj2 (no_z_iff s) Zn). cbn [require]. replace (forallb (level_occurs f s) levels) with true by (symmetry; apply forallb_forall; intros v Hv; apply occurs_iff, Lv, Hv). cbn [require check_score smem existsb String.eqb Ascii.eqb Bool.eqb orb bind].
    rewrite (proj2 (trimming_iff rule thr th) (conj T1 (conj T2 T3))). cbn [bind]. rewrite (proj2 (bool_iff _ _) Nm). cbn [bind].
    assert (Gc : check_learner ml_g true true = Ok (ly_classifier ml_g)) by (apply learner_either; split; [apply Og|reflexivity]). rewrite Gc. cbn [bind]. rewrite (proj2 (learner_proba ml_m true) (conj Pm eq_refl)). cbn [bind]. rewrite (proj2 (outcome_iff f s Con ml_g _ Gc) Og). cbn [bind].
    pose proof (proj2 (accepted_iff _ _ _ _) W) as W'. unfold n in W'. rewrite W'. cbn [bind]. cbv zeta. rewrite Wn. reflexivity.
Qed.
Lemma apos_accepts ml_g ml_m levels nfv nrv score weights norm rule thr : levels <> [] ->
  (succeeds (@apos_init E P L rd f s ml_g ml_m levels nfv nrv score weights norm rule thr true) <->
   no_instruments s /\ (exists c, M_Data.r_d (M_Data.dd_roles s) = [c] /\ whole_numbers n (col f c) /\ split_args n nfv nrv (PBool true) (Some (col f c)) /\ forall v, In v levels -> frequent f c v) /\
   score = PStr "APO" /\ weights_ok weights ScATE n (Z.to_nat (int_val nrv)) /\ outcome_learner f s ml_g /\ predicts_probabilities ml_m /\ boolean norm /\ trimming_ok rule thr).
Proof.
  intro Hq. assert (Sh : shuffles (rd_g rd)) by apply Rd. assert (Len : (0 < length levels)%nat) by (destruct levels; [congruence|cbn; lia]). split.
  - intros ((K, b) & H). apply apos_unfold in H as ((Zn & Lv & Rest) & -> & W). destruct (proj1 (apos_new (cloned_learner L ml_g) (cloned_learner L ml_m) levels score (stored_weights f weights) norm rule thr Len nfv nrv (rd_g rd) Sh) (ex_intro _ b W)) as (Sp & Wh & Mk).
    split; [exact Zn|]. split; [|exact Rest]. exists (M_Data.c_d s). destruct levels as [|v0 lv] eqn:Elv; [congruence|]. destruct (Mk v0 (or_introl eq_refl)) as (_ & D & _). split; [exact D|]. split; [exact Wh|]. split; [exact Sp|]. intros v Hv. apply (Mk v Hv).
  - intros (Zn & (c & D & Wh & Sp & Fr) & -> & W & Og & Pm & Nm & T). pose proof (one_treatment c D) as Z. subst c.
    assert (X : succeeds (wrap_new (@apos_class E P L rd f s (cloned_learner L ml_g) (cloned_learner L ml_m) levels (PStr "APO") (stored_weights f weights) norm rule thr) nfv nrv true (rd_g rd))).
    { apply (apos_new (cloned_learner L ml_g) (cloned_learner L ml_m) levels (PStr "APO") (stored_weights f weights) norm rule thr Len nfv nrv (rd_g rd) Sh). split; [exact Sp|]. split; [exact Wh|]. intros v Hv.
      split; [exact Zn|]. split; [exact D|]. split; [apply Fr, Hv|]. split; [destruct Sp as (S1 & S2 & S3 & S4 & _); split; auto|]. split; [reflexivity|]. split; [apply stored_ok, W|]. split; [exact Og|]. split; [exact Pm|]. auto. }
    destruct X as (b & Wn). eexists (_, b). apply apos_unfold. split; [|split; [reflexivity|exact Wn]]. split; [exact Zn|]. split; [intros v Hv; apply frequent_occurs, Fr, Hv|]. split; [reflexivity|]. auto 8.
Qed.
Lemma apos_unsplit ml_g ml_m levels nfv nrv score weights norm rule thr :
  succeeds (@apos_init E P L rd f s ml_g ml_m levels nfv nrv score weights norm rule thr false) <->
   no_instruments s /\ (forall v, In v levels -> occurs f s v) /\ score = PStr "APO" /\ weights_ok weights ScATE n (Z.to_nat (int_val nrv)) /\ outcome_learner f s ml_g /\ predicts_probabilities ml_m /\ boolean norm /\ trimming_ok rule thr.
Proof.
  split; [intros ((K, b) & H); apply apos_unfold in H as (B & _); exact B|]. intro B. eexists (_, _). apply apos_unfold. split; [exact B|]. split; reflexivity.
Qed.
Lemma apos_refused ml_g ml_m levels nfv nrv score weights norm rule thr draw : levels <> [] -> arrays_given weights -> type_or_value_error (@apos_init E P L rd f s ml_g ml_m levels nfv nrv score weights norm rule thr draw).
Proof.
  intros Hq Ag. assert (Len : (0 < length levels)%nat) by (destruct levels; [congruence|cbn; lia]).
  unfold apos_init. apply td_req_v, td_req_v. apply td_bind; [apply td_score|intro]. apply td_bind; [apply td_trim|intro]. apply td_bind; [apply td_bool|intro]. apply td_bind; [apply td_learner|intro]. apply td_bind; [apply td_learner|intro]. apply td_bind; [apply td_outcome|intro].
  apply td_bind; [apply td_weights; [exact Ag|discriminate]|intro]. cbv zeta. apply td_bind; [|intro; apply td_ok]. destruct draw; [|intros e H; discriminate H].
  apply (apos_refused_new (cloned_learner L ml_g) (cloned_learner L ml_m) levels score (stored_weights f weights) norm rule thr Len nfv nrv (rd_g rd)); [apply Rd|]. destruct weights; cbn; auto.
Qed.
End Apos.

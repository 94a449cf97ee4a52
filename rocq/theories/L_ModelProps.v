(** Properties of fitted objects. *)
From Verif Require Export L_ModelFit S_Lifecycle.
From Verif Require Import L_VarEst.
From Coq Require Import FunctionalExtensionality.
Local Open Scope R_scope.

Section Obj.
Context {P : Type}.
Variable C : ctx P.
Notation n := (c_n C).
Notation nt := (length (c_dcols C)).

Lemma smem_in l ls : In l ls -> smem l ls = true.
Proof. intro H. unfold smem. apply existsb_exists. exists l. split; [exact H|apply String.eqb_refl]. Qed.
Lemma external_matches ext d r ed : set_external ext (c_learners C) d r = Ok ed -> ext_matches C ext d r ed.
Proof.
  unfold set_external, ext_matches. intros H l Hl. destruct ext as [| |el]; [injection H as <-; intros v (? & ? & ? & E & _); discriminate|discriminate|].
  destruct (c_learners C) as [|l0 ls] eqn:El; [destruct Hl|]. rewrite <- El in *. clear El.
  destruct (dict_get d el) as [[|il]|] eqn:Ed; try discriminate. injection H as <-. rewrite (smem_in _ _ Hl).
  destruct (dict_get l il) as [x|] eqn:Ei.
  - destruct x; [intros v (? & ? & ? & E & E1 & E2 & _); congruence..|]. exists el, il. eexists. split; [reflexivity|]. split; [exact Ed|]. split; [exact Ei|]. reflexivity.
  - intros v (? & ? & ? & E & E1 & E2 & _). congruence.
Qed.
Lemma cluster_split w r cl : cluster_args_of C (w_obj w) r = Ok cl -> cl = split_cluster C w r.
Proof.
  unfold cluster_args_of, split_cluster. destruct (c_cluster C) as [cv|]; [|congruence]. unfold smpls_rep.
  destruct (m_smpls (w_obj w)) as [sm|]; [|discriminate]. destruct (nth_error sm r) as [fs|] eqn:E1; [|discriminate]. cbn [bind].
  destruct (m_smpls_cluster (w_obj w)) as [sc|]; [|discriminate]. destruct (nth_error sc r) as [s|] eqn:E2; [|discriminate]. cbn [bind]. intro H. injection H as <-.
  now rewrite (nth_error_nth _ _ _ E1), (nth_error_nth _ _ _ E2).
Qed.

(** What the nuisance estimation returns. *)
Definition blank_out : nuis_out := {| no_a := fun _ => 0; no_b := fun _ => 0; no_preds := fun _ _ => None; no_targets := fun _ => None |}.
Definition out_of (m : dml P) (ext : ext_arg) (r t : nat) : nuis_out := match nuis_call C m ext r t with Ok no => no | Err _ => blank_out end.
Lemma out_call m ext r t no cl s2 v : step_fun C m ext r t = Ok (no, cl, s2, v) -> no = out_of m ext r t.
Proof. intro H. apply step_fun_iff in H. destruct H as (E & _). unfold out_of. now rewrite E. Qed.
Lemma calls_results w ext : (0 < nt)%nat -> wf C w -> calls_ok C (w_obj w) ext -> nuisance_results C w ext (out_of (w_obj w) ext).
Proof.
  intros Hnt W H. assert (Hr := wf_rep _ _ W). destruct (H 0%nat 0%nat Hr Hnt) as ([[[no0 cl0] s0] v0] & E0). apply step_fun_iff in E0. destruct E0 as (E0 & _). unfold nuis_call in E0.
  destruct (set_external _ _ _ _); [|discriminate]. cbn [bind] in E0. unfold smpls_rep in E0. destruct (m_smpls (w_obj w)) as [sm|] eqn:Es; [|discriminate]. clear E0.
  exists sm. split; [exact Es|]. split; [apply (wf_smpls _ _ W); exact Es|]. intros r t d Hr' Hd.
  assert (Ht : (t < nt)%nat) by (apply nth_error_Some; congruence). destruct (H r t Hr' Ht) as ([[[no cl] s] v] & E). rewrite <- (out_call _ _ _ _ _ _ _ _ E).
  apply step_fun_iff in E. destruct E as (E & _). unfold nuis_call in E. rewrite (nth_error_nth _ _ EmptyString Hd) in E.
  destruct (set_external ext (c_learners C) d r) as [ed|] eqn:Ee; [|discriminate]. cbn [bind] in E. apply external_matches in Ee. exists ed. split; [exact Ee|].
  unfold smpls_rep in E. rewrite Es in E. destruct (nth_error sm r) as [fs|] eqn:Ef; [|discriminate]. cbn [bind] in E. now rewrite (nth_error_nth _ _ [] Ef).
Qed.

Section Fitted.
Variables (st : bool) (ext : ext_arg) (w w2 : world P).
Hypothesis Hnt : (0 < nt)%nat.
Hypothesis L : linv C st ext w whole w2.
Hypothesis Sc : sens_cond C (w_obj w) ext.
Let out := out_of (w_obj w) ext.
Let f := fin_fw C w2 (fin_cluster C w2) (fin_se C w2).

Lemma cell r t : (r < m_n_rep (w_obj w))%nat -> (t < nt)%nat -> exists s2 v, var_est n (psi_of C (split_cluster C w r) (out r t)) (no_a (out r t)) (split_cluster C w r) = Ok (s2, v) /\
  cell_written C st r t (out r t) (split_cluster C w r) s2 v w2.
Proof.
  intros Hr Ht. destruct L as [W F Fr Cl]. destruct (Cl r t I Hr Ht) as (no & cl & s2 & v & E & K). pose proof (out_call _ _ _ _ _ _ _ _ E : no = out r t) as Eno. rewrite <- Eno.
  apply step_fun_iff in E. destruct E as (_ & E1 & E2). apply cluster_split in E1. subst cl. exists s2, v. split; [exact E2|exact K].
Qed.
Lemma fin_framework_wf : fw_wf f.
Proof. pose proof (fin_mk _ _ _ _ _ Hnt L Sc) as H. apply mk_fw_inv in H. apply H. Qed.
Lemma fin_agg_ok : fw_aggregated f.
Proof.
  destruct L as [W _ _ _]. destruct (wf_fin_agg C w2 W) as (_ & _ & A & B). intros t Ht. unfold f, fin_fw. cbn [fw_thetas fw_ses fw_n_rep fw_all_thetas fw_all_ses fw_vs b_nd nd_b at_ b_at oget].
  split; [apply A|]. apply B.
Qed.
Lemma n_rep_eq : m_n_rep (w_obj w2) = m_n_rep (w_obj w).
Proof. destruct L as [_ _ Fr _]. apply (fr_n_rep _ _ _ Fr). Qed.
Lemma fin_reports : reports C w out f.
Proof.
  pose proof n_rep_eq as En. assert (Fr := li_fr _ _ _ _ _ _ L). constructor; try reflexivity.
  - exact En.
  - apply fin_framework_wf.
  - apply fin_agg_ok.
  - intros r t Hr Ht. cbn in Hr, Ht. rewrite En in Hr. destruct (cell r t Hr Ht) as (s2 & v & _ & K). unfold f. cbn [fin_fw fw_all_thetas b_nd at_]. rewrite (cw_coef _ _ _ _ _ _ _ _ _ K). reflexivity.
  - intros r t Hr Ht. cbn in Hr, Ht. rewrite En in Hr. destruct (cell r t Hr Ht) as (s2 & v & E & K). exists s2. unfold f. cbn [fin_fw fw_all_ses fw_vs b_nd at_].
    rewrite (cw_se _ _ _ _ _ _ _ _ _ K), (cw_vs _ _ _ _ _ _ _ _ _ K). split; [exact E|reflexivity].
  - intros r t i Hr Ht Hi. cbn in Hr, Ht. rewrite En in Hr. destruct (cell r t Hr Ht) as (s2 & v & E & K). unfold f. cbn [fin_fw fw_scaled_psi mk3 at_]. unfold col_of. rewrite (cw_psi _ _ _ _ _ _ _ _ _ K). cbn [oget]. f_equal.
    f_equal. apply functional_extensionality. intro j. rewrite (cw_dpsi _ _ _ _ _ _ _ _ _ K). reflexivity.
  - unfold f, fin_fw, fin_cluster. cbn [fw_cluster]. destruct (c_cluster C) as [cv|] eqn:Ec; [|reflexivity].
    assert (Hr : (0 < m_n_rep (w_obj w))%nat) by (rewrite <- En; exact (wf_rep _ _ (li_wf _ _ _ _ _ _ L))).
    destruct (li_cells _ _ _ _ _ _ L 0%nat 0%nat I Hr Hnt) as (no & cl & s2 & v & E & _). apply step_fun_iff in E. destruct E as (_ & E & _). unfold cluster_args_of in E. rewrite Ec in E. unfold smpls_rep in E.
    rewrite <- (fr_smpls _ _ _ Fr), <- (fr_smpls_c _ _ _ Fr) in *. rewrite (fr_nfpc _ _ _ Fr). destruct (m_smpls (w_obj w2)) as [sm|]; [|discriminate]. destruct (nth_error sm 0); [|discriminate]. cbn [bind] in E.
    destruct (m_smpls_cluster (w_obj w2)) as [sc|]; [|discriminate]. exists sm, sc. auto.
Qed.
Lemma fin_current : current_fw (fit_result C w2) f.
Proof.
  exists (length (w_fws w2)). eexists. split; [reflexivity|]. split; [cbn [fit_result w_fws]; rewrite nth_error_app2, Nat.sub_diag by lia; reflexivity|]. reflexivity.
Qed.
Lemma fin_object : object_matches C (fit_result C w2) f.
Proof.
  pose proof n_rep_eq as En. destruct L as [W F Fr Cl]. destruct (wf_fin_agg C w2 W) as (A1 & A2 & A & B). split; [split; [exact A1|exact A2]|]. split.
  - intros t Ht. split; reflexivity.
  - intros t r Ht Hr. cbn in Hr. rewrite En in Hr. destruct (cell r t Hr Ht) as (s2 & v & E & K). unfold f. cbn [fin_fw fw_all_thetas fw_all_ses b_nd at_ fit_result w_heap w_obj fin_world with_fw with_results with_sens with_coef with_arrays m_all_coef m_all_se].
    rewrite (cw_coef _ _ _ _ _ _ _ _ _ K), (cw_se _ _ _ _ _ _ _ _ _ K). split; reflexivity.
Qed.
Lemma clip_eq x : rclip (1 / 10 ^ 15) (1 - 1 / 10 ^ 15) x = Rmax (1 / 10 ^ 15) (Rmin (1 - 1 / 10 ^ 15) x).
Proof.
  assert (H : 1 / 10 ^ 15 <= 1 - 1 / 10 ^ 15) by lra. unfold rclip, Rmax, Rmin. repeat destruct (Rle_dec _ _); lra.
Qed.
Lemma loss_spec cf p t : is_loss n cf p (match t with Some v => v | None => fun _ => None end) (loss_value C cf p t).
Proof.
  unfold is_loss, loss_value. destruct t as [tg|].
  - unfold paired. change (flat_map _ (seq 0 n)) with (available n p tg). destruct (available n p tg) as [|x l] eqn:E; [reflexivity|].
    f_equal. destruct cf; [|reflexivity]. f_equal. f_equal. apply map_ext. intro y. cbv zeta. now rewrite clip_eq.
  - replace (available n p (fun _ => None)) with (@nil (R * R)); [reflexivity|]. unfold available. induction (seq 0 n) as [|i q IH]; [reflexivity|]. cbn. destruct (p i); exact IH.
Qed.
Lemma fin_losses : reports_losses C (fit_result C w2) out.
Proof.
  pose proof n_rep_eq as En. destruct L as [W F Fr Cl]. destruct (fs_loss _ _ _ F) as (d & Ed & Sd). exists d. split; [exact Ed|]. intros l r t Hl Hr Ht. cbn in Hr. rewrite En in Hr.
  destruct (cell r t Hr Ht) as (s2 & v & E & K). rewrite (cw_loss _ _ _ _ _ _ _ _ _ K d l Ed Hl). apply loss_spec.
Qed.
Lemma fin_stored : st = true -> stores_predictions C (fit_result C w2) out.
Proof.
  intro Hst. pose proof n_rep_eq as En. destruct L as [W F Fr Cl]. destruct (fs_preds _ _ _ F Hst) as (d & Ed & Sd). destruct (fs_targets _ _ _ F Hst) as (d' & Ed' & Sd').
  exists d, d'. split; [exact Ed|]. split; [exact Ed'|]. intros l r t i Hl Hr Ht. cbn in Hr. rewrite En in Hr.
  destruct (cell r t Hr Ht) as (s2 & v & E & K). rewrite (cw_preds _ _ _ _ _ _ _ _ _ K Hst d l i Ed Hl), (cw_targets _ _ _ _ _ _ _ _ _ K Hst d' l i Ed' Hl). auto.
Qed.
End Fitted.

Lemma dcols_pos : c_dcols C <> [] -> (0 < nt)%nat.
Proof. destruct (c_dcols C); [congruence|cbn; lia]. Qed.

(** C57 *)
Lemma fit_reports w nj store ext sm w' : c_dcols C <> [] -> reachable C w -> fit C nj store ext sm w = (w', Ok tt) ->
  exists out f, nuisance_results C w ext out /\ current_fw w' f /\ reports C w out f /\ object_matches C w' f /\ reports_losses C w' out /\
    (store = PBool true -> stores_predictions C w' out) /\ m_smpls (w_obj w') = m_smpls (w_obj w) /\ m_n_rep (w_obj w') = m_n_rep (w_obj w).
Proof.
  intros Hd Hr H. apply dcols_pos in Hd. apply reachable_wf in Hr. destruct (fit_inv _ _ _ _ _ _ _ Hd Hr H) as (_ & Ck & Sc & w2 & L & ->).
  exists (out_of (w_obj w) ext). eexists. split; [apply calls_results; assumption|]. split; [apply fin_current; exact Hd|]. split; [eapply fin_reports; eassumption|].
  split; [eapply fin_object; eassumption|]. split; [eapply fin_losses; eassumption|]. split; [intro E; eapply fin_stored; [exact L|rewrite E; reflexivity]|].
  pose proof (li_fr _ _ _ _ _ _ L) as Fr. split; [exact (fr_smpls _ _ _ Fr)|exact (fr_n_rep _ _ _ Fr)].
Qed.
Lemma reports_scores w out f : (0 < n)%nat -> c_cluster C = None -> reports C w out f ->
  (forall r t, (r < fw_n_rep f)%nat -> (t < nt)%nat -> meanf n (no_a (out r t)) <> 0) -> fw_ses_from_scores f /\ forall t, (t < nt)%nat -> (0 < fw_n_rep f)%nat -> at_ (fw_vs f) [t] = INR n.
Proof.
  intros Hn Ec Rp Hm. assert (Es : forall r, split_cluster C w r = None) by (intro; unfold split_cluster; now rewrite Ec).
  assert (K : forall r t, (r < fw_n_rep f)%nat -> (t < nt)%nat -> at_ (fw_all_ses f) [t; r] = sqrt (meanf n (fun i => (psi_of C None (out r t) i / meanf n (no_a (out r t))) ^ 2) / INR n) /\ at_ (fw_vs f) [t] = INR n).
  { intros r t Hr Ht. destruct (rp_se _ _ _ _ Rp r t Hr) as (s2 & E & Q); [rewrite (rp_n_thetas _ _ _ _ Rp); exact Ht|]. rewrite Es in E. apply var_est_framework in E; [|auto|exact Hn]. destruct E as [-> E]. auto. }
  split.
  - intros t r Ht Hr. rewrite (rp_n_thetas _ _ _ _ Rp) in Ht. destruct (K r t Hr Ht) as [-> ->]. f_equal. f_equal. rewrite (rp_n_obs _ _ _ _ Rp). apply meanf_ext. intros i Hi.
    rewrite (rp_psi _ _ _ _ Rp r t i Hr); [rewrite Es; reflexivity|rewrite (rp_n_thetas _ _ _ _ Rp); exact Ht|exact Hi].
  - intros t Ht Hr. destruct (K 0%nat t Hr Ht) as [_ E]. exact E.
Qed.
Lemma fit_scores w nj store ext sm w' : (0 < n)%nat -> c_dcols C <> [] -> c_cluster C = None -> reachable C w -> fit C nj store ext sm w = (w', Ok tt) ->
  (forall r t fs ps e no, c_nuis C r t fs ps e = Ok no -> meanf n (no_a no) <> 0) ->
  exists f, current_fw w' f /\ fw_wf f /\ fw_aggregated f /\ fw_ses_from_scores f /\ (0 < fw_n_rep f)%nat /\ forall t, (t < fw_n_thetas f)%nat -> at_ (fw_vs f) [t] = INR n.
Proof.
  intros Hn Hd Ec Hr H Hm. destruct (fit_reports _ _ _ _ _ _ Hd Hr H) as (out & f & (smp & Es & Ls & Nr) & Cf & Rp & _). exists f. split; [exact Cf|]. split; [apply (rp_wf _ _ _ _ Rp)|]. split; [apply (rp_agg _ _ _ _ Rp)|].
  assert (Hp : (0 < fw_n_rep f)%nat) by (rewrite (rp_n_rep _ _ _ _ Rp); apply (wf_rep C); apply reachable_wf; exact Hr).
  destruct (reports_scores w out f Hn Ec Rp) as [A B].
  - intros r t Hr' Ht. rewrite (rp_n_rep _ _ _ _ Rp) in Hr'. destruct (nth_error (c_dcols C) t) as [d|] eqn:Ed; [|apply nth_error_None in Ed; lia].
    destruct (Nr r t d Hr' Ed) as (e & _ & E). eapply Hm; exact E.
  - split; [exact A|]. split; [exact Hp|]. intros t Ht. rewrite (rp_n_thetas _ _ _ _ Rp) in Ht. auto.
Qed.

(** C37 *)
Lemma config_calls w1 w2 ext : same_config w1 w2 -> forall r t, step_fun C (w_obj w1) ext r t = step_fun C (w_obj w2) ext r t.
Proof. intros (A & B & D & E & F) r t. apply step_fun_cfg; assumption. Qed.
Lemma config_sym (w1 w2 : world P) : same_config w1 w2 -> same_config w2 w1.
Proof. intros (A & B & D & E & F). repeat split; congruence. Qed.
Lemma config_success w1 w2 nj store ext sm w1' : c_dcols C <> [] -> reachable C w1 -> reachable C w2 -> same_config w1 w2 ->
  fit C nj store ext sm w1 = (w1', Ok tt) -> exists w2', fit C nj store ext sm w2 = (w2', Ok tt).
Proof.
  intros Hd R1 R2 Sm H. apply dcols_pos in Hd. apply reachable_wf in R1, R2. destruct (fit_inv _ _ _ _ _ _ _ Hd R1 H) as (Fc & Ck & Sc & _).
  pose proof (config_calls w1 w2 ext Sm) as E. destruct Sm as (A & _). apply fit_complete; [exact Hd|exact R2| | |].
  - unfold fit_check, check_fit, lift in *. cbn [snd] in *. rewrite <- A. exact Fc.
  - intros r t Hr Ht. rewrite <- E. rewrite <- A in Hr. auto.
  - intros est Es r t no cl s2 v Hr Ht Hs. rewrite <- E in Hs. rewrite <- A in Hr. eapply Sc; eauto.
Qed.
Lemma buf3 (a b : buf) x y z : b_shape a = [x; y; z] -> b_shape b = [x; y; z] ->
  (forall i j k, (i < x)%nat -> (j < y)%nat -> (k < z)%nat -> b_at a [i; j; k] = b_at b [i; j; k]) -> buf_eq a b.
Proof. intros A B H. split; [congruence|]. intros idx Hi. rewrite A in Hi. apply idx3 in Hi. destruct Hi as (i & j & k & -> & H1 & H2 & H3). auto. Qed.
Lemma buf2 (a b : buf) x y : b_shape a = [x; y] -> b_shape b = [x; y] ->
  (forall i j, (i < x)%nat -> (j < y)%nat -> b_at a [i; j] = b_at b [i; j]) -> buf_eq a b.
Proof. intros A B H. split; [congruence|]. intros idx Hi. rewrite A in Hi. destruct idx as [|i [|j [|]]]; cbn in Hi; try tauto. apply H; tauto. Qed.
Lemma buf1 (a b : buf) x : b_shape a = [x] -> b_shape b = [x] -> (forall i, (i < x)%nat -> b_at a [i] = b_at b [i]) -> buf_eq a b.
Proof. intros A B H. split; [congruence|]. intros idx Hi. rewrite A in Hi. destruct idx as [|i [|]]; cbn in Hi; try tauto. apply H; tauto. Qed.

(** Equal entries of the sensitivity arrays for the current cells. *)
Definition sens_cells (nr : nat) (a b : sens_bufs) : Prop := forall i r t, (r < nr)%nat -> (t < nt)%nat ->
  b_at (sb_sigma2 a) [i; r; t] = b_at (sb_sigma2 b) [i; r; t] /\ b_at (sb_nu2 a) [i; r; t] = b_at (sb_nu2 b) [i; r; t] /\
  b_at (sb_psi_sigma2 a) [i; r; t] = b_at (sb_psi_sigma2 b) [i; r; t] /\ b_at (sb_psi_nu2 a) [i; r; t] = b_at (sb_psi_nu2 b) [i; r; t] /\
  b_at (sb_rr a) [i; r; t] = b_at (sb_rr b) [i; r; t].
Lemma bad_same nr a b t : sens_cells nr a b -> (t < nt)%nat -> bad_nu2 nr a t = bad_nu2 nr b t.
Proof.
  intros H Ht. unfold bad_nu2. assert (K : forall l, (forall r, In r l -> (r < nr)%nat) -> existsb (fun r => match b_at (sb_nu2 a) [0%nat; r; t] with Some x => rleb x 0 | None => false end) l =
    existsb (fun r => match b_at (sb_nu2 b) [0%nat; r; t] with Some x => rleb x 0 | None => false end) l).
  { induction l as [|r l IH]; intro Hl; [reflexivity|]. cbn [existsb]. rewrite IH by (intros; apply Hl; now right). destruct (H 0%nat r t (Hl r (or_introl eq_refl)) Ht) as (_ & -> & _). reflexivity. }
  apply K. intros r Hr. apply in_seq in Hr. lia.
Qed.
Lemma validate_same nr a b : sens_cells nr a b -> forall i r t, (r < nr)%nat -> (t < nt)%nat ->
  let a' := validate_sens C nr a in let b' := validate_sens C nr b in
  oget (b_at (sb_sigma2 a') [0%nat; r; t]) = oget (b_at (sb_sigma2 b') [0%nat; r; t]) /\ oget (b_at (sb_nu2 a') [0%nat; r; t]) = oget (b_at (sb_nu2 b') [0%nat; r; t]) /\
  oget (b_at (sb_psi_sigma2 a') [i; r; t]) = oget (b_at (sb_psi_sigma2 b') [i; r; t]) /\ oget (b_at (sb_psi_nu2 a') [i; r; t]) = oget (b_at (sb_psi_nu2 b') [i; r; t]) /\
  oget (b_at (sb_rr a') [i; r; t]) = oget (b_at (sb_rr b') [i; r; t]).
Proof.
  intros H i r t Hr Ht. cbv zeta. destruct (validate_spec C nr a) as (A1 & A2 & A3 & _ & _ & A4 & A5). destruct (validate_spec C nr b) as (B1 & B2 & B3 & _ & _ & B4 & B5).
  rewrite A1, A2, A3, B1, B2, B3, (A4 r t Ht), (B4 r t Ht), (A5 i r t Ht), (B5 i r t Ht), (bad_same nr a b t H Ht).
  destruct (H 0%nat r t Hr Ht) as (E1 & E2 & _). destruct (H i r t Hr Ht) as (_ & _ & E3 & E4 & E5). rewrite E1, E2, E3, E4, E5.
  assert (Ec : col_of (sb_rr a) r t = col_of (sb_rr b) r t) by (apply functional_extensionality; intro k; unfold col_of; destruct (H k r t Hr Ht) as (_ & _ & _ & _ & ->); reflexivity).
  rewrite Ec. repeat split.
Qed.
Lemma nd3_eq a b c f g : (forall i j k, (i < a)%nat -> (j < b)%nat -> (k < c)%nat -> f i j k = g i j k) -> nd_eq (mk3 a b c f) (mk3 a b c g).
Proof. intro H. split; [reflexivity|]. intros idx Hi. cbn [shape mk3] in Hi. apply idx3 in Hi. destruct Hi as (i & j & k & -> & H1 & H2 & H3). cbn. auto. Qed.
Lemma elems_same nr a b : sens_cells nr a b ->
  nd_eq (se_max_bias (sens_elems_of C nr (validate_sens C nr a))) (se_max_bias (sens_elems_of C nr (validate_sens C nr b))) /\
  nd_eq (se_psi_max_bias (sens_elems_of C nr (validate_sens C nr a))) (se_psi_max_bias (sens_elems_of C nr (validate_sens C nr b))).
Proof.
  intro H. split; apply nd3_eq; intros i t r Hi Ht Hr; destruct (validate_same nr a b H i r t Hr Ht) as (E1 & E2 & E3 & E4 & _); rewrite ?E1, ?E2, ?E3, ?E4; reflexivity.
Qed.

Lemma fit_same w1 w2 nj store ext sm w1' w2' : c_dcols C <> [] -> reachable C w1 -> reachable C w2 -> same_config w1 w2 ->
  fit C nj store ext sm w1 = (w1', Ok tt) -> fit C nj store ext sm w2 = (w2', Ok tt) ->
  exists f1 f2, current_fw w1' f1 /\ current_fw w2' f2 /\ fw_obs_eq f1 f2 /\ fw_cluster f1 = fw_cluster f2 /\ fw_boot f1 = None /\ fw_boot f2 = None /\
    fw_sens_params f1 = None /\ fw_sens_params f2 = None /\
    buf_eq (m_coef (w_obj w1')) (m_coef (w_obj w2')) /\ buf_eq (m_se (w_obj w1')) (m_se (w_obj w2')) /\ dict_eq C (m_loss (w_obj w1')) (m_loss (w_obj w2')) /\
    (store = PBool true -> dict_eq C (m_preds (w_obj w1')) (m_preds (w_obj w2')) /\ dict_eq C (m_targets (w_obj w1')) (m_targets (w_obj w2'))).
Proof.
  intros Hd R1 R2 Sm H1 H2. apply dcols_pos in Hd. apply reachable_wf in R1, R2.
  destruct (fit_inv _ _ _ _ _ _ _ Hd R1 H1) as (_ & _ & Sc1 & v1 & L1 & ->). destruct (fit_inv _ _ _ _ _ _ _ Hd R2 H2) as (_ & _ & Sc2 & v2 & L2 & ->).
  pose proof (config_calls w1 w2 ext Sm) as Ef. destruct Sm as (En & Es & Esc & Ek & Ep).
  assert (N1 := fr_n_rep _ _ _ (li_fr _ _ _ _ _ _ L1)). assert (N2 := fr_n_rep _ _ _ (li_fr _ _ _ _ _ _ L2)).
  assert (NN : m_n_rep (w_obj v2) = m_n_rep (w_obj v1)) by congruence.
  assert (K : forall r t, (r < m_n_rep (w_obj v1))%nat -> (t < nt)%nat -> exists no cl s2 v, cell_written C (stored_flag store) r t no cl s2 v v1 /\ cell_written C (stored_flag store) r t no cl s2 v v2).
  { intros r t Hr Ht. rewrite N1 in Hr. destruct (li_cells _ _ _ _ _ _ L1 r t I Hr Ht) as (no & cl & s2 & v & E & A). rewrite En in Hr. destruct (li_cells _ _ _ _ _ _ L2 r t I Hr Ht) as (no' & cl' & s2' & v' & E' & B).
    rewrite Ef, E' in E. injection E as -> -> -> ->. eauto 8. }
  set (f1 := fin_fw C v1 (fin_cluster C v1) (fin_se C v1)). set (f2 := fin_fw C v2 (fin_cluster C v2) (fin_se C v2)).
  assert (O : fw_obs_eq f1 f2).
  { apply obs_eq_intro; try reflexivity.
    - eapply fin_framework_wf; eassumption.
    - eapply fin_framework_wf; eassumption.
    - eapply fin_agg_ok; eassumption.
    - eapply fin_agg_ok; eassumption.
    - cbn. congruence.
    - intros t r Ht Hr. cbn in Ht, Hr. destruct (K r t Hr Ht) as (no & cl & s2 & v & A & B). unfold f1, f2, fin_fw. cbn [fw_all_thetas b_nd at_]. now rewrite (cw_coef _ _ _ _ _ _ _ _ _ A), (cw_coef _ _ _ _ _ _ _ _ _ B).
    - intros t r Ht Hr. cbn in Ht, Hr. destruct (K r t Hr Ht) as (no & cl & s2 & v & A & B). unfold f1, f2, fin_fw. cbn [fw_all_ses b_nd at_]. now rewrite (cw_se _ _ _ _ _ _ _ _ _ A), (cw_se _ _ _ _ _ _ _ _ _ B).
    - intros t Ht. cbn in Ht. destruct (K 0%nat t (wf_rep _ _ (li_wf _ _ _ _ _ _ L1)) Ht) as (no & cl & s2 & v & A & B). unfold f1, f2, fin_fw. cbn [fw_vs b_nd at_]. now rewrite (cw_vs _ _ _ _ _ _ _ _ _ A), (cw_vs _ _ _ _ _ _ _ _ _ B).
    - intros i t r Hi Ht Hr. cbn in Ht, Hr. destruct (K r t Hr Ht) as (no & cl & s2 & v & A & B). unfold f1, f2, fin_fw. cbn [fw_scaled_psi mk3 at_]. unfold col_of. rewrite (cw_psi _ _ _ _ _ _ _ _ _ A), (cw_psi _ _ _ _ _ _ _ _ _ B). f_equal. f_equal.
      apply functional_extensionality. intro j. now rewrite (cw_dpsi _ _ _ _ _ _ _ _ _ A), (cw_dpsi _ _ _ _ _ _ _ _ _ B).
    - unfold f1, f2, fin_fw, fin_se, fin_sens. cbn [fw_sens]. destruct (c_sens C) as [est|] eqn:Est; [|exact I].
      destruct (fs_sens _ _ _ (li_sh _ _ _ _ _ _ L1) est Est) as (s1 & Em1 & _). destruct (fs_sens _ _ _ (li_sh _ _ _ _ _ _ L2) est Est) as (s2 & Em2 & _). rewrite Em1, Em2. cbn [option_map]. rewrite NN. apply elems_same.
      intros i r t Hr Ht. destruct (K r t Hr Ht) as (no & cl & x & v & A & B). destruct (cw_sens _ _ _ _ _ _ _ _ _ A est s1 Est Em1) as (A1 & A2 & A3 & A4 & A5). destruct (cw_sens _ _ _ _ _ _ _ _ _ B est s2 Est Em2) as (B1 & B2 & B3 & B4 & B5).
      rewrite A1, A2, A3, A4, A5, B1, B2, B3, B4, B5. repeat split. }
  exists f1, f2. split; [apply fin_current; exact Hd|]. split; [apply fin_current; exact Hd|]. split; [exact O|]. split.
  { unfold f1, f2, fin_fw, fin_cluster. cbn [fw_cluster]. rewrite (fr_smpls _ _ _ (li_fr _ _ _ _ _ _ L1)), (fr_smpls _ _ _ (li_fr _ _ _ _ _ _ L2)), (fr_smpls_c _ _ _ (li_fr _ _ _ _ _ _ L1)), (fr_smpls_c _ _ _ (li_fr _ _ _ _ _ _ L2)),
      (fr_nfpc _ _ _ (li_fr _ _ _ _ _ _ L1)), (fr_nfpc _ _ _ (li_fr _ _ _ _ _ _ L2)), Es, Esc, Ek. reflexivity. }
  do 4 (split; [reflexivity|]).
  assert (OM1 : object_matches C (fit_result C v1) f1) by (eapply fin_object; eassumption). assert (OM2 : object_matches C (fit_result C v2) f2) by (eapply fin_object; eassumption).
  destruct OM1 as ((C1 & C2) & C3 & _). destruct OM2 as ((D1 & D2) & D3 & _).
  destruct O as (_ & _ & _ & (T1 & T2) & (S1 & S2) & _).
  split; [|split; [|split]].
  - apply (buf1 _ _ nt C1 D1). intros t Ht. rewrite (proj1 (C3 t Ht)), (proj1 (D3 t Ht)). f_equal. apply T2. change (shape (fw_thetas f1)) with (b_shape (m_coef (w_obj (fit_result C v1)))). rewrite C1. split; [exact Ht|exact I].
  - apply (buf1 _ _ nt C2 D2). intros t Ht. rewrite (proj2 (C3 t Ht)), (proj2 (D3 t Ht)). f_equal. apply S2. change (shape (fw_ses f1)) with (b_shape (m_se (w_obj (fit_result C v1)))). rewrite C2. split; [exact Ht|exact I].
  - destruct (fs_loss _ _ _ (li_sh _ _ _ _ _ _ L1)) as (d1 & Ed1 & Sd1). destruct (fs_loss _ _ _ (li_sh _ _ _ _ _ _ L2)) as (d2 & Ed2 & Sd2).
    unfold dict_eq. change (m_loss (w_obj (fit_result C v1))) with (m_loss (w_obj v1)). change (m_loss (w_obj (fit_result C v2))) with (m_loss (w_obj v2)). rewrite Ed1, Ed2. intros l Hl. apply (buf2 _ _ (m_n_rep (w_obj v1)) nt); [apply Sd1|rewrite <- NN; apply Sd2|].
    intros r t Hr Ht. destruct (K r t Hr Ht) as (no & cl & x & v & A & B). now rewrite (cw_loss _ _ _ _ _ _ _ _ _ A d1 l Ed1 Hl), (cw_loss _ _ _ _ _ _ _ _ _ B d2 l Ed2 Hl).
  - intros ->. cbn [stored_flag] in *. split.
    + destruct (fs_preds _ _ _ (li_sh _ _ _ _ _ _ L1) eq_refl) as (d1 & Ed1 & Sd1). destruct (fs_preds _ _ _ (li_sh _ _ _ _ _ _ L2) eq_refl) as (d2 & Ed2 & Sd2).
      unfold dict_eq. change (m_preds (w_obj (fit_result C v1))) with (m_preds (w_obj v1)). change (m_preds (w_obj (fit_result C v2))) with (m_preds (w_obj v2)). rewrite Ed1, Ed2. intros l Hl. apply (buf3 _ _ n (m_n_rep (w_obj v1)) nt); [apply Sd1|rewrite <- NN; apply Sd2|].
      intros i r t Hi Hr Ht. destruct (K r t Hr Ht) as (no & cl & x & v & A & B). now rewrite (cw_preds _ _ _ _ _ _ _ _ _ A eq_refl d1 l i Ed1 Hl), (cw_preds _ _ _ _ _ _ _ _ _ B eq_refl d2 l i Ed2 Hl).
    + destruct (fs_targets _ _ _ (li_sh _ _ _ _ _ _ L1) eq_refl) as (d1 & Ed1 & Sd1). destruct (fs_targets _ _ _ (li_sh _ _ _ _ _ _ L2) eq_refl) as (d2 & Ed2 & Sd2).
      unfold dict_eq. change (m_targets (w_obj (fit_result C v1))) with (m_targets (w_obj v1)). change (m_targets (w_obj (fit_result C v2))) with (m_targets (w_obj v2)). rewrite Ed1, Ed2. intros l Hl. apply (buf3 _ _ n (m_n_rep (w_obj v1)) nt); [apply Sd1|rewrite <- NN; apply Sd2|].
      intros i r t Hi Hr Ht. destruct (K r t Hr Ht) as (no & cl & x & v & A & B). now rewrite (cw_targets _ _ _ _ _ _ _ _ _ A eq_refl d1 l i Ed1 Hl), (cw_targets _ _ _ _ _ _ _ _ _ B eq_refl d2 l i Ed2 Hl).
Qed.
Lemma fit_history w1 w2 nj store ext sm : c_dcols C <> [] -> reachable C w1 -> reachable C w2 -> same_config w1 w2 ->
  (snd (fit C nj store ext sm w1) = Ok tt <-> snd (fit C nj store ext sm w2) = Ok tt).
Proof.
  intros Hd R1 R2 Sm. split; intro H.
  - destruct (fit C nj store ext sm w1) as [w1' x] eqn:E. cbn in H. subst x. destruct (config_success _ _ _ _ _ _ _ Hd R1 R2 Sm E) as [w2' ->]. reflexivity.
  - destruct (fit C nj store ext sm w2) as [w1' x] eqn:E. cbn in H. subst x. destruct (config_success _ _ _ _ _ _ _ Hd R2 R1 (config_sym _ _ Sm) E) as [w2' ->]. reflexivity.
Qed.
End Obj.

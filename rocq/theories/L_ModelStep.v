(** One iteration of the fitting loop. *)
From Verif Require Export L_Model.
From Coq Require Import FunctionalExtensionality.
Local Open Scope R_scope.

Section Obj.
Context {P : Type}.
Variable C : ctx P.
Notation n := (c_n C).
Notation nt := (length (c_dcols C)).

Ltac inr := cbn [in_shape]; repeat (split; [assumption|]); exact I.
Ltac stp := erewrite andthen_eq by (unfold lift; cbn [w_heap w_fws w_obj]; try reflexivity); cbv beta.

(** [solve_score], when the variance can be computed. *)
Lemma solve_ok r t w cl s2 v (a := col_of (m_psi_a (w_obj w)) r t) (b := col_of (m_psi_b (w_obj w)) r t)
  (c := lin_est_coef n a b cl) (m := w_obj w) (h := w_heap w) :
  wf C w -> (r < m_n_rep m)%nat -> (t < nt)%nat -> cluster_args_of C m r = Ok cl -> var_est n (lin_score a b c) a cl = Ok (s2, v) ->
  solve_score C r t w = ({| w_heap := set_nth (m_vs m) (b_put [t] (Some v) (hget h (m_vs m)))
                              (set_nth (m_all_se m) (b_put [t; r] (Some (sqrt s2)) (hget h (m_all_se m)))
                              (set_nth (m_all_coef m) (b_put [t; r] (Some c) (hget h (m_all_coef m))) h));
                            w_fws := w_fws w;
                            w_obj := with_psi (b_putcol r t (fun i => Some (lin_score a b c i)) (m_psi m)) (b_putcol r t (fun i => Some (a i)) (m_psi_deriv m)) m |}, Ok tt).
Proof.
  intros W Hr Ht Hcl Hv. unfold solve_score. stp. fold m.
  rewrite (andthen_eq _ _ w w c); [|unfold lift; fold m; rewrite Hcl; reflexivity].
  set (h1 := set_nth (m_all_coef m) (b_put [t; r] (Some c) (hget h (m_all_coef m))) h).
  rewrite (andthen_eq _ _ w {| w_heap := h1; w_fws := w_fws w; w_obj := m |} tt).
  2: { unfold hwrite. fold h. fold m. rewrite b_set_ok by (unfold m, h; rewrite (wf_sc C w W); inr). reflexivity. }
  assert (Ec : oget (b_at (hget h1 (m_all_coef m)) [t; r]) = c).
  { unfold h1. rewrite hget_set_same by apply (wf_lc C w W). rewrite put_at. reflexivity. }
  erewrite andthen_eq.
  2: { unfold lift; cbn [w_heap w_obj]. rewrite Ec. fold a b. erewrite b_col_ok; [reflexivity|apply (wf_psi_s C w W)|exact Hr|exact Ht]. }
  erewrite andthen_eq by (unfold assign; cbn [w_heap w_fws w_obj]; reflexivity).
  erewrite andthen_eq.
  2: { unfold lift; cbn [w_heap w_obj]. cbn [m_psi_a m_psi_deriv with_psi with_arrays]. fold a.
       erewrite b_col_ok; [reflexivity|apply (wf_dpsi_s C w W)|exact Hr|exact Ht]. }
  erewrite andthen_eq by (unfold assign; cbn [w_heap w_fws w_obj]; reflexivity).
  erewrite andthen_eq.
  2: { unfold lift; cbn [w_heap w_obj]. cbn [m_psi m_psi_deriv with_psi with_arrays].
       change (cluster_args_of C (with_psi _ _ _) r) with (cluster_args_of C m r). rewrite Hcl. cbn [bind].
       rewrite !col_putcol. exact (f_equal2 (@pair _ _) eq_refl Hv). }
  cbn [fst snd].
  erewrite andthen_eq.
  2: { unfold hwrite. cbn [w_heap w_fws w_obj]. unfold h1. rewrite hget_set_other by (apply not_eq_sym; apply (wf_d3 C w W)).
       rewrite b_set_ok by (unfold h, m; rewrite (wf_ss C w W); inr). reflexivity. }
  unfold hwrite. cbn [w_heap w_fws w_obj]. rewrite hget_set_other by apply (wf_d2 C w W). rewrite hget_set_other by apply (wf_d1 C w W).
  rewrite b_set_ok by (unfold h, m; rewrite (wf_sv C w W); inr). reflexivity.
Qed.
Lemma solve_inv r t w w' (a := col_of (m_psi_a (w_obj w)) r t) (b := col_of (m_psi_b (w_obj w)) r t) :
  wf C w -> (r < m_n_rep (w_obj w))%nat -> (t < nt)%nat -> solve_score C r t w = (w', Ok tt) ->
  exists cl s2 v, cluster_args_of C (w_obj w) r = Ok cl /\ var_est n (lin_score a b (lin_est_coef n a b cl)) a cl = Ok (s2, v).
Proof.
  intros W Hr Ht H. destruct (cluster_args_of C (w_obj w) r) as [cl|e] eqn:Ecl.
  2: { exfalso. unfold solve_score in H. apply andthen_ok in H. destruct H as (w1 & x & H1 & H). unfold lift in H1. injection H1 as <- <-.
       apply andthen_ok in H. destruct H as (w1 & y & H1 & H). unfold lift in H1. rewrite Ecl in H1. discriminate. }
  exists cl. destruct (var_est n (lin_score a b (lin_est_coef n a b cl)) a cl) as [[s2 v]|e] eqn:Ev; [eauto|]. exfalso.
  unfold solve_score in H. apply andthen_ok in H. destruct H as (w1 & x & H1 & H). unfold lift in H1. injection H1 as <- <-.
  apply andthen_ok in H. destruct H as (w1 & y & H1 & H). unfold lift in H1. rewrite Ecl in H1. cbn [bind] in H1. injection H1 as <- <-. fold a b in H.
  apply andthen_ok in H. destruct H as (w1 & [] & H1 & H). unfold hwrite in H1. rewrite b_set_ok in H1 by (rewrite (wf_sc C w W); inr). injection H1 as <-.
  apply andthen_ok in H. destruct H as (w1 & y & H1 & H). unfold lift in H1. cbn [w_heap w_obj] in H1. rewrite hget_set_same in H1 by apply (wf_lc C w W).
  rewrite put_at in H1. cbn [oget] in H1. fold a b in H1. erewrite b_col_ok in H1; [|apply (wf_psi_s C w W)|exact Hr|exact Ht]. injection H1 as <- <-.
  apply andthen_ok in H. destruct H as (w1 & z & H1 & H). unfold assign in H1. injection H1 as <- <-. cbn [w_heap w_fws w_obj] in H.
  apply andthen_ok in H. destruct H as (w1 & y & H1 & H). unfold lift in H1. cbn [w_heap w_obj m_psi_a m_psi_deriv with_psi with_arrays] in H1. fold a in H1.
  erewrite b_col_ok in H1; [|apply (wf_dpsi_s C w W)|exact Hr|exact Ht]. injection H1 as <- <-.
  apply andthen_ok in H. destruct H as (w1 & z' & H1 & H). unfold assign in H1. injection H1 as <- <-. cbn [w_heap w_fws w_obj] in H.
  apply andthen_ok in H. destruct H as (w1 & y & H1 & H). unfold lift in H1. cbn [w_heap w_obj] in H1.
  match type of H1 with context [cluster_args_of C ?x r] => change (cluster_args_of C x r) with (cluster_args_of C (w_obj w) r) in H1 end. rewrite Ecl in H1. cbn [bind m_psi m_psi_deriv with_psi with_arrays] in H1.
  rewrite !col_putcol in H1. apply pair_equal_spec in H1. destruct H1 as [_ H1]. change (var_est n (lin_score a b (lin_est_coef n a b cl)) a cl = Ok y) in H1. congruence.
Qed.

(** The nuisance call of (r, t). *)
Definition nuis_call (m : dml P) (ext : ext_arg) (r t : nat) : result nuis_out :=
  let treat := nth t (c_dcols C) EmptyString in
  bind (set_external ext (c_learners C) treat r) (fun ed =>
  bind (smpls_rep (m_smpls m) r) (fun fs => c_nuis C r t fs (fun l => nth r (m_params m l treat) None) ed)).

Definition put_loss (no : nuis_out) (r t : nat) (l : string) (b : buf) : buf :=
  b_put [r; t] (loss_value C (c_classifier C l) (no_preds no l) (no_targets no l)) b.
Definition tg_of (no : nuis_out) (l : string) : nat -> option R := match no_targets no l with Some v => v | None => fun _ => None end.

(** Effect of [fit_nuisance] on the attributes it writes. *)
Record nuis_effect (store : bool) (r t : nat) (no : nuis_out) (w w' : world P) : Prop := {
  ne_heap : w_heap w' = w_heap w;
  ne_fws : w_fws w' = w_fws w;
  ne_obj : exists lo pr tg,
     w_obj w' = with_results (m_fw (w_obj w)) pr tg (Some lo) (m_sens (w_obj w))
                 (with_elements (b_putcol r t (fun i => Some (no_a no i)) (m_psi_a (w_obj w)))
                                (b_putcol r t (fun i => Some (no_b no i)) (m_psi_b (w_obj w))) (w_obj w)) /\
     (forall l0, m_loss (w_obj w) = Some l0 -> (forall l, b_shape (lo l) = b_shape (l0 l)) /\
         forall l, In l (c_learners C) -> lo l = put_loss no r t l (l0 l)) /\
     (store = false -> pr = m_preds (w_obj w) /\ tg = m_targets (w_obj w)) /\
     (store = true -> forall p0 t0, m_preds (w_obj w) = Some p0 -> m_targets (w_obj w) = Some t0 ->
        exists p1 t1, pr = Some p1 /\ tg = Some t1 /\ (forall l, b_shape (p1 l) = b_shape (p0 l)) /\ (forall l, b_shape (t1 l) = b_shape (t0 l)) /\
          forall l, In l (c_learners C) -> p1 l = b_putcol r t (no_preds no l) (p0 l) /\ t1 l = b_putcol r t (tg_of no l) (t0 l)) }.

Lemma putcol_idem r t v b : b_putcol r t v (b_putcol r t v b) = b_putcol r t v b.
Proof.
  unfold b_putcol. cbn [b_shape b_at]. f_equal. apply functional_extensionality. intros [|k [|r' [|t' [|]]]]; try reflexivity.
  destruct (Nat.eqb r' r && Nat.eqb t' t); reflexivity.
Qed.
Lemma put_idem idx v b : b_put idx v (b_put idx v b) = b_put idx v b.
Proof. unfold b_put. cbn [b_shape b_at]. f_equal. apply functional_extensionality. intro i. destruct (shape_eqb i idx); reflexivity. Qed.

Lemma nuis_ok store ext r t w no :
  wf C w -> fit_shapes C store w -> (r < m_n_rep (w_obj w))%nat -> (t < nt)%nat -> nuis_call (w_obj w) ext r t = Ok no ->
  exists w', fit_nuisance C store ext r t w = (w', Ok no) /\ nuis_effect store r t no w w'.
Proof.
  intros W F Hr Ht Hn. unfold nuis_call in Hn. unfold fit_nuisance.
  destruct (set_external ext (c_learners C) (nth t (c_dcols C) EmptyString) r) as [ed|] eqn:Eed; [|discriminate]. cbn [bind] in Hn.
  rewrite (andthen_eq _ _ w w ed) by reflexivity.
  rewrite (andthen_eq _ _ w w no) by (unfold lift; f_equal; exact Hn).
  rewrite (andthen_eq _ _ w w w) by reflexivity.
  erewrite (andthen_eq _ _ w w) by (unfold lift; erewrite b_col_ok; [reflexivity|apply (wf_pa_s C w W)|exact Hr|exact Ht]).
  erewrite andthen_eq by (unfold assign; reflexivity). cbv beta.
  erewrite andthen_eq by (unfold lift; cbn [w_obj m_psi_b with_elements with_arrays]; erewrite b_col_ok; [reflexivity|apply (wf_pb_s C w W)|exact Hr|exact Ht]).
  erewrite andthen_eq by (unfold assign; reflexivity). cbv beta. cbn [w_heap w_fws w_obj].
  destruct (fs_loss C store w F) as (l0 & El0 & Sl0).
  destruct (dict_write_ok (c_learners C) l0 (fun l b => b_set [r; t] (loss_value C (c_classifier C l) (no_preds no l) (no_targets no l)) b) (put_loss no r t)) as (lo & Elo & Slo & Ilo & _).
  { intros l b Hb. split; [|reflexivity]. apply b_set_ok. rewrite Hb, Sl0. cbn. auto. }
  { intros l b. apply put_idem. }
  erewrite andthen_eq.
  2: { unfold update_dict. erewrite andthen_eq. 2: { unfold lift. cbn [w_obj m_loss with_elements with_arrays]. rewrite El0. rewrite Elo. reflexivity. }
       unfold assign. reflexivity. }
  cbv beta. cbn [w_heap w_fws w_obj].
  destruct store.
  - destruct (fs_preds C true w F eq_refl) as (p0 & Ep0 & Sp0). destruct (fs_targets C true w F eq_refl) as (t0 & Et0 & St0).
    destruct (dict_write_ok (c_learners C) p0 (fun l b => b_col r t (no_preds no l) b) (fun l b => b_putcol r t (no_preds no l) b)) as (p1 & Ep1 & Sp1 & Ip1 & _).
    { intros l b Hb. split; [|reflexivity]. rewrite Sp0 in Hb. eapply b_col_ok; eauto. }
    { intros. apply putcol_idem. }
    destruct (dict_write_ok (c_learners C) t0 (fun l b => b_col r t (tg_of no l) b) (fun l b => b_putcol r t (tg_of no l) b)) as (t1 & Et1 & St1 & It1 & _).
    { intros l b Hb. split; [|reflexivity]. rewrite St0 in Hb. eapply b_col_ok; eauto. }
    { intros. apply putcol_idem. }
    erewrite andthen_eq.
    2: { erewrite andthen_eq.
         2: { unfold update_dict. erewrite andthen_eq. 2: { unfold lift. cbn [w_obj m_preds with_elements with_arrays with_loss with_results]. rewrite Ep0. rewrite Ep1. reflexivity. }
              unfold assign. reflexivity. }
         unfold update_dict. erewrite andthen_eq. 2: { unfold lift. cbn [w_obj m_targets with_elements with_arrays with_loss with_results with_predictions]. rewrite Et0.
           match goal with |- context [dict_write ?a ?b ?u] => change u with (fun l b => b_col r t (tg_of no l) b) end. rewrite Et1. reflexivity. }
         unfold assign. reflexivity. }
    eexists. split; [unfold ret; reflexivity|]. constructor; [reflexivity|reflexivity|].
    exists lo, (Some p1), (Some t1). split; [reflexivity|]. split; [|split].
    + intros l1 E1. rewrite El0 in E1. injection E1 as <-. split; [exact Slo|exact Ilo].
    + discriminate.
    + intros _ p0' t0' E1 E2. rewrite Ep0 in E1. rewrite Et0 in E2. injection E1 as <-. injection E2 as <-.
      exists p1, t1. split; [reflexivity|]. split; [reflexivity|]. split; [exact Sp1|]. split; [exact St1|]. intros l Hl. split; [apply Ip1, Hl|apply It1, Hl].
  - erewrite andthen_eq by (unfold ret; reflexivity). eexists. split; [unfold ret; reflexivity|]. constructor; [reflexivity|reflexivity|].
    exists lo, (m_preds (w_obj w)), (m_targets (w_obj w)). split; [reflexivity|]. split; [|split].
    + intros l1 E1. rewrite El0 in E1. injection E1 as <-. split; [exact Slo|exact Ilo].
    + intros _. split; reflexivity.
    + discriminate.
Qed.
Lemma nuis_inv store ext r t w w' no : fit_nuisance C store ext r t w = (w', Ok no) -> nuis_call (w_obj w) ext r t = Ok no.
Proof.
  intro H. unfold fit_nuisance in H.
  apply andthen_ok in H. destruct H as (w1 & ed & H1 & H). unfold lift in H1. destruct (set_external _ _ _ _) as [ed'|] eqn:Ed in H1; [|discriminate]. injection H1 as <- <-.
  apply andthen_ok in H. destruct H as (w1 & no' & H1 & H). unfold lift in H1. apply pair_equal_spec in H1. destruct H1 as [<- H1].
  assert (no' = no) as <-.
  { apply andthen_ok in H. destruct H as (w1 & ? & _ & H). apply andthen_ok in H. destruct H as (w2 & ? & _ & H). apply andthen_ok in H. destruct H as (w3 & ? & _ & H).
    apply andthen_ok in H. destruct H as (w4 & ? & _ & H). apply andthen_ok in H. destruct H as (w5 & ? & _ & H). apply andthen_ok in H. destruct H as (w6 & ? & _ & H).
    apply andthen_ok in H. destruct H as (w7 & ? & _ & H). unfold ret in H. congruence. }
  unfold nuis_call. rewrite Ed. exact H1.
Qed.

(** [fit_sensitivity]. *)
Definition sens_put (r t : nat) (o : sens_out) (s : sens_bufs) : sens_bufs :=
  {| sb_sigma2 := b_putcol r t (fun _ => Some (so_sigma2 o)) (sb_sigma2 s); sb_nu2 := b_putcol r t (fun _ => Some (so_nu2 o)) (sb_nu2 s);
     sb_psi_sigma2 := b_putcol r t (fun i => Some (so_psi_sigma2 o i)) (sb_psi_sigma2 s);
     sb_psi_nu2 := b_putcol r t (fun i => Some (so_psi_nu2 o i)) (sb_psi_nu2 s); sb_rr := b_putcol r t (fun i => Some (so_rr o i)) (sb_rr s) |}.
Lemma sens_ok store no r t w : fit_shapes C store w -> (r < m_n_rep (w_obj w))%nat -> (t < nt)%nat ->
  exists sn, fit_sensitivity C no r t w = ({| w_heap := w_heap w; w_fws := w_fws w; w_obj := with_sens sn (w_obj w) |}, Ok tt) /\
    (c_sens C = None -> sn = m_sens (w_obj w)) /\
    (forall est s, c_sens C = Some est -> m_sens (w_obj w) = Some s ->
       sn = Some (sens_put r t (est r t no (oget (b_at (hget (w_heap w) (m_all_coef (w_obj w))) [t; r]))) s)).
Proof.
  intros F Hr Ht. unfold fit_sensitivity. destruct (c_sens C) as [est|] eqn:Es.
  - destruct (fs_sens C store w F est Es) as (s & E & S1 & S2 & S3 & S4 & S5).
    eexists. split; [|split; [discriminate|]].
    + erewrite andthen_eq. 2: { unfold lift. rewrite E. unfold write_sens.
        erewrite b_col_ok; [|exact S1|exact Hr|exact Ht]. cbn [bind]. erewrite b_col_ok; [|exact S2|exact Hr|exact Ht]. cbn [bind].
        erewrite b_col_ok; [|exact S3|exact Hr|exact Ht]. cbn [bind]. erewrite b_col_ok; [|exact S4|exact Hr|exact Ht]. cbn [bind].
        erewrite b_col_ok; [|exact S5|exact Hr|exact Ht]. cbn [bind]. reflexivity. }
      unfold assign. reflexivity.
    + intros est' s' E1 E2. injection E1 as <-. rewrite E in E2. injection E2 as <-. reflexivity.
  - exists (m_sens (w_obj w)). split; [|split; [reflexivity|discriminate]]. unfold ret. destruct w as [h f o]. destruct o. reflexivity.
Qed.
End Obj.

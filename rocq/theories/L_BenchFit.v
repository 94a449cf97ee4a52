(** What the benchmark reads from fitted objects. *)
From Verif Require Import M_Data.
From Verif Require Export L_BenchMake L_ModelProps L_Gain.
From Coq Require Import Lia Lra.
Local Open Scope R_scope.
Local Open Scope res_scope.

Definition like (k r : nat) (s2 nu th : nat -> nat -> R) (m : gmodel) : Prop :=
  exists a b c, m = {| gm_sens := Some (Val a, Val b); gm_coef := Some c |} /\ shape a = [1%nat; k; r] /\ shape b = [1%nat; k; r] /\ shape c = [k; r] /\
    forall t j, (t < k)%nat -> (j < r)%nat -> at_ a [0%nat; t; j] = s2 t j /\ at_ b [0%nat; t; j] = nu t j /\ at_ c [t; j] = th t j.

Lemma emedian_ext r f g : (forall j, (j < r)%nat -> f j = g j) -> emedian (map f (seq 0 r)) = emedian (map g (seq 0 r)).
Proof. intro H. f_equal. apply map_ext_in. intros j Hj. apply in_seq in Hj. apply H. lia. Qed.
Lemma medianf_cong r f g : (forall j, (j < r)%nat -> f j = g j) -> medianf r f = medianf r g.
Proof. intro H. unfold medianf. f_equal. apply map_ext_in. intros j Hj. apply in_seq in Hj. apply H. lia. Qed.
Lemma gain_respects vy ml k r s2 nu th m1 m2 : like k r s2 nu th m1 -> like k r s2 nu th m2 -> same_outcome (gain_statistics vy ml m1) (gain_statistics vy ml m2).
Proof.
  intros (a & b & c & -> & Sa & Sb & Sc & E1) (a' & b' & c' & -> & Sa' & Sb' & Sc' & E2).
  unfold gain_statistics. destruct (gain_keys ml) as [[sl nl]|e]; [|reflexivity]. cbn [bind gain_keys gm_sens present andb require fst snd].
  unfold gain_pair. destruct (gain_array sl) as [al|e]; [|reflexivity]. cbn [bind gain_array].
  assert (D : forall x, shape x = [1%nat; k; r] -> gain_dims x = true) by (intros x X; unfold gain_dims, dim; rewrite X; reflexivity).
  rewrite (D _ Sa), (D _ Sa'), Sa, Sa'. destruct (gain_dims al); [|reflexivity]. cbn [require]. destruct (shape_eqb (shape al) [1%nat; k; r]) eqn:Q; [|reflexivity]. cbn [require bind].
  destruct (gain_array nl) as [bl|e]; [|reflexivity]. cbn [bind]. rewrite (D _ Sb), (D _ Sb'), Sb, Sb'. destruct (gain_dims bl); [|reflexivity]. cbn [require]. destruct (shape_eqb (shape bl) [1%nat; k; r]); [|reflexivity]. cbn [require bind].
  destruct (gain_coef ml) as [cl|e]; [|reflexivity]. cbn [bind gain_coef gm_coef fst snd]. apply shape_eqb_eq in Q. unfold dim. rewrite Q. cbn [nth].
  destruct (shape_eqb (shape cl) [k; r]); [|reflexivity]. cbn [require]. rewrite Sc, Sc'. rewrite (proj2 (shape_eqb_eq [k; r] _) eq_refl). cbn [require].
  split; [reflexivity|]. cbn [fst snd ga_cf_y ga_cf_d ga_rho ga_delta]. intros t Ht.
  assert (X : forall j, (j < r)%nat -> at_ a [0%nat; t; j] = at_ a' [0%nat; t; j] /\ at_ b [0%nat; t; j] = at_ b' [0%nat; t; j] /\ at_ c [t; j] = at_ c' [t; j]).
  { intros j Hj. destruct (E1 t j Ht Hj) as (-> & -> & ->). destruct (E2 t j Ht Hj) as (-> & -> & ->). auto. }
  repeat split; [apply emedian_ext|apply emedian_ext|apply medianf_cong|apply medianf_cong]; intros j Hj; destruct (X j Hj) as (Xa & Xb & Xc); rewrite ?Xa, ?Xb, ?Xc; reflexivity.
Qed.
Lemma gain_like vy k r s2l nl cl s2s ns cs m1 m2 : like k r s2l nl cl m1 -> like k r s2s ns cs m2 ->
  exists g, gain_statistics vy m1 m2 = Ok (k, r, g) /\ forall t, (t < k)%nat ->
    ga_cf_y g t = emedian (map (fun j => cf_y_rep vy (s2l t j) (s2s t j)) (seq 0 r)) /\ ga_cf_d g t = emedian (map (fun j => cf_d_rep (nl t j) (ns t j)) (seq 0 r)) /\
    ga_rho g t = medianf r (fun j => rho_rep (s2l t j) (s2s t j) (nl t j) (ns t j) (cs t j - cl t j)) /\ ga_delta g t = medianf r (fun j => cs t j - cl t j).
Proof.
  intros (a & b & c & -> & Sa & Sb & Sc & E1) (a' & b' & c' & -> & Sa' & Sb' & Sc' & E2).
  unfold gain_statistics, gain_keys, gain_pair, gain_coef, gain_dims, require, dim. cbn [gm_sens gm_coef present andb bind gain_array fst snd].
  rewrite Sa, Sb, Sa', Sb'. cbn [length Nat.eqb nth andb]. rewrite (proj2 (shape_eqb_eq [1%nat; k; r] _) eq_refl). cbn [bind fst snd gain_array]. rewrite Sa. cbn [nth]. rewrite Sc, Sc', (proj2 (shape_eqb_eq [k; r] _) eq_refl).
  eexists. split; [reflexivity|]. cbn [ga_cf_y ga_cf_d ga_rho ga_delta]. intros t Ht.
  repeat split; [apply emedian_ext|apply emedian_ext|apply medianf_cong|apply medianf_cong]; intros j Hj; destruct (E1 t j Ht Hj) as (Xa & Xb & Xc); destruct (E2 t j Ht Hj) as (Ya & Yb & Yc); rewrite ?Xa, ?Xb, ?Xc, ?Ya, ?Yb, ?Yc; reflexivity.
Qed.
Section Fit.
Context {P : Type}.
Lemma wf_shape (C C' : ctx P) w : same_shape C C' -> wf C w -> wf C' w.
Proof. intros (A & B & D) []. constructor; rewrite <- ?A, <- ?B, <- ?D; assumption. Qed.
Lemma made_wf E (L : learner E row P) rd f c s C w0 w : S_Data.reachable f s -> sound_randomness rd -> make L rd f c s = Ok (C, w0) -> later C w0 w -> wf C w.
Proof. intros Re Rd H K. destruct (make_reached L rd f c s C w0 Re Rd H) as (R & _). apply reachable_wf, reached_reachable. eapply reached_later; eassumption. Qed.
Variable C : ctx P.
Notation nt := (length (c_dcols C)).
Lemma wf_success w1 w2 nj store ext sm w1' : c_dcols C <> [] -> wf C w1 -> wf C w2 -> same_config w1 w2 ->
  fit C nj store ext sm w1 = (w1', Ok tt) -> exists w2', fit C nj store ext sm w2 = (w2', Ok tt).
Proof.
  intros Hd R1 R2 Sm H. apply dcols_pos in Hd. destruct (fit_inv _ _ _ _ _ _ _ Hd R1 H) as (Fc & Ck & Sc & _).
  pose proof (config_calls C w1 w2 ext Sm) as E. destruct Sm as (A & _). apply fit_complete; [exact Hd|exact R2| | |].
  - unfold fit_check, check_fit, lift in *. cbn [snd] in *. rewrite <- A. exact Fc.
  - intros r t Hr Ht. rewrite <- E. rewrite <- A in Hr. auto.
  - intros est Es r t no cl s2 v Hr Ht Hs. rewrite <- E in Hs. rewrite <- A in Hr. eapply Sc; eauto.
Qed.
Lemma gain_result w2 : gain_model (fit_result C w2) = Ok {| gm_sens := option_map (fun e => match se_bench e with Some (a, b) => (Val a, Val b) | None => (Absent, Absent) end) (fin_se C w2);
  gm_coef := Some (b_nd (hget (w_heap w2) (m_all_coef (w_obj w2)))) |}.
Proof.
  unfold gain_model. change (m_fw (w_obj (fit_result C w2))) with (Some (length (w_fws w2))). cbv iota. unfold fit_result at 1. cbn [w_fws]. rewrite nth_error_app2, Nat.sub_diag by lia. reflexivity.
Qed.
Lemma fit_gain w1 w2 nj store ext sm w1' w2' e : c_dcols C <> [] -> c_sens C = Some e -> wf C w1 -> wf C w2 -> same_config w1 w2 ->
  fit C nj store ext sm w1 = (w1', Ok tt) -> fit C nj store ext sm w2 = (w2', Ok tt) ->
  exists s2 nu th m1 m2, gain_model w1' = Ok m1 /\ gain_model w2' = Ok m2 /\ like nt (m_n_rep (w_obj w1)) s2 nu th m1 /\ like nt (m_n_rep (w_obj w1)) s2 nu th m2 /\
    (forall t j, (t < nt)%nat -> (j < m_n_rep (w_obj w1))%nat -> reports_numbers w1' t j (s2 t j) (nu t j) (th t j)).
Proof.
  intros Hd Est R1 R2 Sm H1 H2. apply dcols_pos in Hd.
  destruct (fit_inv _ _ _ _ _ _ _ Hd R1 H1) as (_ & _ & Sc1 & v1 & L1 & ->). destruct (fit_inv _ _ _ _ _ _ _ Hd R2 H2) as (_ & _ & Sc2 & v2 & L2 & ->).
  pose proof (config_calls C w1 w2 ext Sm) as Ef. destruct Sm as (En & Es & Esc & Ek & Ep).
  assert (N1 := fr_n_rep _ _ _ (li_fr _ _ _ _ _ _ L1)). assert (N2 := fr_n_rep _ _ _ (li_fr _ _ _ _ _ _ L2)).
  assert (NN : m_n_rep (w_obj v2) = m_n_rep (w_obj v1)) by congruence.
  assert (K : forall r t, (r < m_n_rep (w_obj v1))%nat -> (t < nt)%nat -> exists no cl s2 v, cell_written C (stored_flag store) r t no cl s2 v v1 /\ cell_written C (stored_flag store) r t no cl s2 v v2).
  { intros r t Hr Ht. rewrite N1 in Hr. destruct (li_cells _ _ _ _ _ _ L1 r t I Hr Ht) as (no & cl & s2 & v & E & A). rewrite En in Hr. destruct (li_cells _ _ _ _ _ _ L2 r t I Hr Ht) as (no' & cl' & s2' & v' & E' & B).
    rewrite Ef, E' in E. injection E as -> -> -> ->. eauto 8. }
  destruct (fs_sens _ _ _ (li_sh _ _ _ _ _ _ L1) e Est) as (s1 & Em1 & _). destruct (fs_sens _ _ _ (li_sh _ _ _ _ _ _ L2) e Est) as (sb2 & Em2 & _).
  assert (Sm : sens_cells C (m_n_rep (w_obj v1)) s1 sb2).
  { intros i r t Hr Ht. destruct (K r t Hr Ht) as (no & cl & x & v & A & B). destruct (cw_sens _ _ _ _ _ _ _ _ _ A e s1 Est Em1) as (A1 & A2 & A3 & A4 & A5). destruct (cw_sens _ _ _ _ _ _ _ _ _ B e sb2 Est Em2) as (B1 & B2 & B3 & B4 & B5).
    rewrite A1, A2, A3, A4, A5, B1, B2, B3, B4, B5. repeat split. }
  assert (F1 : fin_se C v1 = Some (sens_elems_of C (m_n_rep (w_obj v1)) (validate_sens C (m_n_rep (w_obj v1)) s1))) by (unfold fin_se, fin_sens; rewrite Est, Em1; reflexivity).
  assert (F2 : fin_se C v2 = Some (sens_elems_of C (m_n_rep (w_obj v1)) (validate_sens C (m_n_rep (w_obj v1)) sb2))) by (unfold fin_se, fin_sens; rewrite Est, Em2, NN; reflexivity).
  assert (W1 := li_wf _ _ _ _ _ _ L1). assert (W2 := li_wf _ _ _ _ _ _ L2).
  set (vs := validate_sens C (m_n_rep (w_obj v1)) s1) in *. set (vs2 := validate_sens C (m_n_rep (w_obj v1)) sb2) in *.
  exists (fun t j => oget (b_at (sb_sigma2 vs) [0%nat; j; t])), (fun t j => oget (b_at (sb_nu2 vs) [0%nat; j; t])), (fun t j => oget (b_at (hget (w_heap v1) (m_all_coef (w_obj v1))) [t; j])).
  eexists. eexists. split; [|split; [|split; [|split]]].
  - rewrite gain_result, F1. cbn [option_map se_bench sens_elems_of]. reflexivity.
  - rewrite gain_result, F2. cbn [option_map se_bench sens_elems_of]. reflexivity.
  - do 3 eexists. split; [reflexivity|]. split; [cbn; rewrite N1; reflexivity|]. split; [cbn; rewrite N1; reflexivity|]. split.
    + cbn. change (b_shape (hget (w_heap v1) (m_all_coef (w_obj v1))) = [nt; m_n_rep (w_obj w1)]). rewrite <- N1. apply (wf_sc _ _ W1).
    + intros t j Ht Hj. repeat split.
  - do 3 eexists. split; [reflexivity|]. split; [cbn; rewrite N1; reflexivity|]. split; [cbn; rewrite N1; reflexivity|]. split.
    + cbn. change (b_shape (hget (w_heap v2) (m_all_coef (w_obj v2))) = [nt; m_n_rep (w_obj w1)]). rewrite <- N1, <- NN. apply (wf_sc _ _ W2).
    + intros t j Ht Hj. rewrite <- N1 in Hj. destruct (validate_same C _ s1 sb2 Sm 0%nat j t Hj Ht) as (V1 & V2 & _). cbn [mk3 at_ b_nd]. split; [symmetry; exact V1|]. split; [symmetry; exact V2|].
      destruct (K j t Hj Ht) as (no & cl & x & v & A & B). change (oget (b_at (hget (w_heap v2) (m_all_coef (w_obj v2))) [t; j]) = oget (b_at (hget (w_heap v1) (m_all_coef (w_obj v1))) [t; j])).
      now rewrite (cw_coef _ _ _ _ _ _ _ _ _ A), (cw_coef _ _ _ _ _ _ _ _ _ B).
  - intros t j Ht Hj. eexists. eexists. eexists. eexists. split; [apply fin_current; exact Hd|]. split; [cbn [fw_sens fin_fw]; exact F1|]. split; [reflexivity|]. repeat split.
Qed.
End Fit.

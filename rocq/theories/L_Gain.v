(** Lemmas on the benchmark statistics. *)
From Verif Require Export S_Gain L_Order L_Weights.
From Coq Require Import Lra.
Local Open Scope R_scope.

Lemma reqb_false x y : reqb x y = false <-> x <> y.
Proof. unfold reqb. destruct Req_EM_T; split; intro; try discriminate; try contradiction; auto. Qed.
Lemma rltb_iff x y : rltb x y = true <-> x < y.
Proof. unfold rltb. destruct Rlt_dec; split; intro; try discriminate; try contradiction; auto. Qed.
Lemma rltb_false x y : rltb x y = false <-> y <= x.
Proof. unfold rltb. destruct Rlt_dec; split; intro; try discriminate; try lra; auto. Qed.
Lemma clip01_cap x : rclip 0 1 x = cap01 x.
Proof. unfold rclip, cap01, Rmin, Rmax. repeat destruct Rle_dec; lra. Qed.
Lemma cap01_range x : 0 <= cap01 x <= 1.
Proof. unfold cap01. repeat destruct Rle_dec; lra. Qed.
Lemma cap01_0 x : x <= 0 -> cap01 x = 0.
Proof. unfold cap01. repeat destruct Rle_dec; lra. Qed.

(** ** One repetition *)
Lemma cf_y_rep_fin vy a b : vy <> 0 -> a <> 0 -> cf_y_rep vy a b = Fin (outcome_gain a b).
Proof.
  intros V A. unfold cf_y_rep, r2_y, esub, ediv, eneg, eadd. rewrite (proj2 (reqb_false vy 0) V). cbn.
  replace (1 + - (1 + - (a / vy))) with (a / vy) by ring. assert (a / vy <> 0). { unfold Rdiv. apply Rmult_integral_contrapositive_currified; [exact A|]. apply Rinv_neq_0_compat, V. }
  rewrite (proj2 (reqb_false _ 0) H). cbn. rewrite clip01_cap. unfold outcome_gain. do 2 f_equal. field. split; assumption.
Qed.
(** Perfect fit of the long model. *)
Lemma cf_y_rep_zero vy b : 0 < vy -> cf_y_rep vy 0 b = if rltb 0 b then Fin 1 else if rltb b 0 then Fin 0 else NaN.
Proof.
  intros V. unfold cf_y_rep, r2_y, esub, ediv, eneg, eadd. rewrite (proj2 (reqb_false vy 0)) by lra. cbn.
  replace (1 + - (1 + - (0 / vy))) with 0 by (unfold Rdiv; ring). rewrite (proj2 (reqb_iff 0 0) eq_refl).
  replace (1 + - (0 / vy) + - (1 + - (b / vy))) with (b / vy) by (unfold Rdiv; ring).
  destruct (rltb 0 b) eqn:E1.
  - apply rltb_iff in E1. rewrite (proj2 (rltb_iff 0 (b / vy))); [reflexivity|]. apply Rdiv_lt_0_compat; assumption.
  - apply rltb_false in E1. destruct (rltb b 0) eqn:E2.
    + apply rltb_iff in E2. assert (b / vy < 0). { assert (0 < (- b) / vy) by (apply Rdiv_lt_0_compat; lra). unfold Rdiv in *. lra. }
      rewrite (proj2 (rltb_false 0 (b / vy))) by lra. rewrite (proj2 (rltb_iff (b / vy) 0)) by exact H. reflexivity.
    + apply rltb_false in E2. assert (b = 0) by lra. subst b. replace (0 / vy) with 0 by (unfold Rdiv; ring). rewrite (proj2 (rltb_false 0 0)) by lra. reflexivity.
Qed.
Lemma cf_d_rep_fin a b : a <> 0 -> b <> 0 -> cf_d_rep a b = Fin (riesz_gain a b).
Proof.
  intros A B. unfold cf_d_rep, esub, ediv, eneg, eadd. rewrite (proj2 (reqb_false a 0) A). cbn.
  assert (b / a <> 0). { unfold Rdiv. apply Rmult_integral_contrapositive_currified; [exact B|]. apply Rinv_neq_0_compat, A. }
  rewrite (proj2 (reqb_false _ 0) H). cbn. rewrite clip01_cap. unfold riesz_gain. do 2 f_equal. field. split; assumption.
Qed.
Lemma cf_y_rep_range vy a b x : cf_y_rep vy a b = Fin x -> 0 <= x <= 1.
Proof. unfold cf_y_rep. destruct (ediv _ _); cbn; intro H; try discriminate H; injection H as <-; try lra. rewrite clip01_cap. apply cap01_range. Qed.
Lemma cf_d_rep_range a b x : cf_d_rep a b = Fin x -> 0 <= x <= 1.
Proof. unfold cf_d_rep. destruct (ediv (esub _ _) _); cbn; intro H; try discriminate H; injection H as <-; try lra. rewrite clip01_cap. apply cap01_range. Qed.
Lemma rho_rep_range s2l s2s nl ns d : Rabs (rho_rep s2l s2s nl ns d) <= 1.
Proof.
  unfold rho_rep. rewrite Rabs_mult, clip01_cap. match goal with |- context [cap01 ?x] => pose proof (cap01_range x) as H; set (c := cap01 x) in * end.
  rewrite (Rabs_pos_eq c) by lra. assert (0 <= Rabs (rsign d) <= 1). { unfold rsign. repeat destruct Rlt_dec; unfold Rabs; destruct Rcase_abs; lra. }
  nra.
Qed.
Lemma gain_denom_nonneg s2l s2s nl ns : 0 <= gain_denom s2l s2s nl ns.
Proof. unfold gain_denom. destruct (_ && _)%bool; [apply sqrt_pos|lra]. Qed.
Lemma rho_rep_sign s2l s2s nl ns d : same_sign (rho_rep s2l s2s nl ns d) d.
Proof.
  assert (H : d <> 0 -> 0 < rclip 0 1 (if reqb (gain_denom s2l s2s nl ns) 0 then 1 else Rabs d / gain_denom s2l s2s nl ns)).
  { intro D. rewrite clip01_cap. pose proof (gain_denom_nonneg s2l s2s nl ns) as P. destruct (reqb _ 0) eqn:E.
    - unfold cap01. repeat destruct Rle_dec; lra.
    - apply reqb_false in E. assert (0 < Rabs d / gain_denom s2l s2s nl ns) by (apply Rdiv_lt_0_compat; [apply Rabs_pos_lt, D|lra]). unfold cap01. repeat destruct Rle_dec; lra. }
  unfold same_sign, rho_rep. set (c := rclip 0 1 _) in *. unfold rsign. destruct (Rlt_dec d 0) as [L|L]; [|destruct (Rlt_dec 0 d) as [G|G]].
  - assert (0 < c) by (apply H; lra). split; split; intro; lra.
  - assert (0 < c) by (apply H; lra). split; split; intro; lra.
  - assert (d = 0) by lra. split; split; intro; lra.
Qed.

(** ** Medians over repetitions *)
Lemma fins_map r (f : nat -> ext) xs : fins (map f (seq 0 r)) = Some xs -> length xs = r /\ forall j, (j < r)%nat -> f j = Fin (nth j xs 0).
Proof.
  intro H. assert (G : forall a, fins (map f (seq a r)) = Some xs -> length xs = r /\ forall j, (j < r)%nat -> f (a + j)%nat = Fin (nth j xs 0)).
  { clear H. revert xs. induction r as [|r IH]; intros xs a H; cbn in H; [injection H as <-; split; [reflexivity|lia]|].
    destruct (f a) eqn:E; cbn in H; try discriminate. destruct (fins (map f (seq (S a) r))) as [l|] eqn:F; [|discriminate]. injection H as <-.
    destruct (IH l (S a) F) as (A & B). split; [cbn; lia|]. intros [|j] Hj; [rewrite Nat.add_0_r; exact E|]. replace (a + S j)%nat with (S a + j)%nat by lia. cbn. apply B. lia. }
  apply (G 0%nat H).
Qed.
Lemma fins_all r (f : nat -> ext) g : (forall j, (j < r)%nat -> f j = Fin (g j)) -> fins (map f (seq 0 r)) = Some (map g (seq 0 r)).
Proof.
  intro H. assert (G : forall l, (forall j, In j l -> (j < r)%nat) -> fins (map f l) = Some (map g l)).
  { induction l as [|j l IH]; intro L; cbn; [reflexivity|]. rewrite H by (apply L; left; reflexivity). rewrite IH by (intros; apply L; right; assumption). reflexivity. }
  apply G. intros j Hj. apply in_seq in Hj. lia.
Qed.
Lemma emedian_fin r f g : (forall j, (j < r)%nat -> f j = Fin (g j)) -> emedian (map f (seq 0 r)) = Fin (medianf r g).
Proof. intro H. unfold emedian. rewrite (fins_all r f g H). reflexivity. Qed.
Lemma emedian_range r f x : (0 < r)%nat -> (forall j y, (j < r)%nat -> f j = Fin y -> 0 <= y <= 1) -> emedian (map f (seq 0 r)) = Fin x -> 0 <= x <= 1.
Proof.
  intros Hr H. unfold emedian. destruct (fins (map f (seq 0 r))) as [xs|] eqn:E; intro F; [|discriminate]. injection F as <-.
  apply fins_map in E as (L & E). subst r. assert (M : xs = map (fun j => nth j xs 0) (seq 0 (length xs))).
  { apply (nth_ext _ _ 0 0); [rewrite map_length, seq_length; reflexivity|]. intros k Hk. rewrite (nth_indep (map (fun j => nth j xs 0) (seq 0 (length xs))) 0 (nth 0 xs 0)) by (rewrite map_length, seq_length; exact Hk).
    rewrite (map_nth (fun j => nth j xs 0) (seq 0 (length xs)) 0%nat). rewrite seq_nth by exact Hk. reflexivity. }
  rewrite M. fold (medianf (length xs) (fun j => nth j xs 0)). split.
  - apply medianf_ge; [exact Hr|]. intros j Hj. apply (H j _ Hj). apply E, Hj.
  - apply medianf_le; [exact Hr|]. intros j Hj. apply (H j _ Hj). apply E, Hj.
Qed.

(** ** The whole call *)
Lemma gain_inv vy long short k r g : gain_statistics vy long short = Ok (k, r, g) ->
  exists s2l s2s nl ns cl cs,
    g = {| ga_cf_y := fun t => emedian (map (fun j => cf_y_rep vy (s2l t j) (s2s t j)) (seq 0 r));
           ga_cf_d := fun t => emedian (map (fun j => cf_d_rep (nl t j) (ns t j)) (seq 0 r));
           ga_rho := fun t => medianf r (fun j => rho_rep (s2l t j) (s2s t j) (nl t j) (ns t j) (cs t j - cl t j));
           ga_delta := fun t => medianf r (fun j => cs t j - cl t j) |} /\
    gain_input long k r /\ gain_input short k r /\ same_nu_shape long short.
Proof.
  unfold gain_statistics, gain_keys, gain_pair, gain_coef, require. intro H.
  destruct (gm_sens long) as [[sl vl]|] eqn:EL; [|discriminate]. destruct sl as [| |sl]; try discriminate; destruct vl as [| |vl]; cbn [present andb bind fst snd gain_array] in H; try discriminate;
  (destruct (gm_sens short) as [[ss vs]|] eqn:ES; [|discriminate]); destruct ss as [| |ss]; try discriminate; destruct vs as [| |vs]; cbn [present andb bind fst snd gain_array] in H; try discriminate;
  repeat (match type of H with context [if ?b then _ else _] => let E := fresh "Q" in destruct b eqn:E; [|discriminate] end; cbn [bind fst snd gain_array] in H); try discriminate.
  destruct (gm_coef long) as [cl|] eqn:CL; [|discriminate]. destruct (gm_coef short) as [cs|] eqn:CS; [|discriminate]. cbn [bind fst snd] in H.
  destruct (shape_eqb (shape cl) _) eqn:K1; [|discriminate]. destruct (shape_eqb (shape cs) _) eqn:K2; [|discriminate].
  injection H as <- <- <-.
  exists (fun t j => at_ sl [0%nat; t; j]), (fun t j => at_ ss [0%nat; t; j]), (fun t j => at_ vl [0%nat; t; j]), (fun t j => at_ vs [0%nat; t; j]), (fun t j => at_ cl [t; j]), (fun t j => at_ cs [t; j]).
  split; [reflexivity|]. unfold gain_dims in *.
  repeat match goal with A : (_ && _)%bool = true |- _ => apply andb_true_iff in A; destruct A end. rewrite ?shape_eqb_eq, ?Nat.eqb_eq in *.
  assert (T : forall a : nd, length (shape a) = 3%nat -> dim 0 a = 1%nat -> shape a = [1%nat; dim 1 a; dim 2 a]).
  { intros a A B. unfold dim in *. destruct (shape a) as [|x [|y [|z [|]]]]; cbn in *; try discriminate. subst. reflexivity. }
  split; [|split].
  - exists sl, vl, cl. repeat split; auto.
  - exists ss, vs, cs. repeat split; auto. match goal with A : shape sl = shape ss |- _ => rewrite <- A end. auto.
  - exists (Val sl), vl, (Val ss), vs. auto.
Qed.
Lemma gain_accepted vy long short : is_ok (gain_statistics vy long short) = true <->
  exists k r, gain_input long k r /\ gain_input short k r /\ same_nu_shape long short.
Proof.
  split.
  - destruct (gain_statistics vy long short) as [[[k r] g]|] eqn:E; [|discriminate]. intros _. apply gain_inv in E as (? & ? & ? & ? & ? & ? & _ & H). exists k, r. exact H.
  - intros (k & r & (s & v & c & E1 & E2 & S1 & S2 & L1 & D1) & (s' & v' & c' & E1' & E2' & S1' & S2' & L1' & D1') & (x1 & w1 & x2 & w2 & F1 & F2 & W)).
    rewrite E1 in F1. rewrite E1' in F2. injection F1 as <- <-. injection F2 as <- <-.
    unfold gain_statistics, gain_keys, gain_pair, gain_coef, gain_dims, require. rewrite E1, E1', E2, E2'. cbn [present andb bind fst snd gain_array].
    unfold dim in *. rewrite S1, S1', L1, L1', D1, D1', W. cbn [length nth Nat.eqb andb].
    rewrite (proj2 (shape_eqb_eq (shape v') (shape v')) eq_refl), (proj2 (shape_eqb_eq [1%nat; k; r] _) eq_refl). cbn [bind fst snd gain_array]. rewrite S1. cbn [nth]. rewrite S2, S2'.
    rewrite (proj2 (shape_eqb_eq [k; r] _) eq_refl). reflexivity.
Qed.
Lemma gain_model_of vy k r s2l nl cl s2s ns cs : gain_statistics vy (model_of k r s2l nl cl) (model_of k r s2s ns cs) =
  Ok (k, r, {| ga_cf_y := fun t => emedian (map (fun j => cf_y_rep vy (s2l t j) (s2s t j)) (seq 0 r));
               ga_cf_d := fun t => emedian (map (fun j => cf_d_rep (nl t j) (ns t j)) (seq 0 r));
               ga_rho := fun t => medianf r (fun j => rho_rep (s2l t j) (s2s t j) (nl t j) (ns t j) (cs t j - cl t j));
               ga_delta := fun t => medianf r (fun j => cs t j - cl t j) |}).
Proof.
  unfold gain_statistics, model_of, gain_keys, gain_pair, gain_coef, gain_dims, require, dim. cbn -[shape_eqb]. repeat (rewrite (proj2 (shape_eqb_eq _ _) eq_refl); cbn -[shape_eqb]). reflexivity.
Qed.

Lemma gain_range vy long short k r g : gain_statistics vy long short = Ok (k, r, g) -> (0 < r)%nat -> forall t,
  (forall x, ga_cf_y g t = Fin x -> 0 <= x <= 1) /\ (forall x, ga_cf_d g t = Fin x -> 0 <= x <= 1) /\ -1 <= ga_rho g t <= 1.
Proof.
  intros H Hr t. apply gain_inv in H as (s2l & s2s & nl & ns & cl & cs & -> & _). cbn [ga_cf_y ga_cf_d ga_rho]. split; [|split].
  - intros x. apply emedian_range; [exact Hr|]. intros j y _. apply cf_y_rep_range.
  - intros x. apply emedian_range; [exact Hr|]. intros j y _. apply cf_d_rep_range.
  - split; [apply medianf_ge|apply medianf_le]; auto; intros j _; pose proof (rho_rep_range (s2l t j) (s2s t j) (nl t j) (ns t j) (cs t j - cl t j)) as B; unfold Rabs in B; destruct Rcase_abs; lra.
Qed.

(** Sign of the degree of adversity: all repetitions agree on the direction. *)
Lemma rho_sign_pos vy k r s2l nl cl s2s ns cs t : (0 < r)%nat -> (forall j, (j < r)%nat -> cl t j <= cs t j) -> exists g,
  gain_statistics vy (model_of k r s2l nl cl) (model_of k r s2s ns cs) = Ok (k, r, g) /\ 0 <= ga_rho g t /\ 0 <= ga_delta g t.
Proof.
  intros Hr H. rewrite gain_model_of. eexists. split; [reflexivity|]. cbn. split; apply medianf_ge; auto; intros j Hj; specialize (H j Hj); [|lra].
  destruct (rho_rep_sign (s2l t j) (s2s t j) (nl t j) (ns t j) (cs t j - cl t j)) as (_ & B). destruct (Rlt_dec (rho_rep (s2l t j) (s2s t j) (nl t j) (ns t j) (cs t j - cl t j)) 0) as [L|L]; [|lra]. apply B in L. lra.
Qed.
Lemma gain_values vy k r s2l nl cl s2s ns cs t : vy <> 0 -> (forall j, (j < r)%nat -> s2l t j <> 0 /\ nl t j <> 0 /\ ns t j <> 0) -> exists g,
  gain_statistics vy (model_of k r s2l nl cl) (model_of k r s2s ns cs) = Ok (k, r, g) /\
  ga_cf_y g t = Fin (medianf r (fun j => outcome_gain (s2l t j) (s2s t j))) /\
  ga_cf_d g t = Fin (medianf r (fun j => riesz_gain (nl t j) (ns t j))) /\
  ga_delta g t = medianf r (fun j => cs t j - cl t j).
Proof.
  intros V H. rewrite gain_model_of. eexists. split; [reflexivity|]. cbn. split; [|split; [|reflexivity]]; apply emedian_fin; intros j Hj; destruct (H j Hj) as (A & B & C).
  - apply cf_y_rep_fin; assumption.
  - apply cf_d_rep_fin; assumption.
Qed.
Lemma gain_one_rep vy k s2l nl cl s2s ns cs t : exists g,
  gain_statistics vy (model_of k 1 s2l nl cl) (model_of k 1 s2s ns cs) = Ok (k, 1%nat, g) /\ same_sign (ga_rho g t) (ga_delta g t).
Proof. rewrite gain_model_of. eexists. split; [reflexivity|]. cbn [ga_rho ga_delta]. rewrite !medianf_one. apply rho_rep_sign. Qed.
Lemma gain_same vy k r s2 nu c t : (0 < r)%nat -> vy <> 0 -> (forall j, (j < r)%nat -> s2 t j <> 0 /\ nu t j <> 0) -> exists g,
  gain_statistics vy (model_of k r s2 nu c) (model_of k r s2 nu c) = Ok (k, r, g) /\
  ga_cf_y g t = Fin 0 /\ ga_cf_d g t = Fin 0 /\ ga_rho g t = 0 /\ ga_delta g t = 0.
Proof.
  intros Hr V H. destruct (gain_values vy k r s2 nu c s2 nu c t V) as (g & E & A & B & D). { intros j Hj. destruct (H j Hj). auto. }
  exists g. split; [exact E|]. rewrite A, B, D. rewrite gain_model_of in E. injection E as <-. cbn [ga_rho].
  split; [|split; [|split]].
  - f_equal. apply medianf_zero; [exact Hr|]. intros j Hj. destruct (H j Hj) as (S1 & _). unfold outcome_gain. replace (s2 t j / s2 t j) with 1 by (field; exact S1). apply cap01_0. lra.
  - f_equal. apply medianf_zero; [exact Hr|]. intros j Hj. destruct (H j Hj) as (_ & S1). unfold riesz_gain. replace (nu t j / nu t j) with 1 by (field; exact S1). apply cap01_0. lra.
  - apply medianf_zero; [exact Hr|]. intros j _. unfold rho_rep, rsign. replace (c t j - c t j) with 0 by ring. repeat destruct Rlt_dec; lra.
  - apply medianf_zero; [exact Hr|]. intros. ring.
Qed.
(** Rescaling the outcome. *)
Lemma rho_rep_scale c a b nl ns d : 0 < c -> rho_rep (c ^ 2 * a) (c ^ 2 * b) nl ns (c * d) = rho_rep a b nl ns d.
Proof.
  intro C. assert (C2 : 0 < c ^ 2) by (apply pow_lt, C). unfold rho_rep. assert (S1 : rsign (c * d) = rsign d).
  { unfold rsign. repeat destruct Rlt_dec; try lra; exfalso; nra. }
  rewrite S1. f_equal. f_equal.
  assert (G : gain_denom (c ^ 2 * a) (c ^ 2 * b) nl ns = c * gain_denom a b nl ns).
  { unfold gain_denom. replace (c ^ 2 * b - c ^ 2 * a) with (c ^ 2 * (b - a)) by ring.
    assert (E : rltb 0 (c ^ 2 * (b - a)) = rltb 0 (b - a)). { unfold rltb. destruct (Rlt_dec 0 (b - a)) as [L|L]; destruct Rlt_dec as [M|M]; try reflexivity; exfalso; [apply M; apply Rmult_lt_0_compat; assumption|]. apply L. apply (Rmult_lt_reg_l (c ^ 2)); [exact C2|]. lra. }
    rewrite E. destruct (rltb 0 (b - a) && rltb 0 (nl - ns))%bool; [|ring]. rewrite Rmult_assoc, sqrt_mult_alt by lra. rewrite sqrt_pow2 by lra. reflexivity. }
  rewrite G. set (q := gain_denom a b nl ns). assert (E : reqb (c * q) 0 = reqb q 0). { unfold reqb. destruct (Req_EM_T q 0) as [e|e]; destruct Req_EM_T as [e'|e']; try reflexivity; exfalso; [apply e'; rewrite e; ring|]. apply Rmult_integral in e' as [|]; lra. }
  rewrite E. destruct (reqb q 0) eqn:Q; [reflexivity|]. apply reqb_false in Q. rewrite Rabs_mult, (Rabs_pos_eq c) by lra. field. split; lra.
Qed.
Lemma ediv_scale c x y : c <> 0 -> y <> 0 -> c * x / (c * y) = x / y.
Proof. intros. field. split; assumption. Qed.
Lemma gain_scale vy k r s2l nl cl s2s ns cs t c : 0 < c -> (0 < r)%nat -> vy <> 0 -> exists g h,
  gain_statistics vy (model_of k r s2l nl cl) (model_of k r s2s ns cs) = Ok (k, r, g) /\
  gain_statistics (c ^ 2 * vy) (model_of k r (fun t j => c ^ 2 * s2l t j) nl (fun t j => c * cl t j)) (model_of k r (fun t j => c ^ 2 * s2s t j) ns (fun t j => c * cs t j)) = Ok (k, r, h) /\
  ga_cf_y h t = ga_cf_y g t /\ ga_cf_d h t = ga_cf_d g t /\ ga_rho h t = ga_rho g t /\ ga_delta h t = c * ga_delta g t.
Proof.
  intros C Hr V. assert (C2 : c ^ 2 <> 0) by (apply pow_nonzero; lra). rewrite !gain_model_of. do 2 eexists. split; [reflexivity|]. split; [reflexivity|]. cbn [ga_cf_y ga_cf_d ga_rho ga_delta]. split; [|split; [reflexivity|split]].
  - f_equal. apply map_ext. intro j. unfold cf_y_rep, r2_y, ediv at 2 4 6. f_equal.
    assert (E : forall s, ediv (Fin (c ^ 2 * s)) (Fin (c ^ 2 * vy)) = ediv (Fin s) (Fin vy)).
    { intro s. unfold ediv. rewrite (proj2 (reqb_false vy 0) V), (proj2 (reqb_false (c ^ 2 * vy) 0)) by (apply Rmult_integral_contrapositive_currified; assumption). rewrite ediv_scale by assumption. reflexivity. }
    fold (ediv (Fin (c ^ 2 * s2l t j)) (Fin (c ^ 2 * vy))). fold (ediv (Fin (c ^ 2 * s2s t j)) (Fin (c ^ 2 * vy))). rewrite !E. reflexivity.
  - apply medianf_ext. intros j _. replace (c * cs t j - c * cl t j) with (c * (cs t j - cl t j)) by ring. apply rho_rep_scale, C.
  - rewrite <- medianf_scale by (auto; lra). apply medianf_ext. intros. ring.
Qed.
(** Several repetitions: the medians of rho and delta may differ in sign. *)
Lemma gain_sign_differs : exists g,
  gain_statistics 1 (model_of 1 2 (fun _ _ => 1) (fun _ _ => 2) (fun _ _ => 0)) (model_of 1 2 (fun _ _ => 2) (fun _ _ => 1) (fun _ j => if Nat.eqb j 0 then -3 else 2)) = Ok (1%nat, 2%nat, g) /\
  ga_delta g 0%nat < 0 /\ ga_rho g 0%nat = 0.
Proof.
  rewrite gain_model_of. eexists. split; [reflexivity|]. cbn [ga_rho ga_delta]. unfold medianf, median. cbn [seq map length Nat.even].
  assert (R : forall d, rho_rep 1 2 2 1 d = rclip 0 1 (Rabs d) * rsign d).
  { intro d. unfold rho_rep, gain_denom. rewrite !(proj2 (rltb_iff 0 _)) by lra. cbn. replace ((2 - 1) * (2 - 1)) with 1 by ring. rewrite sqrt_1, (proj2 (reqb_false 1 0)) by lra. do 2 f_equal. field. }
  rewrite !R. cbn [Nat.eqb]. split.
  - unfold rsort, rinsert. destruct Rle_dec; cbn; lra.
  - assert (A : rclip 0 1 (Rabs (-3 - 0)) * rsign (-3 - 0) = -1). { unfold rclip, Rmin, Rmax, Rabs, rsign. repeat (destruct Rle_dec || destruct Rcase_abs || destruct Rlt_dec); lra. }
    assert (B : rclip 0 1 (Rabs (2 - 0)) * rsign (2 - 0) = 1). { unfold rclip, Rmin, Rmax, Rabs, rsign. repeat (destruct Rle_dec || destruct Rcase_abs || destruct Rlt_dec); lra. }
    rewrite A, B. unfold rsort, rinsert. destruct Rle_dec; cbn; lra.
Qed.
(** A long model without outcome residuals: nan instead of a value in [0,1]. *)
Lemma gain_nan : exists g, gain_statistics 1 (model_of 1 1 (fun _ _ => 0) (fun _ _ => 1) (fun _ _ => 0)) (model_of 1 1 (fun _ _ => 0) (fun _ _ => 1) (fun _ _ => 0)) = Ok (1%nat, 1%nat, g) /\ ga_cf_y g 0%nat = NaN.
Proof.
  rewrite gain_model_of. eexists. split; [reflexivity|]. cbn [ga_cf_y seq map]. rewrite cf_y_rep_zero by lra. rewrite (proj2 (rltb_false 0 0)) by lra. reflexivity.
Qed.

(** Size of rho. *)
Lemma rho_rep_implied s2l s2s nl ns d : rho_rep s2l s2s nl ns d = implied_rho s2l s2s nl ns d.
Proof.
  assert (G : rclip 0 1 (if reqb (gain_denom s2l s2s nl ns) 0 then 1 else Rabs d / gain_denom s2l s2s nl ns) =
    (if Rlt_dec s2l s2s then (if Rlt_dec ns nl then Rmin 1 (Rabs d / sqrt ((s2s - s2l) * (nl - ns))) else 1) else 1)).
  { assert (One : rclip 0 1 1 = 1) by (rewrite clip01_cap; unfold cap01; repeat destruct Rle_dec; lra).
    unfold gain_denom. cbv zeta. destruct (Rlt_dec s2l s2s) as [A|A].
    - rewrite (proj2 (rltb_iff 0 (s2s - s2l))) by lra. destruct (Rlt_dec ns nl) as [B|B].
      + rewrite (proj2 (rltb_iff 0 (nl - ns))) by lra. cbn [andb]. assert (P : 0 < sqrt ((s2s - s2l) * (nl - ns))) by (apply sqrt_lt_R0, Rmult_lt_0_compat; lra).
        rewrite (proj2 (reqb_false _ _)) by lra. assert (Q : 0 <= Rabs d / sqrt ((s2s - s2l) * (nl - ns))) by (apply Rmult_le_pos; [apply Rabs_pos|left; apply Rinv_0_lt_compat, P]).
        unfold rclip, Rmin, Rmax. repeat destruct Rle_dec; lra.
      + rewrite (proj2 (rltb_false 0 (nl - ns))) by lra. cbn [andb]. rewrite (proj2 (reqb_iff 0 0) eq_refl). exact One.
    - rewrite (proj2 (rltb_false 0 (s2s - s2l))) by lra. cbn [andb]. rewrite (proj2 (reqb_iff 0 0) eq_refl). exact One. }
  unfold rho_rep, implied_rho. cbv zeta. rewrite G. unfold rsign. repeat destruct Rlt_dec; try lra.
Qed.
Lemma gain_rho vy k r s2l nl cl s2s ns cs t : exists g,
  gain_statistics vy (model_of k r s2l nl cl) (model_of k r s2s ns cs) = Ok (k, r, g) /\
  ga_rho g t = medianf r (fun j => implied_rho (s2l t j) (s2s t j) (nl t j) (ns t j) (cs t j - cl t j)).
Proof. rewrite gain_model_of. eexists. split; [reflexivity|]. cbn [ga_rho]. apply medianf_ext. intros j _. apply rho_rep_implied. Qed.

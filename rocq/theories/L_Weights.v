(** Admissible weights. *)
From Verif Require Export S_Weights L_Scores.
From Coq Require Import Lra.
Local Open Scope R_scope.

Lemma indices_in s i : In i (indices s) <-> in_shape i s.
Proof.
  revert i. induction s as [|n s IH]; intro i; cbn [indices].
  - split; [intros [<-|[]]; exact Logic.I|]. destruct i; [intros _; left; reflexivity|contradiction].
  - rewrite in_flat_map. split.
    + intros (k & Hk & H). apply in_map_iff in H as (j & <- & Hj). apply in_seq in Hk. split; [lia|]. apply IH. exact Hj.
    + destruct i as [|k i]; [contradiction|]. intros (Hk & Hi). exists k. split; [apply in_seq; lia|]. apply in_map. apply IH. exact Hi.
Qed.
Lemma arr_all_iff p (a : nd) : arr_all p a = true <-> forall i, in_shape i (shape a) -> p (at_ a i) = true.
Proof. unfold arr_all. rewrite forallb_forall. split; intros H i Hi; apply H; apply indices_in; exact Hi. Qed.
Lemma rleb_iff x y : rleb x y = true <-> x <= y.
Proof. unfold rleb. destruct Rle_dec; split; intro; try discriminate; try lra; reflexivity. Qed.
Lemma reqb_iff x y : reqb x y = true <-> x = y.
Proof. unfold reqb. destruct Req_EM_T; split; intro; try discriminate; try contradiction; auto. Qed.
Lemma shape_eqb_eq a b : shape_eqb a b = true <-> a = b.
Proof.
  revert b. induction a as [|x a IH]; intros [|y b]; cbn; split; intro H; try discriminate; try reflexivity.
  - apply andb_true_iff in H as (A & B). apply Nat.eqb_eq in A. apply IH in B. congruence.
  - injection H as <- <-. rewrite Nat.eqb_refl. apply IH. reflexivity.
Qed.
Lemma rsum_zero_all l : (forall x, In x l -> 0 <= x) -> Rsum l = 0 -> forall x, In x l -> x = 0.
Proof.
  induction l as [|y l IH]; intros H E x Hx; [contradiction|]. cbn in E. assert (0 <= y) by (apply H; left; reflexivity).
  assert (0 <= Rsum l). { rewrite <- (map_id l). apply Rsum_map_nonneg. intros z Hz. apply H. right. exact Hz. }
  destruct Hx as [<-|Hx]; [lra|]. apply IH; [intros z Hz; apply H; right; exact Hz|lra|exact Hx].
Qed.
Lemma arr_sum_pos (a : nd) : all_nonneg a -> (arr_sum a <> 0 <-> some_positive a).
Proof.
  intro H. unfold arr_sum. split.
  - intro E. destruct (Classical_Prop.classic (some_positive a)) as [S|S]; [exact S|]. exfalso. apply E.
    assert (forall i, In i (indices (shape a)) -> at_ a i = 0).
    { intros i Hi. apply indices_in in Hi. pose proof (H i Hi). destruct (Rle_lt_or_eq_dec _ _ H0) as [L|L]; [|auto]. exfalso. apply S. exists i. split; assumption. }
    rewrite (Rsum_map_ext _ (fun _ => 0)) by exact H0. rewrite Rsum_map_const. ring.
  - intros (i & Hi & P) E. assert (at_ a i = 0); [|lra]. eapply rsum_zero_all; [|exact E|apply in_map; apply indices_in; exact Hi].
    intros x Hx. apply in_map_iff in Hx as (j & <- & Hj). apply H. apply indices_in. exact Hj.
Qed.
Lemma check_arr (a : nd) s : (shape_eqb (shape a) s = true /\ arr_all (fun x => rleb 0 x) a = true /\ negb (reqb (arr_sum a) 0) = true) <-> admissible a s.
Proof.
  unfold admissible. rewrite shape_eqb_eq, arr_all_iff, negb_true_iff. split.
  - intros (A & B & C). assert (N : all_nonneg a) by (intros i Hi; apply rleb_iff; apply B; exact Hi). repeat split; [exact A|exact N|]. apply arr_sum_pos; [exact N|]. intro E. apply reqb_iff in E. congruence.
  - intros (A & B & C). repeat split; [exact A|intros i Hi; apply rleb_iff; apply B; exact Hi|]. apply arr_sum_pos in C; [|exact B]. destruct (reqb (arr_sum a) 0) eqn:E; [apply reqb_iff in E; contradiction|reflexivity].
Qed.
Lemma accepted_iff w sc n n_rep : check_weights w sc n n_rep = Ok tt <-> weights_ok w sc n n_rep.
Proof.
  unfold check_weights, weights_ok, require. destruct w as [|a|ew eb extra|]; [tauto| | |split; [discriminate|contradiction]].
  - split.
    + intro H. destruct (shape_eqb (shape a) [n]) eqn:E1; [|discriminate]. destruct (arr_all (fun x => rleb 0 x) a) eqn:E2; [|discriminate]. destruct (negb (reqb (arr_sum a) 0)) eqn:E3; [|discriminate].
      split; [apply check_arr; auto|]. intros ->. cbn [bind] in H. destruct (arr_all (fun x => reqb (x ^ 2 - x) 0) a) eqn:E4; [|discriminate].
      intros i Hi. apply arr_all_iff with (i := i) in E4; [|exact Hi]. apply reqb_iff in E4. assert (at_ a i * (at_ a i - 1) = 0) by lra. apply Rmult_integral in H0 as [Z|Z]; [left|right]; lra.
    + intros (H & A). apply check_arr in H as (-> & -> & ->). cbn [bind]. destruct sc; try reflexivity. replace (arr_all (fun x => reqb (x ^ 2 - x) 0) a) with true; [reflexivity|]. symmetry.
      apply arr_all_iff. intros i Hi. apply reqb_iff. destruct (A eq_refl i Hi) as [-> | ->]; ring.
  - split.
    + intro H. destruct sc; try discriminate H. destruct ew as [| |a]; [discriminate H| |].
      { destruct eb, extra; discriminate H. }
      destruct eb as [| |b]; [destruct extra; discriminate H| |].
      { destruct extra; [discriminate H|]. cbn [present andb negb need_shape] in H. unfold require in H. destruct (shape_eqb (shape a) [n]); discriminate H. }
      destruct extra; [discriminate H|]. cbn [present andb negb need_shape] in H. unfold require in H.
      destruct (shape_eqb (shape a) [n]) eqn:E1; [|discriminate H]. cbn [bind] in H. destruct (shape_eqb (shape b) [n; n_rep]) eqn:E2; [|discriminate H]. cbn [bind] in H.
      destruct (arr_all (fun x => rleb 0 x) a) eqn:E3; [|discriminate H]. destruct (arr_all (fun x => rleb 0 x) b) eqn:E4; [|discriminate H]. cbn [andb] in H.
      destruct (negb (reqb (arr_sum a) 0)) eqn:E5; [|discriminate H]. destruct (negb (reqb (arr_sum b) 0)) eqn:E6; [|discriminate H].
      split; [reflexivity|]. split; [reflexivity|]. exists a, b. split; [reflexivity|]. split; [reflexivity|]. split; apply check_arr; auto.
    + intros (-> & -> & a & b & -> & -> & A & B). apply check_arr in A as (A1 & A2 & A3). apply check_arr in B as (B1 & B2 & B3). cbn [present andb negb need_shape bind]. unfold require. rewrite A1. cbn [bind]. rewrite B1. cbn [bind]. rewrite A2, B2, A3, B3. reflexivity.
Qed.
Lemma admissible_mean (a : nd) n : admissible a [n] -> 0 < meanf n (fun i => at_ a [i]).
Proof.
  intros (E & H & (i & Hi & P)). assert (I : forall k, (k < n)%nat -> in_shape [k] (shape a)) by (intros k Hk; rewrite E; cbn; auto).
  rewrite E in Hi. destruct i as [|i [|]]; cbn in Hi; try contradiction; try tauto. apply meanf_pos.
  - intros k Hk. apply H, I, Hk.
  - exists i. split; [tauto|exact P].
Qed.
Lemma accepted_derivative w n n_rep r norm y d g0 g1 m : (0 < n)%nat -> check_weights w ScATE n n_rep = Ok tt ->
  meanf n (el_a (irm_score n false norm (weights_of w r) y d g0 g1 m)) = -1 /\
  meanf n (el_a (apo_score n norm (weights_of w r) y d g1 m)) = -1.
Proof.
  intros Hn H. apply accepted_iff in H. assert (P : 0 < meanf n (wg (weights_of w r))).
  { destruct w as [|a|ew eb extra|]; cbn in H; try contradiction; cbn [weights_of].
    - cbn. rewrite mean_one by exact Hn. lra.
    - apply admissible_mean. tauto.
    - destruct H as (_ & _ & a & b & -> & -> & A & _). cbn. apply admissible_mean. exact A. }
  split; unfold irm_score, apo_score, irm_weights, apo_weights; cbn [el_a fst]; apply weights_deriv; lra.
Qed.
Lemma accepted_atte_derivative w n n_rep r norm y d g0 g1 m : check_weights w ScATTE n n_rep = Ok tt -> binary n d ->
  some_row n (fun i => d i = 1 /\ wg (weights_of w r) i = 1) ->
  meanf n (el_a (irm_score n true norm (weights_of w r) y d g0 g1 m)) = -1.
Proof.
  intros H B S. apply accepted_iff in H. assert (N : (0 < n)%nat) by (destruct S as (i & Hi & _); lia).
  assert (W : forall i, (i < n)%nat -> 0 <= wg (weights_of w r) i).
  { intros i Hi. destruct w as [|a|ew eb extra|]; cbn in H; try contradiction; cbn [weights_of unit_weights wg].
    - lra.
    - destruct H as ((E & Z & _) & _). apply Z. rewrite E. cbn. auto.
    - destruct H as (Q & _). discriminate. }
  assert (P : meanf n (fun i => wg (weights_of w r) i * d i) <> 0).
  { assert (0 < meanf n (fun i => wg (weights_of w r) i * d i)); [|lra]. apply meanf_pos.
    - intros i Hi. apply Rmult_le_pos; [apply W, Hi|eapply binary_nonneg; eassumption].
    - destruct S as (i & Hi & E1 & E2). exists i. split; [exact Hi|]. rewrite E1, E2. lra. }
  cbn [irm_score irm_weights el_a fst]. apply (weights_deriv n (fun i => wg (weights_of w r) i * d i / meanf n (fun i => wg (weights_of w r) i * d i))).
  rewrite meanf_norm by exact P. lra.
Qed.

(** Cross-fitting. *)
From Verif Require Export S_CrossFit L_ClusterSplit.
From Coq Require Import Lia.
Local Open Scope res_scope.

(** ** Parallel execution *)
Lemma map_res_ext {A B} (f g : A -> result B) l : (forall x, In x l -> f x = g x) -> map_res f l = map_res g l.
Proof. induction l as [|x l IH]; intro H; [reflexivity|]. cbn. rewrite (H x (or_introl eq_refl)), IH by (intros; apply H; right; assumption). reflexivity. Qed.
Lemma par_exec_ok {A} (task : nat -> result A) order : forall slots s, par_exec order task slots = Ok s ->
  (forall k, In k order -> exists v, task k = Ok v /\ s k = Some v) /\ (forall k, ~ In k order -> s k = slots k).
Proof.
  induction order as [|k0 order IH]; intros slots s H; cbn in H.
  - injection H as <-. split; [intros k []|reflexivity].
  - destruct (task k0) as [v0|e] eqn:E0; [|discriminate]. cbn [bind] in H. apply IH in H. destruct H as [H1 H2]. split.
    + intros k Hk. destruct (in_dec Nat.eq_dec k order) as [Hi|Hi]; [apply H1, Hi|]. destruct Hk as [<- | Hk]; [|contradiction].
      exists v0. split; [exact E0|]. rewrite H2 by exact Hi. rewrite Nat.eqb_refl. reflexivity.
    + intros k Hk. rewrite H2 by (intro X; apply Hk; right; exact X). destruct (Nat.eqb_spec k k0) as [->|Hne]; [exfalso; apply Hk; left; reflexivity|reflexivity].
Qed.
Lemma par_exec_def {A} (task : nat -> result A) order : (forall k, In k order -> exists v, task k = Ok v) ->
  forall slots, exists s, par_exec order task slots = Ok s.
Proof.
  induction order as [|k0 order IH]; intros H slots; cbn; [eauto|]. destruct (H k0 (or_introl eq_refl)) as [v ->]. cbn [bind]. apply IH. intros; apply H; right; assumption.
Qed.
Lemma parallel_iff {A} order K (task : nat -> result A) l : schedule order K -> (parallel order K task = Ok l <-> map_res task (seq 0 K) = Ok l).
Proof.
  intro Hs. assert (Hin : forall k, In k order <-> k < K) by (intro k; rewrite (Permutation_in' (eq_refl k) Hs), in_seq; lia).
  unfold parallel. split.
  - intro H. destruct (par_exec order task (fun _ => None)) as [s|e] eqn:E; [|discriminate]. cbn [bind] in H. apply par_exec_ok in E. destruct E as [E _].
    rewrite <- H. apply map_res_ext. intros k Hk. destruct (E k) as (v & E1 & E2); [apply Hin; apply in_seq in Hk; lia|]. rewrite E1, E2. reflexivity.
  - intro H. assert (D : forall k, In k order -> exists v, task k = Ok v).
    { intros k Hk. apply Hin in Hk. apply (proj1 (map_res_ok_all task (seq 0 K))); [eauto|apply in_seq; lia]. }
    destruct (par_exec_def task order D (fun _ => None)) as [s E]. rewrite E. cbn [bind]. apply par_exec_ok in E. destruct E as [E _].
    rewrite <- H. apply map_res_ext. intros k Hk. destruct (E k) as (v & E1 & E2); [apply Hin; apply in_seq in Hk; lia|]. rewrite E1, E2. reflexivity.
Qed.
Lemma map_res_nth {A} (task : nat -> result A) K l : map_res task (seq 0 K) = Ok l -> length l = K /\ forall k, k < K -> exists v, nth_error l k = Some v /\ task k = Ok v.
Proof.
  intro H. apply map_res_iff in H. split; [apply Forall2_len in H; rewrite seq_length in H; congruence|].
  intros k Hk. assert (G : forall a K' l', Forall2 (fun x y => task x = Ok y) (seq a K') l' -> forall k, k < K' -> exists v, nth_error l' k = Some v /\ task (a + k) = Ok v).
  { clear. intros a K' l' H. remember (seq a K') as s eqn:Es. revert a K' Es. induction H as [|x y s l' Hxy H IH]; intros a K' Es k Hk; [destruct K'; [lia|discriminate]|].
    destruct K' as [|K']; [lia|]. cbn in Es. injection Es as -> ->. destruct k as [|k]; [exists y; rewrite Nat.add_0_r; split; [reflexivity|exact Hxy]|].
    destruct (IH (S a) K' eq_refl k ltac:(lia)) as (v & V1 & V2). exists v. split; [exact V1|]. rewrite <- V2. f_equal. lia. }
  apply (G 0 K l H k Hk).
Qed.

(** ** Scattering *)
Lemma position_lt i l : In i l -> position i l < length l.
Proof. induction l as [|j l IH]; intros []; cbn; [subst; rewrite Nat.eqb_refl; lia|]. destruct (Nat.eqb i j); [lia|]. apply IH in H. lia. Qed.
Lemma scatter_spec ix : forall vals v j, NoDup ix -> length vals = length ix ->
  scatter ix vals v j = if in_dec Nat.eq_dec j ix then nth_error vals (position j ix) else v j.
Proof.
  induction ix as [|i ix IH]; intros vals v j Hn Hl; destruct vals as [|a vals]; try discriminate; [reflexivity|].
  inversion Hn as [|? ? Hi Hn']; subst. unfold scatter. cbn [combine fold_left fst snd]. fold (scatter ix vals (fun j => if Nat.eqb j i then Some a else v j)). rewrite IH by (try assumption; cbn in Hl; lia).
  cbn [position]. destruct (in_dec Nat.eq_dec j ix) as [H|H], (in_dec Nat.eq_dec j (i :: ix)) as [H'|H']; destruct (Nat.eqb_spec j i) as [->|Hne]; try contradiction; try reflexivity.
  - exfalso. apply H'. right. exact H.
  - destruct H' as [H'|H']; [congruence|contradiction].
  - exfalso. apply H'. left. reflexivity.
Qed.
Lemma position_app_l i a b : In i a -> position i (a ++ b) = position i a.
Proof. induction a as [|j a IH]; intros H; [destruct H|]. cbn. destruct (Nat.eqb_spec i j); [reflexivity|]. destruct H; [congruence|]. rewrite IH by assumption. reflexivity. Qed.
Lemma position_app_r i a b : ~ In i a -> position i (a ++ b) = length a + position i b.
Proof. induction a as [|j a IH]; intros H; [reflexivity|]. cbn. destruct (Nat.eqb_spec i j) as [->|]; [exfalso; apply H; left; reflexivity|]. rewrite IH; [reflexivity|]. intro; apply H; right; assumption. Qed.
Lemma position_nth i l d : In i l -> nth (position i l) l d = i.
Proof. induction l as [|j l IH]; intros []; cbn; [subst; rewrite Nat.eqb_refl; reflexivity|]. destruct (Nat.eqb_spec i j); [congruence|]. apply IH, H. Qed.
Lemma concat_nth {B} (smpls : list fold) : forall (per : list (list B)) k f i d, NoDup (flat_map snd smpls) ->
  Forall2 (fun f r => length r = length (snd f)) smpls per -> nth_error smpls k = Some f -> In i (snd f) ->
  nth (position i (flat_map snd smpls)) (concat per) d = nth (position i (snd f)) (nth k per []) d.
Proof.
  induction smpls as [|f0 smpls IH]; intros per k f i d Hn F Hk Hi; [destruct k; discriminate|]. inversion F as [|? r ? per' Hl F']; subst. cbn [flat_map concat].
  destruct k as [|k]; cbn in Hk.
  - injection Hk as ->. rewrite position_app_l by exact Hi. rewrite app_nth1 by (rewrite Hl; apply position_lt, Hi). reflexivity.
  - assert (X : In i (flat_map snd smpls)) by (apply in_flat_map; exists f; split; [apply (nth_error_In _ _ Hk)|exact Hi]).
    rewrite position_app_r by (intro Y; cbn in Hn; clear - Hn X Y; induction (snd f0) as [|z l IHl]; [destruct Y|]; inversion Hn; subst; destruct Y as [-> | Y]; [rewrite in_app_iff in *; tauto|auto]).
    rewrite app_nth2 by lia. rewrite Hl. replace (length (snd f0) + position i (flat_map snd smpls) - length (snd f0)) with (position i (flat_map snd smpls)) by lia.
    cbn [nth]. apply IH; try assumption. cbn in Hn. apply nodup_app_r in Hn. exact Hn.
Qed.
Lemma nodup_fold (smpls : list fold) f : NoDup (flat_map snd smpls) -> In f smpls -> NoDup (snd f).
Proof.
  intros Hn Hf. induction smpls as [|g smpls IH]; [destruct Hf|]. cbn in Hn. destruct Hf as [-> | Hf]; [apply nodup_app_l in Hn; exact Hn|apply IH; [apply nodup_app_r in Hn; exact Hn|exact Hf]].
Qed.
Lemma nodup_unique_fold (smpls : list fold) : NoDup (flat_map snd smpls) -> forall k f k' f' i, nth_error smpls k = Some f -> nth_error smpls k' = Some f' -> In i (snd f) -> In i (snd f') -> k = k'.
Proof.
  induction smpls as [|g smpls IH]; intros Hn k f k' f' i H H' Hi Hi'; [destruct k; discriminate|]. cbn in Hn.
  assert (D : forall j f0, nth_error smpls j = Some f0 -> In i (snd f0) -> In i (snd g) -> False).
  { intros j f0 Hj H0 Hg. assert (X : In i (flat_map snd smpls)) by (apply in_flat_map; exists f0; split; [apply (nth_error_In _ _ Hj)|exact H0]).
    clear - Hn X Hg. induction (snd g) as [|z l IHl]; [destruct Hg|]. inversion Hn; subst. destruct Hg as [-> | Hg]; [rewrite in_app_iff in *; tauto|auto]. }
  destruct k as [|k], k' as [|k']; cbn in H, H'; [reflexivity| | |].
  - exfalso. injection H as ->. apply (D k' f' H' Hi' Hi).
  - exfalso. injection H' as ->. apply (D k f H Hi Hi').
  - f_equal. apply (IH (nodup_app_r _ _ Hn) k f k' f' i); assumption.
Qed.
Lemma part_check n smpls : smpls <> [] -> partition_of n smpls -> check_is_partition n (map zf smpls) = Ok true.
Proof.
  intros Hne Hp. assert (E : flat_map snd (map zf smpls) = map Z.of_nat (flat_map snd smpls)).
  { clear. induction smpls as [|f l IH]; [reflexivity|]. cbn. rewrite map_app, IH. reflexivity. }
  destruct (part_spec n (map zf smpls)) as (b & E1 & E2).
  - destruct smpls; [congruence|discriminate].
  - intros f z Hf Hz. assert (X : In z (flat_map snd (map zf smpls))) by (apply in_flat_map; eauto). rewrite E in X. apply in_map_iff in X. destruct X as (i & <- & Hi).
    apply (Permutation_in _ Hp), in_seq in Hi. lia.
  - rewrite E1. f_equal. apply E2. rewrite E. unfold all_rows. apply Permutation_map. exact Hp.
Qed.

Section CF.
Context {E X P : Type}.
Variable L : learner E X P.
Variables (f : E -> X -> R) (g : E -> X -> list R).
Hypothesis Hrow : row_wise L f g.

Definition pred_value (proba : bool) (m : E) (xi : X) (v : R) : Prop :=
  if proba then nth_error (g m xi) 1 = Some v else v = f m xi.
Lemma col1_ok rows vals : col1 rows = Ok vals -> length vals = length rows /\ forall p r, nth_error rows p = Some r -> exists v, nth_error vals p = Some v /\ nth_error r 1 = Some v.
Proof.
  unfold col1. intro H. apply map_res_iff in H. split; [symmetry; apply (Forall2_len _ _ _ H)|].
  induction H as [|r v rows vals Hrv H IH]; intros p r0 Hp; [destruct p; discriminate|]. destruct p as [|p]; cbn in Hp; [|apply IH, Hp].
  injection Hp as ->. exists v. split; [reflexivity|]. destruct (nth_error r0 1); [congruence|discriminate].
Qed.
Lemma vals_ok (proba : bool) m xs vals : (if proba then col1 (ln_proba L m xs) else Ok (ln_predict L m xs)) = Ok vals ->
  length vals = length xs /\ forall p xi, nth_error xs p = Some xi -> exists v, nth_error vals p = Some v /\ pred_value proba m xi v.
Proof.
  destruct (Hrow m xs) as [H1 H2]. destruct proba; intro H.
  - rewrite H2 in H. apply col1_ok in H. rewrite map_length in H. destruct H as [Hl H]. split; [exact Hl|]. intros p xi Hp.
    destruct (H p (g m xi)) as (v & V1 & V2); [rewrite nth_error_map, Hp; reflexivity|]. exists v. split; assumption.
  - injection H as <-. rewrite H1, map_length. split; [reflexivity|]. intros p xi Hp. exists (f m xi). split; [rewrite nth_error_map, Hp; reflexivity|reflexivity].
Qed.
Lemma nth_error_position (l : list nat) i : In i l -> nth_error l (position i l) = Some i.
Proof. intro H. rewrite (nth_error_nth' l 0 (position_lt i l H)). f_equal. apply position_nth, H. Qed.
Lemma loop_spec x y proba wt models smpls : forall k preds targets tr tgs p' t' tr' tgs',
  fold_loop L k smpls models x y proba wt preds targets tr tgs = Ok (p', t', tr', tgs') -> NoDup (flat_map snd smpls) ->
  (forall i, ~ In i (flat_map snd smpls) -> p' i = preds i /\ t' i = targets i) /\
  (forall j h i, nth_error smpls j = Some h -> In i (snd h) -> exists m v, nth_error models (k + j) = Some m /\ p' i = Some v /\
     pred_value proba m (x i) v /\ match y with YVec yy => t' i = Some (yy i) | YFolds _ => True end).
Proof.
  induction smpls as [|h smpls IH]; intros k preds targets tr tgs p' t' tr' tgs' H Hn; cbn [fold_loop] in H.
  - injection H as <- <- _ _. split; [split; reflexivity|]. intros j h i Hj. destruct j; discriminate.
  - destruct (nth_error models k) as [m|] eqn:Em; [|discriminate].
    destruct (if proba then col1 (ln_proba L m (map x (snd h))) else Ok (ln_predict L m (map x (snd h)))) as [vals|e] eqn:Ev; [|discriminate]. cbn [bind] in H.
    apply vals_ok in Ev. rewrite map_length in Ev. destruct Ev as [Hl Hv]. cbn [flat_map] in Hn. pose proof (nodup_app_l _ _ Hn) as Hn1. pose proof (nodup_app_r _ _ Hn) as Hn2.
    set (t1 := match y with YVec v => scatter (snd h) (map v (snd h)) targets | YFolds _ => targets end) in *.
    assert (K : exists tr1 tgs1, fold_loop L (S k) smpls models x y proba wt (scatter (snd h) vals preds) t1 tr1 tgs1 = Ok (p', t', tr', tgs')).
    { destruct wt; [destruct y; [|discriminate]|]; eexists; eexists; exact H. }
    clear H. destruct K as (tr1 & tgs1 & K). destruct (IH _ _ _ _ _ _ _ _ _ K Hn2) as [A B]. cbn [flat_map]. split.
    + intros i Hi. rewrite in_app_iff in Hi. destruct (A i) as [A1 A2]; [tauto|]. rewrite A1, A2. split.
      * rewrite scatter_spec by assumption. destruct (in_dec Nat.eq_dec i (snd h)); [tauto|reflexivity].
      * unfold t1. destruct y as [v|l]; [|reflexivity]. rewrite scatter_spec by (try assumption; apply map_length). destruct (in_dec Nat.eq_dec i (snd h)); [tauto|reflexivity].
    + intros j h0 i Hj Hi. destruct j as [|j]; cbn in Hj.
      * injection Hj as <-. destruct (A i) as [A1 A2].
        { intro Y. clear - Hn Hi Y. induction (snd h) as [|z l IHl]; [destruct Hi|]. inversion Hn; subst. destruct Hi as [-> | Hi]; [rewrite in_app_iff in *; tauto|auto]. }
        rewrite scatter_spec in A1 by assumption. destruct (in_dec Nat.eq_dec i (snd h)) as [_|?]; [|contradiction].
        destruct (Hv (position i (snd h)) (x i)) as (v & V1 & V2); [rewrite nth_error_map, nth_error_position by exact Hi; reflexivity|].
        exists m, v. rewrite Nat.add_0_r. split; [exact Em|]. split; [congruence|]. split; [exact V2|].
        destruct y as [yy|l]; [|exact I]. rewrite A2. unfold t1. rewrite scatter_spec by (try assumption; apply map_length).
        destruct (in_dec Nat.eq_dec i (snd h)) as [_|?]; [|contradiction]. rewrite nth_error_map, nth_error_position by exact Hi. reflexivity.
      * destruct (B j h0 i Hj Hi) as (m' & v & M & R). exists m', v. split; [rewrite <- M; f_equal; lia|exact R].
Qed.
Lemma loop_def x y proba wt models smpls : (wt = false \/ exists yy, y = YVec yy) ->
  (proba = true -> forall m xi, In m models -> 2 <= length (g m xi)) ->
  forall k preds targets tr tgs, k + length smpls <= length models ->
  exists r, fold_loop L k smpls models x y proba wt preds targets tr tgs = Ok r.
Proof.
  intros Hw Hp. induction smpls as [|h smpls IH]; intros k preds targets tr tgs Hk; cbn [fold_loop]; [eauto|]. cbn in Hk.
  destruct (nth_error models k) as [m|] eqn:Em; [|apply nth_error_None in Em; lia].
  assert (V : exists vals, (if proba then col1 (ln_proba L m (map x (snd h))) else Ok (ln_predict L m (map x (snd h)))) = Ok vals).
  { destruct proba; [|eauto]. unfold col1. apply map_res_ok_all. intros r Hr. rewrite (proj2 (Hrow m _)) in Hr. apply in_map_iff in Hr. destruct Hr as (xi & <- & _).
    specialize (Hp eq_refl m xi (nth_error_In _ _ Em)). destruct (nth_error (g m xi) 1) eqn:E1; [eauto|]. apply nth_error_None in E1. lia. }
  destruct V as [vals ->]. cbn [bind]. destruct wt; [destruct Hw as [Hw | [yy ->]]; [discriminate|]|]; apply IH; lia.
Qed.
End CF.

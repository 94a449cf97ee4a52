(** Constructor calls on clustered data: concrete cases. *)
From Verif Require Export L_InitErrorsAll L_InitWitness.
From Coq Require Import Lia Lra.
Local Open Scope R_scope.
Local Open Scope string_scope.

Lemma two_distinct n v i j : (i < n)%nat -> (j < n)%nat -> v i <> v j -> (2 <= distinct_values n v)%nat.
Proof.
  intros Hi Hj N. unfold distinct_values. change 2%nat with (length [v i; v j]). apply NoDup_incl_length; [repeat constructor; cbn; intuition auto|].
  intros x [<-|[<-|[]]]; apply nodup_In, in_map, in_seq; lia.
Qed.
Lemma binary_distinct n v : (forall i, (i < n)%nat -> v i = 0 \/ v i = 1) -> (distinct_values n v <= 2)%nat.
Proof.
  intro H. unfold distinct_values. change 2%nat with (length [0; 1]). apply NoDup_incl_length; [apply NoDup_nodup|].
  intros x Hx. apply nodup_In, in_map_iff in Hx as (i & <- & Hi). apply in_seq in Hi. destruct (H i ltac:(lia)) as [-> | ->]; cbn; auto.
Qed.
(** Two cluster columns, "c" with four values and "t" with two; three cluster columns. *)
Definition rcc : M_Data.roles := i_roles ["d"] None None None (Some ["c"; "t"]).
Definition rccc : M_Data.roles := i_roles ["d"] None None None (Some ["c"; "t"; "o"]).
Definition irm_call s nf := irm_init q_learner i_rd i_frame s reg cls nf (PInt 1) (PStr "ATE") WNone (PBool false) (PStr "truncate") (PFloat (1 / 100)) (PBool true).
Lemma two_way_cases : exists s, i_data rcc s /\ (exists C w0, irm_call s (PInt 2) = Ok (C, w0) /\ cluster_split_drawn i_frame ["c"; "t"] (PInt 2) (PInt 1) w0) /\ ~ succeeds (irm_call s (PInt 3)).
Proof.
  destruct (i_exists rcc) as (s & K); [i_wf|discriminate|]. exists s. split; [exact K|]. pose proof K as (Con & Rl & Ot). pose proof (i_reach _ _ K) as Re.
  assert (Cc : M_Data.r_cl (M_Data.dd_roles s) = Some ["c"; "t"]) by (rewrite Rl; reflexivity). split.
  - destruct (proj2 (irm_accepts_all q_learner i_rd i_frame s Con reg cls (PInt 2) (PInt 1) (PStr "ATE") WNone (PBool false) (PStr "truncate") (PFloat (1 / 100)) (PBool true))) as ((C & w0) & E).
    { split; [unfold no_instruments; rewrite Rl; reflexivity|]. split. { exists "d". split; [apply d_binary; rewrite Rl; reflexivity|]. unfold data_split. rewrite Cc. split; [reflexivity|]. split; [cbn; lia|]. split; [reflexivity|]. split; [cbn; lia|]. split; [cbn; lia|].
        exists true. split; [reflexivity|]. intros _ c Hc. change (Z.to_nat (int_val (PInt 2))) with 2%nat. split; [lia|]. destruct Hc as [<-|[<-|[]]]; (apply (two_distinct _ _ 0 2); [cbn; lia|cbn; lia|]); cbn; lra. }
      split; [left; split; [reflexivity|exact Logic.I]|]. split; [apply reg_outcome|]. split; [exact cls_proba|]. split; [apply i_bool|exact i_trim]. }
    exists C, w0. split; [exact E|]. exact (irm_cells q_learner i_rd i_frame s Re ["c"; "t"] Cc i_sound _ _ _ _ _ _ _ _ _ _ _ E).
  - intro H. apply (irm_accepts_all q_learner i_rd i_frame s Con) in H as (_ & (c & _ & H) & _). unfold data_split in H. rewrite Cc in H. destruct H as (_ & _ & _ & _ & _ & b & Eb & H). injection Eb as <-.
    specialize (H eq_refl "t" ltac:(cbn; auto)). assert (B : (distinct_values (M_Data.frows i_frame) (col i_frame "t") <= 2)%nat) by (apply binary_distinct; exact w_t01). cbn [int_val] in H. change (Z.to_nat 3) with 3%nat in H. lia.
Qed.
Lemma three_way_cases : exists s, i_data rccc s /\ ~ two_clusters s /\ irm_call s (PInt 2) = Err NotImplementedError.
Proof.
  destruct (i_exists rccc) as (s & K); [i_wf|discriminate|]. exists s. split; [exact K|]. destruct K as (Con & Rl & Ot). assert (M : ~ two_clusters s) by (unfold two_clusters; rewrite Rl; cbn; lia). split; [exact M|]. exact (irm_many q_learner i_rd i_frame s Con M _ _ _ _ _ _ _ _ _ _).
Qed.
Lemma plain_split s nf nr draw v : unclustered s -> split_args (M_Data.frows i_frame) nf nr draw v -> match v with Some u => whole_numbers (M_Data.frows i_frame) u | None => True end -> data_split i_frame s nf nr draw v.
Proof. intros Un A W. unfold data_split. unfold unclustered in Un. rewrite Un. split; [exact A|intros _; exact W]. Qed.

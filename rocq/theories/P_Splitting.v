(** C01-C03, C06, C40: sample splitting. *)
From Verif Require Import L_ClusterSplit.
From Coq Require Import Lia.

(** ** C01 *)
Theorem C01_accepted_split_is_partition : forall n s ck, check_sample_splitting n s = Ok ck ->
  exists reps, good_split n s reps /\ stored reps ck.
Proof. exact accept_sound. Qed.
Print Assumptions C01_accepted_split_is_partition.

Theorem C01_partition_is_accepted : forall n s reps, good_split n s reps ->
  exists ck, check_sample_splitting n s = Ok ck /\ stored reps ck.
Proof. exact accept_complete. Qed.
Print Assumptions C01_partition_is_accepted.

(** Two repetitions of two folds, written out of order; a leaking split is rejected. *)
Example C01_case_nested :
  check_sample_splitting 4 (SList [SList [tup ([3; 0]%Z, [2; 1]%Z); tup ([1; 2]%Z, [0; 3]%Z)]; SList [tup ([0; 1]%Z, [2; 3]%Z); tup ([2; 3]%Z, [1; 0]%Z)]])
  = Ok {| ck_smpls := [[([0; 3], [1; 2]); ([1; 2], [0; 3])]; [([0; 1], [2; 3]); ([2; 3], [0; 1])]]%Z; ck_n_rep := 2; ck_n_folds := 2 |}.
Proof. reflexivity. Qed.
Example C01_case_no_split : check_sample_splitting 3 (tup ([0; 1; 2]%Z, [0; 1; 2]%Z)) = Ok {| ck_smpls := [[([0; 1; 2], [0; 1; 2])]]%Z; ck_n_rep := 1; ck_n_folds := 1 |}.
Proof. reflexivity. Qed.
Example C01_case_leak : is_ok (check_sample_splitting 4 (SList [tup ([0; 1; 3]%Z, [2; 3]%Z); tup ([2; 3]%Z, [1; 0]%Z)])) = false.
Proof. reflexivity. Qed.

(** ** C02 *)
Theorem C02_drawn_split_is_partition : forall n_folds n_rep n strata g sm, shuffles g ->
  resampling n_folds n_rep n strata g = Ok sm ->
  length sm = n_rep /\ forall fs, In fs sm -> length fs = n_folds /\ proper_split n fs /\ balanced fs.
Proof. exact draws. Qed.
Print Assumptions C02_drawn_split_is_partition.

Theorem C02_drawing_succeeds_iff : forall n_folds n_rep n strata g, 0 < n_rep ->
  ((exists sm, resampling n_folds n_rep n strata g = Ok sm) <->
   2 <= n_folds <= n /\ match strata with None => True | Some y => exists i, i < n /\ n_folds <= label_count y (y i) (seq 0 n) end).
Proof. exact resampling_defined. Qed.
Print Assumptions C02_drawing_succeeds_iff.

Theorem C02_strata_are_balanced : forall n_folds n_rep n y g sm, shuffles g ->
  resampling n_folds n_rep n (Some y) g = Ok sm -> forall fs, In fs sm -> label_balanced n y fs.
Proof. exact draws_labels. Qed.
Print Assumptions C02_strata_are_balanced.

(** Hence no train set misses a stratum with two or more observations. *)
Theorem C02_train_sets_see_every_stratum : forall n y fs f i, proper_split n fs -> label_balanced n y fs -> 2 <= length fs ->
  In f fs -> i < n -> 2 <= label_count y (y i) (seq 0 n) -> exists j, In j (fst f) /\ y j = y i.
Proof. exact train_has_label. Qed.
Print Assumptions C02_train_sets_see_every_stratum.

Definition rev_rng : rng := {| rng_perm := fun _ l => rev l; rng_shuffle := fun _ _ l => rev l |}.
Example C02_case_rng : shuffles rev_rng.
Proof. split; intros; cbn; symmetry; apply Permutation_rev. Qed.
Example C02_case : resampling 2 2 5 None rev_rng =
  Ok [[([0; 1], [2; 3; 4]); ([2; 3; 4], [0; 1])]; [([0; 1], [2; 3; 4]); ([2; 3; 4], [0; 1])]].
Proof. reflexivity. Qed.
Example C02_case_stratified : exists sm, resampling 2 1 6 (Some (fun i => Z.of_nat (i mod 2))) rev_rng = Ok sm /\
  label_count (fun i => Z.of_nat (i mod 2)) 1 (seq 0 6) = 3.
Proof. eexists. split; reflexivity. Qed.

(** ** C03 *)
Theorem C03_cells_partition_and_share_no_cluster : forall n_folds n_rep n cvars perm sm sc,
  (forall r v l, Permutation (perm r v l) l) -> cluster_resampling n_folds n_rep n cvars perm = Ok (sm, sc) ->
  length sm = n_rep /\ length sc = n_rep /\ Forall2 (fun fs gs =>
    length fs = n_folds ^ length cvars /\ Permutation (flat_map snd fs) (seq 0 n) /\ Forall2 (cell_ok n cvars) fs gs) sm sc.
Proof. exact cluster_draws. Qed.
Print Assumptions C03_cells_partition_and_share_no_cluster.

Theorem C03_drawing_succeeds_iff : forall n_folds n_rep n cvars perm, 0 < n_rep ->
  ((exists r, cluster_resampling n_folds n_rep n cvars perm = Ok r) <->
   forall cv, In cv cvars -> 2 <= n_folds <= length (np_unique (map cv (seq 0 n)))).
Proof. exact cluster_defined. Qed.
Print Assumptions C03_drawing_succeeds_iff.

(** Two-way clusters with an empty cell. *)
Definition ex_cv1 (i : nat) : Z := nth i [7; 7; 9; 9; 7]%Z 0%Z.
Definition ex_cv2 (i : nat) : Z := nth i [1; 1; 1; 2; 1]%Z 0%Z.
Example C03_case : exists sm sc, cluster_resampling 2 1 5 [ex_cv1; ex_cv2] (fun _ _ l => l) = Ok (sm, sc) /\
  nth 0 (nth 0 sm []) ([], []) = ([3], [0; 1; 4]) /\ nth 1 (nth 0 sm []) ([], []) = ([2], []).
Proof. eexists. eexists. split; [reflexivity|]. split; reflexivity. Qed.

(** ** C06 *)
Theorem C06_subgroup_training_rows : forall n v smpls s0 s1, get_cond_smpls n v smpls = (s0, s1) ->
  map snd s0 = map snd smpls /\ map snd s1 = map snd smpls /\
  forall k, k < length smpls -> forall i,
    (In i (fst (nth k s0 ([], []))) <-> i < n /\ v i = 0%Z /\ In i (fst (nth k smpls ([], [])))) /\
    (In i (fst (nth k s1 ([], []))) <-> i < n /\ v i = 1%Z /\ In i (fst (nth k smpls ([], [])))).
Proof. exact subgroup_folds. Qed.
Print Assumptions C06_subgroup_training_rows.

Theorem C06_subgroups_partition_training_rows : forall n v smpls s0 s1 k,
  (forall i, i < n -> v i = 0%Z \/ v i = 1%Z) -> get_cond_smpls n v smpls = (s0, s1) -> k < length smpls ->
  NoDup (fst (nth k smpls ([], []))) -> (forall i, In i (fst (nth k smpls ([], []))) -> i < n) ->
  Permutation (fst (nth k s0 ([], [])) ++ fst (nth k s1 ([], []))) (fst (nth k smpls ([], []))).
Proof. exact subgroup_partition. Qed.
Print Assumptions C06_subgroups_partition_training_rows.

Theorem C06_two_way_subgroup_training_rows : forall n v w smpls s00 s01 s10 s11,
  get_cond_smpls_2d n v w smpls = (s00, s01, s10, s11) ->
  (map snd s00 = map snd smpls /\ map snd s01 = map snd smpls /\ map snd s10 = map snd smpls /\ map snd s11 = map snd smpls) /\
  forall k, k < length smpls -> forall i, let train s := In i (fst (nth k s ([], []))) in
    (train s00 <-> i < n /\ (v i = 0 /\ w i = 0)%Z /\ train smpls) /\ (train s01 <-> i < n /\ (v i = 0 /\ w i = 1)%Z /\ train smpls) /\
    (train s10 <-> i < n /\ (v i = 1 /\ w i = 0)%Z /\ train smpls) /\ (train s11 <-> i < n /\ (v i = 1 /\ w i = 1)%Z /\ train smpls).
Proof. exact subgroup_folds_2d. Qed.
Print Assumptions C06_two_way_subgroup_training_rows.

Theorem C06_two_way_subgroups_partition_training_rows : forall n v w smpls s00 s01 s10 s11 k,
  (forall i, i < n -> v i = 0%Z \/ v i = 1%Z) -> (forall i, i < n -> w i = 0%Z \/ w i = 1%Z) ->
  get_cond_smpls_2d n v w smpls = (s00, s01, s10, s11) -> k < length smpls ->
  NoDup (fst (nth k smpls ([], []))) -> (forall i, In i (fst (nth k smpls ([], []))) -> i < n) ->
  Permutation (fst (nth k s00 ([], [])) ++ fst (nth k s01 ([], [])) ++ fst (nth k s10 ([], [])) ++ fst (nth k s11 ([], [])))
              (fst (nth k smpls ([], []))).
Proof. exact subgroup_partition_2d. Qed.
Print Assumptions C06_two_way_subgroups_partition_training_rows.

Example C06_case : get_cond_smpls 5 (fun i => Z.of_nat (i mod 2)) [([0; 1; 2], [3; 4]); ([3; 4], [0; 1; 2])] =
  ([([0; 2], [3; 4]); ([4], [0; 1; 2])], [([1], [3; 4]); ([3], [0; 1; 2])]).
Proof. reflexivity. Qed.

(** ** C40 *)
(** Proved: the numbers of repetitions and folds and the first fold are checked.
    Missing: the other folds are not (see the next theorem). *)
Theorem C40_first_fold_is_validated_partial : forall n cvars asc n_rep n_folds r, 0 < n_rep -> 0 < n_folds -> cvars <> [] ->
  check_cluster_splitting n cvars (Some asc) n_rep n_folds = Ok r ->
  r = asc /\ length asc = n_rep /\ (forall gs, In gs asc -> length gs = n_folds) /\
  exists g gs rest, asc = (g :: gs) :: rest /\ forall v cv, nth_error cvars v = Some cv ->
    v < length (fst g) /\ v < length (snd g) /\ splits_values n cv (nth v (fst g) []) (nth v (snd g) []).
Proof. exact accepted_first. Qed.
Print Assumptions C40_first_fold_is_validated_partial.

Theorem C40_later_folds_validated_refuted : exists n cvars asc n_rep n_folds,
  check_cluster_splitting n cvars (Some asc) n_rep n_folds = Ok asc /\
  exists gs g, In gs asc /\ In g gs /\ ~ apart (nth 0 (fst g) []) (nth 0 (snd g) []).
Proof. exact later_folds_unchecked. Qed.
Print Assumptions C40_later_folds_validated_refuted.

Theorem C40_drawn_cluster_splits_are_accepted : forall n_folds n_rep n cvars perm sm sc,
  (forall r v l, Permutation (perm r v l) l) -> 0 < n_rep -> 0 < n_folds -> cvars <> [] ->
  cluster_resampling n_folds n_rep n cvars perm = Ok (sm, sc) ->
  check_cluster_splitting n cvars (Some sc) n_rep (n_folds ^ length cvars) = Ok sc.
Proof. exact drawn_accepted. Qed.
Print Assumptions C40_drawn_cluster_splits_are_accepted.

Example C40_case : exists r, check_cluster_splitting 5 [ex_cv1] (Some [[([[7%Z]], [[9%Z]]); ([[9%Z]], [[7%Z]])]]) 1 2 = Ok r.
Proof. eexists. reflexivity. Qed.

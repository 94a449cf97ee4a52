(** Order of the rows: lemmas. *)
From Verif Require Export S_RowOrder L_Units.
From Verif Require Import L_CrossPath L_ModelValid L_CrossProps L_Sum L_Estimation L_ModelProps L_InitMade.
From Coq Require Import Lia Lra.
Local Open Scope R_scope.
Local Open Scope string_scope.

(** A rearrangement reaches every position. *)
Lemma rearranged_seq n sg : rearrangement n sg -> Permutation (map sg (seq 0 n)) (seq 0 n).
Proof.
  intros (A & B). apply NoDup_Permutation_bis; [|rewrite map_length; lia|intros j Hj; apply in_map_iff in Hj as (i & <- & Hi); apply in_seq in Hi; apply in_seq; specialize (A i); lia].
  assert (G : forall l, NoDup l -> (forall i, In i l -> (i < n)%nat) -> NoDup (map sg l)); [|apply G; [apply seq_NoDup|intros i Hi; apply in_seq in Hi; lia]].
  induction l as [|x l IH]; intros Nd H; cbn; [constructor|]. inversion Nd as [|? ? N1 N2]. subst. constructor; [|apply IH; [exact N2|intros; apply H; right; assumption]].
  intro I. apply in_map_iff in I as (y & E & Iy). apply B in E; [subst; contradiction|apply H; right; exact Iy|apply H; left; reflexivity].
Qed.
Lemma rearranged_from n sg : rearrangement n sg -> forall j, (j < n)%nat -> exists i, (i < n)%nat /\ sg i = j.
Proof.
  intros Hs j Hj. assert (I : In j (map sg (seq 0 n))) by (apply (Permutation_in j (Permutation_sym (rearranged_seq n sg Hs))), in_seq; lia). apply in_map_iff in I as (i & E & Hi). apply in_seq in Hi. exists i. split; [lia|exact E].
Qed.
Section Moves.
Variables (n : nat) (sg : nat -> nat).
Hypothesis Hs : rearrangement n sg.
Lemma moved_seq : Permutation (map sg (seq 0 n)) (seq 0 n).
Proof. exact (rearranged_seq n sg Hs). Qed.
Lemma moved_from j : (j < n)%nat -> exists i, (i < n)%nat /\ sg i = j.
Proof. exact (rearranged_from n sg Hs j). Qed.
Lemma moved_sum F F' : moved n sg F F' -> sumf n F' = sumf n F.
Proof.
  intro H. unfold sumf. rewrite <- (Rsum_perm _ _ (Permutation_map F' moved_seq)), map_map. f_equal. apply map_ext_in. intros i Hi. apply in_seq in Hi. apply H. lia.
Qed.
Lemma moved_mean F F' : moved n sg F F' -> meanf n F' = meanf n F.
Proof. intro H. unfold meanf. rewrite (moved_sum F F' H). reflexivity. Qed.
Lemma moved_codes y y' c c' : moved n sg y y' -> codes n y c -> codes n y' c' -> moved n sg c c'.
Proof.
  intros H Cc (lab & (S2 & I2) & C2). refine (codes_same n y y c (fun i => c' (sg i)) (fun _ _ => eq_refl) Cc _).
  exists lab. split; [split; [exact S2|]|].
  - intro z. rewrite I2. split; intros (j & Hj & <-).
    + destruct (moved_from j Hj) as (i & Hi & <-). exists i. split; [exact Hi|symmetry; apply H, Hi].
    + exists (sg j). split; [apply (proj1 Hs), Hj|apply H, Hj].
  - intros i Hi. destruct (C2 (sg i) (proj1 Hs i Hi)) as (p & P1 & P2). exists p. split; [|exact P2]. rewrite P1. f_equal. apply H, Hi.
Qed.
(** Selected training rows. *)
Definition sel_moved (sel sel' : rows_sel) : Prop := forall tr tr' r r', (forall j, In j tr -> (j < n)%nat) -> Permutation (map sg tr) tr' -> sel tr r -> sel' tr' r' -> Permutation (map sg r) r' /\ forall j, In j r -> (j < n)%nat.
Lemma whole_moved : sel_moved whole_train whole_train.
Proof. intros tr tr' r r' H Pm -> ->. split; [exact Pm|exact H]. Qed.
Lemma sorted_nodup l : Sorted lt l -> NoDup l.
Proof.
  intro S. apply Sorted_StronglySorted in S; [|intros a b c; lia]. induction S as [|x l S IH F]; constructor; [|exact IH]. intro I. rewrite Forall_forall in F. specialize (F x I). lia.
Qed.
Lemma group_moved (G G' : nat -> Prop) : (forall j, (j < n)%nat -> G' (sg j) <-> G j) -> sel_moved (group_rows n G) (group_rows n G').
Proof.
  intros H tr tr' r r' Ht Pm (S1 & I1) (S2 & I2). split; [|intros j Hj; apply I1 in Hj; tauto].
  apply NoDup_Permutation.
  - assert (K : forall l, NoDup l -> (forall i, In i l -> (i < n)%nat) -> NoDup (map sg l)); [|apply K; [apply sorted_nodup, S1|intros i Hi; apply I1 in Hi; tauto]].
    induction l as [|x l IH]; intros Nd Hl; cbn; [constructor|]. inversion Nd as [|? ? N1 N2]. subst. constructor; [|apply IH; [exact N2|intros; apply Hl; right; assumption]].
    intro I. apply in_map_iff in I as (y & E & Iy). apply (proj2 Hs) in E; [subst; contradiction|apply Hl; right; exact Iy|apply Hl; left; reflexivity].
  - apply sorted_nodup, S2.
  - intro j. rewrite I2. split.
    + intro I. apply in_map_iff in I as (i & <- & Hi). apply I1 in Hi as (A & B & D). split; [apply (proj1 Hs), A|]. split; [apply (H i A), B|]. apply (Permutation_in _ Pm), in_map, D.
    + intros (A & B & D). destruct (moved_from j A) as (i & Hi & <-). apply in_map, I1. split; [exact Hi|]. split; [apply (H i Hi), B|].
      apply (Permutation_in _ (Permutation_sym Pm)) in D. apply in_map_iff in D as (i' & E & D). apply (proj2 Hs) in E; [subst; exact D|exact (Ht i' D)|exact Hi].
Qed.
Lemma folds_back pi fs fs' h' : moved_folds sg pi fs fs' -> In h' fs' -> exists h, In h fs /\ moved_fold sg h h'.
Proof.
  intros (El & (R1 & R2) & M) I. apply In_nth_error in I as (k' & Ek). assert (Hk : (k' < length fs)%nat) by (rewrite <- El; apply nth_error_Some; congruence).
  destruct (rearranged_from (length fs) pi (conj R1 R2) k' Hk) as (k & K1 & <-). destruct (nth_error fs k) as [h|] eqn:Eh; [|apply nth_error_None in Eh; lia].
  destruct (M k h Eh) as (h2 & E2 & Mh). assert (h2 = h') as -> by congruence. exists h. split; [exact (nth_error_In _ _ Eh)|exact Mh].
Qed.
Lemma split_back om ro sm sm' fs' : moved_split sg om ro sm sm' -> In fs' sm' -> exists r fs, In fs sm /\ moved_folds sg (om r) fs fs'.
Proof.
  intros (El & (R1 & R2) & M) I. apply In_nth_error in I as (k' & Ek). assert (Hk : (k' < length sm)%nat) by (rewrite <- El; apply nth_error_Some; congruence).
  destruct (rearranged_from (length sm) ro (conj R1 R2) k' Hk) as (k & K1 & <-). destruct (nth_error sm k) as [fs|] eqn:Eh; [|apply nth_error_None in Eh; lia].
  destruct (M k fs Eh) as (h2 & E2 & Mh). assert (h2 = fs') as -> by congruence. exists k, fs. split; [exact (nth_error_In _ _ Eh)|exact Mh].
Qed.
Lemma moved_share pi fs fs' d d' p p' : partition_of n fs -> (forall h j, In h fs -> In j (fst h) -> (j < n)%nat) -> moved_folds sg pi fs fs' -> partition_of n fs' -> moved n sg d d' -> share_of fs d p -> share_of fs' d' p' -> moved n sg p p'.
Proof.
  intros Pa Rg Fs Pa' Hd H H' i Hi. destruct (tested_exists n fs i Pa Hi) as (k & h & T). destruct (tested_exists n fs' (sg i) Pa' (proj1 Hs i Hi)) as (k' & h' & T').
  rewrite (H i k h T), (H' _ k' h' T'). destruct T as (T1 & T2 & T3), T' as (T1' & T2' & T3'). destruct (proj2 (proj2 Fs) k h T1) as (h2 & E2 & M1 & M2).
  assert (pi k = k') as <- by (apply (T3' (pi k) h2 E2), (Permutation_in _ M2), in_map, T2). assert (h2 = h') as -> by congruence.
  unfold Rmean. rewrite <- (Rsum_perm _ _ (Permutation_map d' M1)), map_map, !map_length, <- (Permutation_length M1), map_length. do 2 f_equal. apply map_ext_in. intros j Hj. apply Hd, (Rg h j (nth_error_In _ _ T1) Hj).
Qed.
Section Pred.
Context {E P : Type} (L : learner E row P) (f : E -> row -> R) (g : E -> row -> list R).
Lemma moved_prediction (mc mc' : machinery E P) w w' ext ext' pi r r' t col name lrn (pr : bool) lo x x' y y' sel sel' fs fs' v v' :
  mc_learner mc lrn = lo -> mc_learner mc' lrn = lo -> mc_proba mc lrn = pr -> mc_proba mc' lrn = pr ->
  (forall l c, moved_params pi (nth r (m_params (w_obj w) l c) None) (nth r' (m_params (w_obj w') l c) None)) -> (forall h j, In h fs -> In j (fst h) -> (j < n)%nat) -> moved_folds sg pi fs fs' -> sel_moved sel sel' ->
  moved n sg x x' -> moved n sg y y' -> followed L f g n sg ext ext' col name r r' ->
  used_prediction L f g mc w n ext r t col name lrn x y sel fs v -> used_prediction L f g mc' w' n ext' r' t col name lrn x' y' sel' fs' v' -> moved n sg v v'.
Proof.
  intros M1 M2 P1 P2 Hp Rg Fs Sm Hx Hy Ca (U1 & U2) (U1' & U2') i Hi. destruct Ca as [(N1 & N2 & Q)|(e & e' & S1 & S2 & Q)].
  2: { rewrite (U1 e S1), (U1' e' S2). apply Q, Hi. }
  destruct (U2 N1) as (c & Cc & V). destruct (U2' N2) as (c' & Cc' & V'). cbn [setup_of su_proba su_n su_learner su_params] in *.
  destruct (V i Hi) as (k & h & rows & p & m & (T1 & T2 & T3) & Se & Pa & Fi & X). destruct (V' (sg i) (proj1 Hs i Hi)) as (k' & h' & rows' & p' & m' & (T1' & T2' & T3') & Se' & Pa' & Fi' & X').
  destruct (proj2 (proj2 Fs) k h T1) as (h2 & E2 & W1 & W2).
  assert (pi k = k') as <- by (apply (T3' (pi k) h2 E2), (Permutation_in _ W2), in_map, T2). assert (h2 = h') as -> by congruence. pose proof (nth_error_In _ _ T1) as Ih.
  destruct (Sm _ _ _ _ (fun j => Rg h j Ih) W1 Se Se') as (Pr & Rr).
  assert (p' = p) as ->. { specialize (Hp name col). unfold param_of in Pa, Pa'. destruct (nth r (m_params (w_obj w) name col) None) as [l|], (nth r' (m_params (w_obj w') name col) None) as [l'|]; cbn in Hp; try contradiction; unfold params_of in Pa, Pa'; [|congruence]. destruct Pa as (q1 & A1 & ->), Pa' as (q2 & A2 & ->). rewrite Hp in A2 by (apply nth_error_Some; congruence). congruence. }
  rewrite M1 in Fi. rewrite M2 in Fi'. rewrite P1 in *. rewrite P2 in *.
  assert (Ec : moved n sg c c') by (destruct pr; [exact (moved_codes y y' c c' Hy Cc Cc')|subst c c'; exact Hy]).
  assert (Pd : Permutation (map (fun j => (x j, c j)) rows) (map (fun j => (x' j, c' j)) rows')).
  { refine (Permutation_trans _ (Permutation_map (fun j => (x' j, c' j)) Pr)). rewrite map_map. rewrite (map_ext_in (fun j => (x' (sg j), c' (sg j))) (fun j => (x j, c j)) rows); [apply Permutation_refl|]. intros j Hj. rewrite (Hx j (Rr j Hj)), (Ec j (Rr j Hj)). reflexivity. }
  assert (Eq : forall u, f m' u = f m u /\ nth_error (g m' u) 1 = nth_error (g m u) 1).
  { unfold fitted in Fi, Fi'. destruct p as [q|]; [destruct Fi as (e1 & A1 & A2), Fi' as (e2 & B1 & B2); rewrite A1 in B1; injection B1 as <-; exact (Q _ _ _ _ _ Pd A2 B2)|exact (Q _ _ _ _ _ Pd Fi Fi')]. }
  rewrite (Hx i Hi) in X'. destruct (Eq (x i)) as (Q1 & Q2). destruct pr; [rewrite Q2 in X'|]; congruence.
Qed.
Lemma moved_seen om ro pr (w w' : world P) n' y y' (G G' : nat -> Prop) : n' = n -> (forall sm, m_smpls (w_obj w) = Some sm -> exists sm', m_smpls (w_obj w') = Some sm' /\ moved_split sg om ro sm sm') -> (exists sm, m_smpls (w_obj w) = Some sm) ->
  moved n sg y y' -> (forall j, (j < n)%nat -> G j -> G' (sg j)) -> labels_seen L g pr w n y G -> labels_seen L g pr w' n' y' G'.
Proof.
  intros -> Sp (sm & Es) Hy HG H Q. destruct (H Q) as (A & B). split; [exact A|]. intros sm' fs' h' i Es' If Ih Hi. destruct (Sp sm Es) as (sm2 & Es2 & Fa). assert (sm2 = sm') as -> by congruence.
  destruct (split_back om ro _ _ fs' Fa If) as (rr & fs & Jf & Ff). destruct (folds_back _ fs fs' h' Ff Ih) as (h & Jh & (P1 & P2)).
  destruct (moved_from i Hi) as (i0 & Hi0 & <-). destruct (B sm fs h i0 Es Jf Jh Hi0) as (j & J1 & J2 & J3 & J4).
  exists (sg j). split; [apply (proj1 Hs), J1|]. split; [exact (HG j J1 J2)|]. split; [apply (Permutation_in _ P1), in_map, J3|]. rewrite (Hy j J1), (Hy i0 Hi0). exact J4.
Qed.
End Pred.
Lemma moved_clip thr m0 m0' m m' : moved n sg m0 m0' -> clipped n true thr m0 m -> clipped n true thr m0' m' -> moved n sg m m'.
Proof. intros A C1 C2 i Hi. rewrite (C1 i Hi), (C2 (sg i) (proj1 Hs i Hi)), (A i Hi). reflexivity. Qed.
Lemma moved_adjust m m' d d' nm : moved n sg m m' -> moved n sg d d' -> moved n sg (ps_adjust n m d nm) (ps_adjust n m' d' nm).
Proof.
  intros Hm Hd i Hi. unfold ps_adjust. destruct nm; [|auto]. unfold normalize_ipw. rewrite (Hm i Hi), (Hd i Hi).
  rewrite (moved_mean (fun i => d i / m i) (fun i => d' i / m' i)) by (intros j Hj; rewrite (Hm j Hj), (Hd j Hj); reflexivity).
  rewrite (moved_mean (fun i => (1 - d i) / (1 - m i)) (fun i => (1 - d' i) / (1 - m' i))) by (intros j Hj; rewrite (Hm j Hj), (Hd j Hj); reflexivity). reflexivity.
Qed.
Lemma moved_bounds m m' : moved n sg m m' -> off_bounds n m -> off_bounds n m'.
Proof. intros H B j Hj. destruct (moved_from j Hj) as (i & Hi & <-). rewrite (H i Hi). exact (B i Hi). Qed.
Lemma moved_estimate F F' t r r' theta psi J theta' psi' J' : estimate_is F n t r theta psi J -> estimate_is F' n t r' theta' psi' J' -> J' = J -> theta' = theta -> moved n sg psi psi' -> same_estimates_at F F' t r r'.
Proof.
  intros (T1 & S1 & _) (T2 & S2 & _) -> -> HP. unfold same_estimates_at. rewrite T1, T2, S1, S2. split; [reflexivity|]. do 2 f_equal. apply moved_sum. intros i Hi. rewrite (HP i Hi). reflexivity.
Qed.
End Moves.
(** Aggregation over the repetitions. *)
Definition plain_results (F : framework) (n : nat) : Prop := forall t, (t < fw_n_thetas F)%nat -> at_ (fw_vs F) [t] = INR n.
Lemma moved_aggregates {P} (w w1 w' w1' : world P) F F' n k sg om ro sm sm' : fit_done w w1 F sm k -> fit_done w' w1' F' sm' k -> plain_results F n -> plain_results F' n -> moved_split sg om ro sm sm' ->
  same_aggregates F F' ro (length sm) k.
Proof.
  intros (_ & _ & A & _ & Nr & Nt) (_ & _ & A' & _ & Nr' & Nt') V V' (El & Ro & _) t Ht Q. assert (Re : reorder (length sm) ro) by exact (rearranged_seq _ _ Ro).
  destruct (A t) as (A1 & A2); [lia|]. destruct (A' t) as (B1 & B2); [lia|]. rewrite Nr in A1, A2. rewrite Nr', El in B1, B2. rewrite (V t) in A2 by lia. rewrite (V' t) in B2 by lia.
  assert (Et : at_ (fw_thetas F') [t] = at_ (fw_thetas F) [t]). { rewrite A1, B1, <- (medianf_reorder _ ro _ Re). apply medianf_ext. intros r Hr. apply (Q r Hr). }
  split; [exact Et|]. rewrite A2, B2. f_equal. rewrite <- (medianf_reorder _ ro _ Re). apply medianf_ext. intros r Hr. destruct (Q r Hr) as (-> & ->). rewrite Et. reflexivity.
Qed.
Lemma plain_vs {P} (C : ctx P) w nj store ext sm w' n : c_dcols C <> [] -> c_cluster C = None -> (0 < n)%nat -> c_n C = n -> soundly_reached C w ->
  fit C nj store ext sm w = (w', Ok tt) -> forall F, current_fw w' F -> plain_results F n.
Proof.
  intros Hd Hc Hn <- S Hf F Cu. pose proof (reached_reachable _ _ S) as Rc. destruct (fit_reports C w nj store ext sm w' Hd Rc Hf) as (out & F' & _ & Cu' & Rp & _).
  assert (F' = F) as ->. { destruct Cu as (k & o & A & B & ->), Cu' as (k' & o' & A' & B' & ->). congruence. }
  intros t Ht. assert (Hr : (0 < fw_n_rep F)%nat) by (rewrite (rp_n_rep _ _ _ _ Rp); apply (reachable_wf _ _ Rc)).
  destruct (rp_se _ _ _ _ Rp 0%nat t Hr Ht) as (s2 & V & _). assert (Cl : split_cluster C w 0 = None) by (unfold split_cluster; rewrite Hc; reflexivity).
  rewrite Cl in V. unfold var_est in V. apply ok_inj in V. apply (f_equal snd) in V. cbn [snd] in V. symmetry. exact V.
Qed.

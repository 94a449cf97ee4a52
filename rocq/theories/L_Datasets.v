(** Simulated data: returned values, names, standardised columns. *)
From Verif Require Export S_Datasets L_Sum.
From Verif Require L_Data L_DataOps L_DataProps.
From Coq Require Import Lia Lra DecimalString DecimalNat DecimalFacts.
Local Open Scope R_scope.
Local Open Scope string_scope.

(** ** Names *)
Lemma decimal_inj a b : decimal a = decimal b -> a = b.
Proof.
  unfold decimal. intro H.
  assert (K : forall n, NilZero.uint_of_string (NilZero.string_of_uint (Nat.to_uint n)) = Some (Nat.to_uint n)).
  { intro n. apply NilZero.usu. destruct n; [discriminate|]. rewrite <- (Unsigned.of_to (S n)). intro E.
    apply (f_equal Nat.of_uint) in E. rewrite Unsigned.of_to in E. rewrite Unsigned.of_to in E. discriminate. }
  pose proof (K a) as A. rewrite H, K in A. injection A as A. now apply Unsigned.to_uint_inj.
Qed.
Lemma append_inj p s s' : p ++ s = p ++ s' -> s = s'.
Proof. induction p; cbn; [easy|]. intro H. injection H as H. auto. Qed.
Lemma numbered_in p f k c : In c (numbered p f k) -> exists j, (j < k)%nat /\ c = p ++ decimal (f + j).
Proof. unfold numbered. rewrite in_map_iff. intros (j & <- & H). apply in_seq in H. exists j. split; [lia|reflexivity]. Qed.
Lemma numbered_nodup p f k : NoDup (numbered p f k).
Proof.
  unfold numbered. generalize 0%nat. induction k as [|k IH]; intro a; [constructor|]. cbn [seq map]. constructor; [|apply IH].
  rewrite in_map_iff. intros (j & E & H). apply in_seq in H. apply append_inj, decimal_inj in E. lia.
Qed.
Lemma numbered_length p f k : length (numbered p f k) = k.
Proof. unfold numbered. now rewrite map_length, seq_length. Qed.
Lemma names_numbered p k : names p k = numbered p 1 k. Proof. reflexivity. Qed.
Lemma combine_map {A B C} (f : A -> B) (g : A -> C) l : combine (map f l) (map g l) = map (fun a => (f a, g a)) l.
Proof. induction l; cbn; [reflexivity|]. now rewrite IHl. Qed.
Lemma block_named p k x : block (numbered p 1 k) x = named p k x.
Proof. unfold block. rewrite numbered_length. unfold numbered. apply combine_map. Qed.
Lemma block_named0 p k x : block (numbered p 0 k) x = map (fun j => (p ++ decimal j, fun i => x i j)) (seq 0 k).
Proof. unfold block. rewrite numbered_length. unfold numbered. apply combine_map. Qed.
Lemma named_fst p k x : map fst (named p k x) = numbered p 1 k.
Proof. unfold named. now rewrite map_map. Qed.

(** ** Tables *)
Lemma find_unique (cols : list (string * vec)) c v : NoDup (map fst cols) -> In (c, v) cols -> find (fun p => String.eqb (fst p) c) cols = Some (c, v).
Proof.
  induction cols as [|[c' v'] l IH]; [intros _ []|]. cbn [map fst find]. intros N [H|H]; inversion N as [|? ? N1 N2]; subst.
  - injection H as -> ->. now rewrite String.eqb_refl.
  - destruct (String.eqb_spec c' c) as [->|Ne]; [|auto]. exfalso. apply N1. apply in_map_iff. exists (c, v). auto.
Qed.
Lemma table_holds n cols : NoDup (map fst cols) -> holds n cols (table n cols).
Proof.
  intro N. split; [reflexivity|]. split; [reflexivity|]. split; [exact N|]. intros c v H i _. cbn. now rewrite (find_unique cols c v).
Qed.
Lemma table_number n cols c : NoDup (map fst cols) -> In c (map fst cols) -> S_Data.number_column (table n cols) c.
Proof.
  intros N H i _. apply in_map_iff in H as ([c' v] & E & H). cbn in E. subst c'. cbn. rewrite (find_unique cols c v) by assumption. eexists; reflexivity.
Qed.
Lemma table_usable n cols r : NoDup (map fst cols) -> NoDup (S_Data.role_columns r) -> incl (S_Data.role_columns r) (map fst cols) -> M_Data.r_d r <> [] ->
  S_Data.usable (table n cols) r M_Data.Strict.
Proof.
  intros N W I Hd. split; [exact N|]. split; [split; [exact W|exact I]|]. split; [exact Hd|].
  assert (K : forall c, In c (S_Data.role_columns r) -> S_Data.number_column (table n cols) c) by (intros c Hc; apply table_number; [exact N|apply I; exact Hc]).
  unfold S_Data.role_columns in K. split; intros c Hc; [|apply L_DataProps.number_allowed]; apply K; rewrite ?in_app_iff in *; tauto.
Qed.

(** ** return_type *)
Lemma mem_in s l : existsb (String.eqb s) l = true <-> In s l.
Proof. rewrite existsb_exists. split; [intros (t & H & E); apply String.eqb_eq in E; now subst|intro H; exists s; split; [exact H|apply String.eqb_refl]]. Qed.
Lemma array_iff ret : array_alias ret = true <-> asks_arrays ret.
Proof.
  unfold asks_arrays. destruct ret as [s| | | | |]; cbn [array_alias]; rewrite ?mem_in; split; intro H; try discriminate; try tauto; eauto;
    destruct H as [H|(t & E & H)]; try discriminate; injection E as ->; exact H.
Qed.
Lemma frame_iff ret : frame_alias ret = true <-> asks_frame ret.
Proof.
  unfold asks_frame. destruct ret as [s| | | | |]; cbn [frame_alias]; rewrite ?mem_in; split; intro H; try discriminate; try tauto; eauto;
    destruct H as [H|(t & E & H)]; try discriminate; injection E as ->; exact H.
Qed.
Lemma data_iff ret : data_alias ret = true <-> asks_data ret.
Proof.
  unfold asks_data. destruct ret as [s| | | | |]; cbn [data_alias]; rewrite ?String.eqb_eq; split; intro H; try discriminate; try tauto;
    try (destruct H; congruence); [right; congruence].
Qed.
Lemma cluster_iff ret : cluster_alias ret = true <-> asks_cluster ret.
Proof.
  unfold asks_cluster. destruct ret as [s| | | | |]; cbn [cluster_alias]; rewrite ?String.eqb_eq; split; intro H; try discriminate; try tauto;
    try (destruct H; congruence); [right; congruence].
Qed.
Definition asks_one (ret : ret_arg) : Prop := asks_arrays ret \/ asks_frame ret \/ asks_data ret.
Lemma arrays_frame ret : asks_arrays ret -> asks_frame ret -> False.
Proof.
  intros [->|(s & -> & H)] [E|(t & E & H')]; try discriminate. injection E as ->. cbn in *. intuition congruence.
Qed.
Lemma arrays_data ret : asks_arrays ret -> asks_data ret -> False.
Proof. intros [->|(s & -> & H)] [E|E]; try discriminate. injection E as ->. cbn in H. intuition congruence. Qed.
Lemma frame_data ret : asks_frame ret -> asks_data ret -> False.
Proof. intros [->|(s & -> & H)] [E|E]; try discriminate. injection E as ->. cbn in H. intuition congruence. Qed.
Lemma arrays_cluster ret : asks_arrays ret -> asks_cluster ret -> False.
Proof. intros [->|(s & -> & H)] [E|E]; try discriminate. injection E as ->. cbn in H. intuition congruence. Qed.
Lemma frame_cluster ret : asks_frame ret -> asks_cluster ret -> False.
Proof. intros [->|(s & -> & H)] [E|E]; try discriminate. injection E as ->. cbn in H. intuition congruence. Qed.

(** What [deliver] returns when the data object can be built. *)
Section Deliver.
  Variables (ret : ret_arg) (isobj : ret_arg -> bool) (obj : ret_arg -> Prop).
  Hypothesis Iff : isobj ret = true <-> obj ret.
  Hypothesis NA : asks_arrays ret -> obj ret -> False.
  Hypothesis NF : asks_frame ret -> obj ret -> False.
  Variables (n : nat) (arrays : list (option M_Data.arr)) (cols : list (string * vec)) (r : M_Data.roles) (object : result M_Data.ddata).
  Hypothesis N : NoDup (map fst cols).
  Hypothesis B : exists s, object = Ok s /\ S_Data.constructed (table n cols) s /\ M_Data.dd_roles s = r.
  Lemma deliver_returned o : deliver ret isobj arrays (table n cols) object = Ok o -> returned ret obj n arrays cols r o.
  Proof.
    unfold deliver. destruct B as (s & -> & C & Rr). cbn [bind].
    destruct (array_alias ret) eqn:A; [|destruct (frame_alias ret) eqn:F; [|destruct (isobj ret) eqn:O]]; intro H; try discriminate; injection H as <-.
    - apply array_iff in A. split; [reflexivity|]. split; [intro F; destruct (arrays_frame _ A F)|]. split; [intro D; destruct (NA A D)|auto].
    - apply frame_iff in F. assert (A' : ~ asks_arrays ret) by (intro X; apply array_iff in X; congruence).
      split; [tauto|]. split; [eexists; split; [reflexivity|now apply table_holds]|]. split; [intro D; destruct (NF F D)|auto].
    - pose proof (proj1 Iff eq_refl) as O'. assert (A' : ~ asks_arrays ret) by (intro X; apply array_iff in X; congruence).
      assert (F' : ~ asks_frame ret) by (intro X; apply frame_iff in X; congruence).
      split; [tauto|]. split; [tauto|]. split; [|auto]. intros _. exists (table n cols), s. split; [reflexivity|]. split; [now apply table_holds|auto].
  Qed.
  Lemma deliver_iff : (exists o, deliver ret isobj arrays (table n cols) object = Ok o) <-> asks_arrays ret \/ asks_frame ret \/ obj ret.
  Proof.
    unfold deliver. destruct B as (s & -> & C & Rr). cbn [bind]. rewrite <- array_iff, <- frame_iff, <- Iff.
    destruct (array_alias ret), (frame_alias ret), (isobj ret); split; intro H; eauto; try (destruct H; discriminate); intuition discriminate.
  Qed.
  Lemma deliver_error e : deliver ret isobj arrays (table n cols) object = Err e -> e = ValueError.
  Proof. unfold deliver. destruct B as (s & -> & C & Rr). cbn [bind]. destruct (array_alias ret), (frame_alias ret), (isobj ret); congruence. Qed.
End Deliver.

(** The constructor calls at the end of the generators. *)
Lemma object_built f y d x z t s : S_Data.usable f (M_Data.mk_roles y [d] x z t s None) M_Data.Strict ->
  forall (cz ct cs : M_Data.carg), (cz = M_Data.olist z \/ exists c, z = Some [c] /\ cz = M_Data.CStr c) -> ct = M_Data.ostr t -> cs = M_Data.ostr s ->
  exists o, data_object f y d x cz ct cs = Ok o /\ S_Data.constructed f o /\ M_Data.dd_roles o = M_Data.mk_roles y [d] x z t s None.
Proof.
  intros U cz ct cs Z T S. destruct (L_DataProps.construct_ok f _ true M_Data.Strict U) as (o & K & Rr & _). exists o.
  assert (E : data_object f y d x cz ct cs = Ok o).
  { rewrite <- K. unfold data_object. cbn [M_Data.r_cl M_Data.r_y M_Data.r_d M_Data.r_x M_Data.r_z M_Data.r_t M_Data.r_s option_map S_Data.farg_of]. subst ct cs.
    destruct Z as [->|(c & -> & ->)]; reflexivity. }
  split; [exact E|]. split; [|exact Rr]. unfold data_object in E. repeat eexists. exact E.
Qed.
Lemma cluster_built f y d cl x z : S_Data.usable f (M_Data.mk_roles y [d] x (Some [z]) None None (Some cl)) M_Data.Strict ->
  exists o, cluster_object f y d cl x (M_Data.CStr z) = Ok o /\ S_Data.constructed f o /\ M_Data.dd_roles o = M_Data.mk_roles y [d] x (Some [z]) None None (Some cl).
Proof.
  intros U. destruct (L_DataProps.construct_ok f _ true M_Data.Strict U) as (o & K & Rr & _). exists o.
  assert (E : cluster_object f y d cl x (M_Data.CStr z) = Ok o) by (rewrite <- K; reflexivity).
  split; [exact E|]. split; [|exact Rr]. unfold cluster_object in E. repeat eexists. exact E.
Qed.

(** ** Distinct column names *)
Lemma nodup_app {A} (l l' : list A) : NoDup l -> NoDup l' -> (forall a, In a l -> ~ In a l') -> NoDup (l ++ l')%list.
Proof.
  induction l as [|a l IH]; cbn; [auto|]. intros H H' D. inversion H; subst. constructor; [rewrite in_app_iff; intros [K|K]; [auto|exact (D a (or_introl eq_refl) K)]|].
  apply IH; auto.
Qed.
Definition starts (p : string) (c : string) : Prop := exists s, c = p ++ s.
Lemma numbered_starts p f k c : In c (numbered p f k) -> starts p c.
Proof. intro H. destruct (numbered_in _ _ _ _ H) as (j & _ & ->). eexists; reflexivity. Qed.

(** ** Numbers *)
Lemma expit_logistic v : expit v = logistic v. Proof. reflexivity. Qed.
Lemma gt01_indicator a b : indicator (gt01 a b) (a > b).
Proof. unfold indicator, gt01, rltb. destruct (Rlt_dec b a); cbn [b2r]; [left|right]; split; auto. Qed.
Lemma ge01_indicator a b : indicator (ge01 a b) (a >= b).
Proof. unfold indicator, ge01, rleb. destruct (Rle_dec b a); cbn [b2r]; [left|right]; split; auto with real. Qed.
Lemma indicator_iff v P Q : (P <-> Q) -> indicator v P -> indicator v Q.
Proof. unfold indicator. tauto. Qed.
Lemma indicator_01 v P : indicator v P -> v = 0 \/ v = 1.
Proof. unfold indicator. tauto. Qed.
Lemma dot_inner k x b b' i : (forall j, (j < k)%nat -> b j = b' j) -> dot k x b i = inner k x b' i.
Proof. intro H. apply sumf_ext. intros j Hj. now rewrite H. Qed.
Lemma INR_S_neq j : INR (S j) <> 0. Proof. apply not_0_INR. discriminate. Qed.
Lemma squares_eq j : squares j = / INR (S j) ^ 2.
Proof. unfold squares. field. apply INR_S_neq. Qed.
Lemma harmonic_eq j : harmonic j = / INR (S j).
Proof. unfold harmonic. field. apply INR_S_neq. Qed.

(** ** Standardised columns *)
Lemma raw_eq x i j : z_tilde x i j = raw x i j.
Proof. destruct j as [|[|[|[|j]]]]; cbn [z_tilde raw]; try reflexivity. f_equal. field. Qed.
Lemma z_standardised n x j : standardised n x (z_of n x) j.
Proof.
  intros i Hi. unfold z_of, standardise, spread, var0. rewrite raw_eq.
  rewrite (meanf_ext n (fun i0 => z_tilde x i0 j) (fun i0 => raw x i0 j)) by (intros; apply raw_eq). f_equal. f_equal.
  apply meanf_ext. intros k _. now rewrite raw_eq.
Qed.
Lemma varied_spread n x j : varied n x j -> 0 < spread n (fun i => raw x i j).
Proof.
  intros (i & i' & Hi & Hi' & Ne). unfold spread. apply sqrt_lt_R0. set (v := fun i => raw x i j). fold (v i) in Ne. change (raw x i' j) with (v i') in Ne. change (raw x i j) with (v i) in Ne.
  apply meanf_pos; [intros; apply pow2_ge_0|]. destruct (Req_dec (v i) (meanf n v)) as [E|E].
  - exists i'. split; [exact Hi'|]. assert (v i' - meanf n v <> 0) by (intro Q; apply Ne; rewrite E; lra). apply Rlt_le_trans with ((v i' - meanf n v)²); [now apply Rsqr_pos_lt|apply Req_le, Rsqr_pow2].
  - exists i. split; [exact Hi|]. assert (v i - meanf n v <> 0) by (intro Q; apply E; lra). apply Rlt_le_trans with ((v i - meanf n v)²); [now apply Rsqr_pos_lt|apply Req_le, Rsqr_pow2].
Qed.
Lemma standardised_mean n x z j : (0 < n)%nat -> standardised n x z j -> meanf n (fun i => z i j) = 0.
Proof.
  intros Hn H. rewrite (meanf_ext n _ (fun i => (raw x i j - meanf n (fun i => raw x i j)) / spread n (fun i => raw x i j))) by exact H.
  rewrite meanf_div, meanf_minus, meanf_const by exact Hn. unfold Rdiv. ring.
Qed.
Lemma standardised_square n x z j : (0 < n)%nat -> varied n x j -> standardised n x z j -> meanf n (fun i => z i j ^ 2) = 1.
Proof.
  intros Hn V H. pose proof (varied_spread n x j V) as P. set (s := spread n (fun i => raw x i j)) in *.
  rewrite (meanf_ext n _ (fun i => (raw x i j - meanf n (fun i => raw x i j)) ^ 2 / s ^ 2)).
  2:{ intros i Hi. rewrite (H i Hi). fold s. field. lra. }
  rewrite meanf_div. assert (E : meanf n (fun i => (raw x i j - meanf n (fun i => raw x i j)) ^ 2) = s ^ 2).
  { unfold s, spread. rewrite pow2_sqrt; [reflexivity|]. apply meanf_nonneg; [exact Hn|]. intros; apply pow2_ge_0. }
  rewrite E. field. lra.
Qed.

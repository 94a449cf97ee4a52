(** Concatenation of frameworks. *)
From Verif Require Export L_FwAlg.
Local Open Scope nat_scope.

(** ** Concatenation of arrays *)
Lemma set_nth_length {A} k (x : A) l : length (set_nth k x l) = length l.
Proof. revert k. induction l; intros [|k]; cbn; auto. Qed.
Lemma set_nth_same {A} k l (d : A) : k < length l -> set_nth k (nth k l d) l = l.
Proof. revert k. induction l; intros [|k] H; cbn in *; try lia; auto. f_equal. apply IHl. lia. Qed.
Lemma nth_set_nth {A} k (x : A) l d : k < length l -> nth k (set_nth k x l) d = x.
Proof. revert k. induction l; intros [|k] H; cbn in *; try lia; auto. apply IHl. lia. Qed.
Lemma set_set_nth {A} k (x y : A) l : set_nth k x (set_nth k y l) = set_nth k x l.
Proof. revert k. induction l; intros [|k]; cbn; auto. f_equal. apply IHl. Qed.

Definition tdim (ax : nat) (l : list nd) : nat := list_sum (map (dim ax) l).
Lemma tdim_cons ax a l : tdim ax (a :: l) = dim ax a + tdim ax l.
Proof. reflexivity. Qed.
Lemma dim_concat2 ax a b : ax < length (shape a) -> dim ax (nd_concat2 ax a b) = dim ax a + dim ax b.
Proof. intro H. unfold nd_concat2, dim at 1. cbn. apply nth_set_nth. exact H. Qed.
Lemma shape_concat2_len ax a b : length (shape (nd_concat2 ax a b)) = length (shape a).
Proof. cbn. apply set_nth_length. Qed.
Lemma nd_concat_shape ax l : forall a, ax < length (shape a) ->
  shape (nd_concat ax a l) = set_nth ax (dim ax a + tdim ax l) (shape a).
Proof.
  induction l as [|b l IH]; intros a H.
  - cbn. rewrite Nat.add_0_r. symmetry. apply set_nth_same. exact H.
  - change (nd_concat ax a (b :: l)) with (nd_concat ax (nd_concat2 ax a b) l).
    rewrite IH by (rewrite shape_concat2_len; exact H).
    rewrite dim_concat2 by exact H. cbn [nd_concat2 shape]. rewrite set_set_nth, tdim_cons. f_equal. lia.
Qed.
Lemma nd_concat_at ax l : forall a k t idx b, ax < length (shape a) ->
  nth_error (a :: l) k = Some b -> t < dim ax b -> ax < length idx ->
  nth ax idx 0 = tdim ax (firstn k (a :: l)) + t ->
  at_ (nd_concat ax a l) idx = at_ b (set_nth ax t idx).
Proof.
  induction l as [|c l IH]; intros a k t idx b Ha Hk Ht Hi Hn.
  - destruct k as [|[|k]]; cbn in Hk; try discriminate. injection Hk as <-. cbn in Hn. subst t.
    rewrite set_nth_same by exact Hi. reflexivity.
  - cbn [nd_concat fold_left]. change (at_ (nd_concat ax (nd_concat2 ax a c) l) idx = at_ b (set_nth ax t idx)).
    destruct k as [|[|k]].
    + injection Hk as <-. rewrite (IH _ 0 t idx (nd_concat2 ax a c)); try assumption.
      * cbn [nd_concat2 at_]. rewrite nth_set_nth by exact Hi. destruct (Nat.ltb_spec t (dim ax a)); [reflexivity|lia].
      * rewrite shape_concat2_len; exact Ha.
      * reflexivity.
      * rewrite dim_concat2 by exact Ha. lia.
    + injection Hk as <-. cbn in Hn. rewrite (IH _ 0 (dim ax a + t) idx (nd_concat2 ax a c)); try assumption.
      * cbn [nd_concat2 at_]. rewrite nth_set_nth by exact Hi. destruct (Nat.ltb_spec (dim ax a + t) (dim ax a)); [lia|].
        rewrite set_set_nth. do 2 f_equal. lia.
      * rewrite shape_concat2_len; exact Ha.
      * reflexivity.
      * rewrite dim_concat2 by exact Ha. lia.
      * change (nth ax idx 0 = dim ax a + t). rewrite Hn. lia.
    + apply (IH _ (S k) t idx b); try assumption.
      * rewrite shape_concat2_len; exact Ha.
      * rewrite Hn. cbn [firstn]. rewrite !tdim_cons, dim_concat2 by exact Ha. lia.
Qed.

Lemma lsum_cons x l : list_sum (x :: l) = x + list_sum l.
Proof. reflexivity. Qed.
(** Position in a stacking. *)
Lemma block_lt (ns : list nat) : forall t, t < list_sum ns ->
  exists k n s, nth_error ns k = Some n /\ s < n /\ t = list_sum (firstn k ns) + s.
Proof.
  induction ns as [|n ns IH]; intros t H; [cbn in H; lia|]. rewrite lsum_cons in H.
  destruct (Nat.lt_ge_cases t n) as [Hlt|Hge].
  - exists 0, n, t. cbn. auto.
  - destruct (IH (t - n)) as (k & m & s & A & B & C); [lia|]. exists (S k), m, s. cbn [nth_error firstn]. rewrite lsum_cons. repeat split; auto. lia.
Qed.
Lemma fw_block_lt fs t : t < list_sum (map fw_n_thetas fs) ->
  exists k f s, nth_error fs k = Some f /\ s < fw_n_thetas f /\ t = block fs k + s.
Proof.
  intro H. destruct (block_lt _ _ H) as (k & n & s & A & B & C). rewrite nth_error_map in A.
  destruct (nth_error fs k) as [f|] eqn:E; [|discriminate]. injection A as <-.
  exists k, f, s. repeat split; auto. unfold block. rewrite <- firstn_map. exact C.
Qed.

Section Stack.
  Context (f : framework) (fs : list framework).
  Definition stk ax (sel : framework -> nd) := nd_concat ax (sel f) (map sel fs).
  Lemma tdim_map ax (sel : framework -> nd) l : (forall g, In g l -> dim ax (sel g) = fw_n_thetas g) ->
    tdim ax (map sel l) = list_sum (map fw_n_thetas l).
  Proof.
    intro H. unfold tdim. rewrite map_map. f_equal. apply map_ext_in. exact H.
  Qed.
  Lemma stk_shape ax sel s : shape (sel f) = s -> ax < length s -> (forall g, In g (f :: fs) -> dim ax (sel g) = fw_n_thetas g) ->
    shape (stk ax sel) = set_nth ax (list_sum (map fw_n_thetas (f :: fs))) s.
  Proof.
    intros Hs Hax H. unfold stk. rewrite nd_concat_shape by (rewrite Hs; exact Hax). rewrite Hs. f_equal.
    rewrite (tdim_map ax sel fs) by (intros; apply H; right; assumption). rewrite H by (left; reflexivity). reflexivity.
  Qed.
  Lemma stk_at ax sel k g t idx : ax < length (shape (sel f)) -> (forall g, In g (f :: fs) -> dim ax (sel g) = fw_n_thetas g) ->
    nth_error (f :: fs) k = Some g -> t < fw_n_thetas g -> ax < length idx -> nth ax idx 0 = block (f :: fs) k + t ->
    at_ (stk ax sel) idx = at_ (sel g) (set_nth ax t idx).
  Proof.
    intros Hax H Hk Ht Hi Hn. unfold stk. apply (nd_concat_at ax (map sel fs) (sel f) k); try assumption.
    - change (sel f :: map sel fs) with (map sel (f :: fs)). rewrite nth_error_map, Hk. reflexivity.
    - rewrite H; [exact Ht|]. eapply nth_error_In; exact Hk.
    - change (sel f :: map sel fs) with (map sel (f :: fs)). rewrite firstn_map, tdim_map; [exact Hn|].
      intros x Hx. apply H. rewrite <- (firstn_skipn k (f :: fs)). apply in_or_app. left. exact Hx.
  Qed.
End Stack.

Definition get_sens (g : framework) : sens_elems :=
  match fw_sens g with Some s => s | None => {| se_max_bias := fw_vs g; se_psi_max_bias := fw_vs g; se_bench := None |} end.
Definition get_bench (g : framework) : nd * nd :=
  match se_bench (get_sens g) with Some b => b | None => (fw_vs g, fw_vs g) end.

Lemma all_some_dec {A B} (h : A -> option B) (d : A -> B) l :
  (forall x y, h x = Some y -> d x = y) ->
  ((forall x, In x l -> h x <> None) /\ all_some (map h l) = Some (map d l)) \/
  ((exists x, In x l /\ h x = None) /\ all_some (map h l) = None).
Proof.
  intro Hd. induction l as [|x l IH]; cbn.
  - left. split; [intros ? []|reflexivity].
  - destruct (h x) as [y|] eqn:E.
    + destruct IH as [[IH1 IH2]|[[z [Hz1 Hz2]] IH2]]; rewrite IH2.
      * left. split; [intros z [<-|Hz]; [congruence|auto]|]. rewrite (Hd x y E). reflexivity.
      * right. split; [exists z; auto|reflexivity].
    + right. split; [exists x; auto|reflexivity].
Qed.

Lemma all_some_OpFw fs : all_some (map (fun o => match o with OpFw f => Some f | OpOther => None end) (map OpFw fs)) = Some fs.
Proof. apply all_some_ok. rewrite !map_map. reflexivity. Qed.
Lemma all_ok_forall {A} (c : A -> result unit) l u : all_ok c l = Ok u <-> forall x, In x l -> c x = Ok tt.
Proof.
  destruct u. induction l as [|x l IH]; cbn; [split; auto; intros _ ? []|].
  destruct (c x) as [[]|e] eqn:E; cbn.
  - rewrite IH. split; [intros H y [<-|Hy]; auto|auto].
  - split; [discriminate|]. intro H. rewrite (H x) in E by auto. discriminate.
Qed.

Definition concat_sens (f : framework) (fs : list framework) : option sens_elems :=
  match fold_sens (f :: fs) with
  | Some (s :: ss) => Some {| se_max_bias := stk f fs 1 (fun g => se_max_bias (get_sens g));
      se_psi_max_bias := stk f fs 1 (fun g => se_psi_max_bias (get_sens g));
      se_bench := match all_some (map se_bench (s :: ss)) with
                  | Some _ => Some (stk f fs 1 (fun g => fst (get_bench g)), stk f fs 1 (fun g => snd (get_bench g)))
                  | None => None end |}
  | _ => None
  end.
Definition concat_result (f : framework) (fs : list framework) : framework :=
  {| fw_n_obs := fw_n_obs f; fw_n_thetas := list_sum (map fw_n_thetas (f :: fs)); fw_n_rep := fw_n_rep f;
     fw_thetas := stk f fs 0 fw_thetas; fw_ses := stk f fs 0 fw_ses; fw_all_thetas := stk f fs 0 fw_all_thetas;
     fw_all_ses := stk f fs 0 fw_all_ses; fw_vs := stk f fs 0 fw_vs; fw_scaled_psi := stk f fs 1 fw_scaled_psi;
     fw_cluster := None; fw_sens := concat_sens f fs; fw_names := None; fw_boot := None; fw_sens_params := None |}.

Section Concat.
  Context (f : framework) (fs : list framework) (Hwf : forall g, In g (f :: fs) -> fw_wf g)
          (Hc : compat_all (f :: fs)).
  Let Hf : fw_wf f := Hwf f (or_introl eq_refl).
  Let N := list_sum (map fw_n_thetas (f :: fs)).
  Lemma dims_thetas g : In g (f :: fs) -> dim 0 (fw_thetas g) = fw_n_thetas g.
  Proof. intro H. unfold dim. rewrite (wf_thetas g (Hwf g H)). reflexivity. Qed.
  Lemma dims_ses g : In g (f :: fs) -> dim 0 (fw_ses g) = fw_n_thetas g.
  Proof. intro H. unfold dim. rewrite (wf_ses g (Hwf g H)). reflexivity. Qed.
  Lemma dims_vs g : In g (f :: fs) -> dim 0 (fw_vs g) = fw_n_thetas g.
  Proof. intro H. unfold dim. rewrite (wf_vs g (Hwf g H)). reflexivity. Qed.
  Lemma dims_ath g : In g (f :: fs) -> dim 0 (fw_all_thetas g) = fw_n_thetas g.
  Proof. intro H. unfold dim. rewrite (wf_all_thetas g (Hwf g H)). reflexivity. Qed.
  Lemma dims_ases g : In g (f :: fs) -> dim 0 (fw_all_ses g) = fw_n_thetas g.
  Proof. intro H. unfold dim. rewrite (wf_all_ses g (Hwf g H)). reflexivity. Qed.
  Lemma dims_psi g : In g (f :: fs) -> dim 1 (fw_scaled_psi g) = fw_n_thetas g.
  Proof. intro H. unfold dim. rewrite (wf_psi g (Hwf g H)). reflexivity. Qed.

  Lemma sens_cases :
    ((forall g, In g (f :: fs) -> fw_sens g <> None) /\ fold_sens (f :: fs) = Some (map get_sens (f :: fs))) \/
    ((exists g, In g (f :: fs) /\ fw_sens g = None) /\ fold_sens (f :: fs) = None).
  Proof.
    apply all_some_dec. intros x y H. unfold get_sens. rewrite H. reflexivity.
  Qed.
  Lemma bench_cases :
    ((forall g, In g (f :: fs) -> se_bench (get_sens g) <> None) /\
      all_some (map se_bench (map get_sens (f :: fs))) = Some (map get_bench (f :: fs))) \/
    ((exists g, In g (f :: fs) /\ se_bench (get_sens g) = None) /\ all_some (map se_bench (map get_sens (f :: fs))) = None).
  Proof.
    rewrite map_map. apply (all_some_dec (fun g => se_bench (get_sens g)) get_bench). intros x y H. unfold get_bench. rewrite H. reflexivity.
  Qed.
  Lemma get_sens_eq g : fw_sens g <> None -> fw_sens g = Some (get_sens g).
  Proof. unfold get_sens. destruct (fw_sens g); congruence. Qed.
  Lemma get_bench_eq g : se_bench (get_sens g) <> None -> se_bench (get_sens g) = Some (fst (get_bench g), snd (get_bench g)).
  Proof. unfold get_bench. destruct (se_bench (get_sens g)) as [[a b]|]; [reflexivity|congruence]. Qed.
  Lemma sens_shape g : In g (f :: fs) -> fw_sens g <> None ->
    shape (se_max_bias (get_sens g)) = [1; fw_n_thetas g; fw_n_rep f] /\
    shape (se_psi_max_bias (get_sens g)) = [fw_n_obs f; fw_n_thetas g; fw_n_rep f].
  Proof.
    intros Hg H. apply get_sens_eq in H. destruct (wf_sens g (Hwf g Hg) _ H) as (A & B & _).
    destruct (Hc f g (or_introl eq_refl) Hg) as [E1 E2]. rewrite A, B, E1, E2. auto.
  Qed.
  Lemma bench_shape g : In g (f :: fs) -> fw_sens g <> None -> se_bench (get_sens g) <> None ->
    shape (fst (get_bench g)) = [1; fw_n_thetas g; fw_n_rep f] /\ shape (snd (get_bench g)) = [1; fw_n_thetas g; fw_n_rep f] /\
    (forall t r, t < fw_n_thetas g -> r < fw_n_rep f -> (0 <= at_ (fst (get_bench g)) [0%nat; t; r] /\ 0 <= at_ (snd (get_bench g)) [0%nat; t; r])%R).
  Proof.
    intros Hg H H'. apply get_sens_eq in H. destruct (wf_sens g (Hwf g Hg) _ H) as (_ & _ & C).
    apply get_bench_eq in H'. destruct (C _ _ H') as (P & Q & P' & Q').
    destruct (Hc f g (or_introl eq_refl) Hg) as [E1 E2]. rewrite P in P'. rewrite Q in Q'. rewrite P, Q, E2. repeat split; auto.
    - apply P'. apply in_shape3. exists 0, t, r. repeat split; auto; lia.
    - apply Q'. apply in_shape3. exists 0, t, r. repeat split; auto; lia.
  Qed.

  Lemma stk_bench_nonneg sel : (forall g, In g (f :: fs) -> shape (sel g) = [1; fw_n_thetas g; fw_n_rep f]) ->
    (forall g t r, In g (f :: fs) -> t < fw_n_thetas g -> r < fw_n_rep f -> (0 <= at_ (sel g) [0%nat; t; r])%R) ->
    shape (stk f fs 1 sel) = [1; N; fw_n_rep f] /\ any_neg (stk f fs 1 sel) = false.
  Proof.
    intros Hs Hp.
    assert (Hd : forall g, In g (f :: fs) -> dim 1 (sel g) = fw_n_thetas g).
    { intros g Hg. unfold dim. rewrite Hs by exact Hg. reflexivity. }
    assert (S : shape (stk f fs 1 sel) = [1; N; fw_n_rep f]).
    { rewrite (stk_shape f fs 1 sel _ (Hs f (or_introl eq_refl))); [reflexivity|cbn; lia|exact Hd]. }
    split; [exact S|]. apply any_neg_false. intros idx Hi. rewrite S in Hi. apply in_shape3 in Hi.
    destruct Hi as (i & t & r & -> & H1 & H2 & H3).
    assert (i = 0) as -> by lia.
    destruct (fw_block_lt (f :: fs) t H2) as (k & g & s & A & B & C).
    rewrite (stk_at f fs 1 sel k g s); cbn; try lia; try assumption.
    - apply Hp; auto. eapply nth_error_In; exact A.
    - rewrite Hs by (left; reflexivity). cbn. lia.
  Qed.

  Hypothesis Hcl : forall g, In g (f :: fs) -> fw_cluster g = None.

  Lemma concat_fw_ok : fw_concat (map OpFw (f :: fs)) = Ok (concat_result f fs) /\ fw_wf (concat_result f fs).
  Proof.
    assert (X : forall d, k_thetas d = Val (stk f fs 0 fw_thetas) -> k_ses d = Val (stk f fs 0 fw_ses) ->
      k_all_thetas d = Val (stk f fs 0 fw_all_thetas) -> k_all_ses d = Val (stk f fs 0 fw_all_ses) -> k_vs d = Val (stk f fs 0 fw_vs) ->
      k_scaled_psi d = Val (stk f fs 1 fw_scaled_psi) -> k_is_cluster d = Val false -> k_names d = Absent ->
      check_sens d = Ok (concat_sens f fs) -> mk_framework (Some d) = Ok (concat_result f fs)).
    { intros d D1 D2 D3 D4 D5 D6 D7 D8 D9. unfold concat_result.
      eapply mk_fw_ok; try eassumption.
      - rewrite (stk_shape f fs 0 _ _ (wf_thetas f Hf)); [reflexivity|cbn; lia|apply dims_thetas].
      - rewrite (stk_shape f fs 0 _ _ (wf_ses f Hf)); [reflexivity|cbn; lia|apply dims_ses].
      - rewrite (stk_shape f fs 0 _ _ (wf_all_thetas f Hf)); [reflexivity|cbn; lia|apply dims_ath].
      - rewrite (stk_shape f fs 0 _ _ (wf_all_ses f Hf)); [reflexivity|cbn; lia|apply dims_ases].
      - rewrite (stk_shape f fs 0 _ _ (wf_vs f Hf)); [reflexivity|cbn; lia|apply dims_vs].
      - rewrite (stk_shape f fs 1 _ _ (wf_psi f Hf)); [reflexivity|cbn; lia|apply dims_psi].
      - unfold check_cluster. rewrite D7. reflexivity.
      - unfold sens_shapes_prop, concat_sens. intros e He.
        destruct sens_cases as [[S1 S2]|[S1 S2]]; rewrite S2 in He; [|discriminate]. cbn [map] in He. injection He as <-. cbn [se_max_bias se_psi_max_bias se_bench].
        split; [|split].
        + rewrite (stk_shape f fs 1 _ [1; fw_n_thetas f; fw_n_rep f]); [reflexivity| |cbn; lia|].
          * apply sens_shape; [left; reflexivity|apply S1; left; reflexivity].
          * intros g Hg. unfold dim. destruct (sens_shape g Hg (S1 g Hg)) as [-> _]. reflexivity.
        + rewrite (stk_shape f fs 1 _ [fw_n_obs f; fw_n_thetas f; fw_n_rep f]); [reflexivity| |cbn; lia|].
          * apply sens_shape; [left; reflexivity|apply S1; left; reflexivity].
          * intros g Hg. unfold dim. destruct (sens_shape g Hg (S1 g Hg)) as [_ ->]. reflexivity.
        + intros s2 n2 Hb. destruct bench_cases as [[B1 B2]|[B1 B2]]; cbn [map all_some] in B2, Hb; rewrite B2 in Hb; [|discriminate].
          injection Hb as <- <-. split; apply stk_bench_nonneg.
          * intros g Hg. apply bench_shape; auto.
          * intros g t r Hg Ht Hr. apply bench_shape; auto.
          * intros g Hg. apply bench_shape; auto.
          * intros g t r Hg Ht Hr. apply bench_shape; auto.
      - rewrite D8. reflexivity. }
    assert (W : fw_wf (concat_result f fs) /\ mk_framework (Some {| k_thetas := Val (nd_concat 0 (fw_thetas f) (map fw_thetas fs));
         k_ses := Val (nd_concat 0 (fw_ses f) (map fw_ses fs)); k_all_thetas := Val (nd_concat 0 (fw_all_thetas f) (map fw_all_thetas fs));
         k_all_ses := Val (nd_concat 0 (fw_all_ses f) (map fw_all_ses fs)); k_vs := Val (nd_concat 0 (fw_vs f) (map fw_vs fs));
         k_scaled_psi := Val (nd_concat 1 (fw_scaled_psi f) (map fw_scaled_psi fs)); k_is_cluster := Val false;
         k_cluster := Absent; k_sens := match fold_sens (f :: fs) with
        | Some (s :: ss) =>
            Val {| si_max_bias := Val (nd_concat 1 (se_max_bias s) (map se_max_bias ss));
                   si_psi_max_bias := Val (nd_concat 1 (se_psi_max_bias s) (map se_psi_max_bias ss));
                   si_sigma2 := match all_some (map se_bench (s :: ss)) with Some (b :: bs) => Val (nd_concat 1 (fst b) (map fst bs)) | _ => Absent end;
                   si_nu2 := match all_some (map se_bench (s :: ss)) with Some (b :: bs) => Val (nd_concat 1 (snd b) (map snd bs)) | _ => Absent end |}
        | _ => Absent
        end; k_names := Absent |}) = Ok (concat_result f fs)).
    { match goal with |- _ /\ mk_framework (Some ?d) = _ => assert (Y : mk_framework (Some d) = Ok (concat_result f fs)) end.
      { apply X; try reflexivity. unfold check_sens, concat_sens. cbn [k_sens].
        destruct sens_cases as [[S1 S2]|[S1 S2]]; rewrite S2; [|reflexivity]. cbn [map].
        cbn [si_max_bias si_psi_max_bias present andb require need_array bind].
        unfold check_benchmark. cbn [si_sigma2 si_nu2].
        destruct bench_cases as [[B1 B2]|[B1 B2]]; cbn [map] in B2 |- *; rewrite B2; cbn [present andb need_array bind].
        - rewrite !map_map.
          change (nd_concat 1 (fst (get_bench f)) (map (fun x => fst (get_bench x)) fs)) with (stk f fs 1 (fun g => fst (get_bench g))).
          change (nd_concat 1 (snd (get_bench f)) (map (fun x => snd (get_bench x)) fs)) with (stk f fs 1 (fun g => snd (get_bench g))).
          rewrite (proj2 (stk_bench_nonneg (fun g => fst (get_bench g)) (fun g Hg => proj1 (bench_shape g Hg (S1 g Hg) (B1 g Hg)))
             (fun g t r Hg Ht Hr => proj1 (proj2 (proj2 (bench_shape g Hg (S1 g Hg) (B1 g Hg))) t r Ht Hr)))).
          rewrite (proj2 (stk_bench_nonneg (fun g => snd (get_bench g)) (fun g Hg => proj1 (proj2 (bench_shape g Hg (S1 g Hg) (B1 g Hg))))
             (fun g t r Hg Ht Hr => proj2 (proj2 (proj2 (bench_shape g Hg (S1 g Hg) (B1 g Hg))) t r Ht Hr)))).
          cbn [orb negb require bind]. reflexivity.
        - rewrite !map_map. reflexivity. }
      split; [|exact Y]. apply mk_fw_inv in Y. apply Y. }
    destruct W as [W Y]. split; [|exact W].
    unfold fw_concat. assert (AS := all_some_OpFw (f :: fs)). cbn [map] in AS |- *. rewrite AS.
    rewrite (proj2 (all_ok_forall check_framework_shapes (f :: fs) tt)) by (intros g Hg; apply wf_check; apply Hwf; exact Hg).
    cbn [bind]. rewrite (proj2 (all_ok_forall (fun g => check_compat f g false) fs tt)).
    2:{ intros g Hg. apply compat_ok. destruct (Hc f g) as [A B]; [left; reflexivity|right; exact Hg|].
        rewrite !Hcl by (try (left; reflexivity); right; assumption). repeat split; auto. discriminate. }
    cbn [bind]. assert (E : existsb (fun g => is_some (fw_cluster g)) (f :: fs) = false).
    { apply not_true_iff_false. intro H. apply existsb_exists in H. destruct H as (g & Hg & H). rewrite Hcl in H by exact Hg. discriminate. }
    rewrite E. cbn [negb require]. match goal with |- bind ?x _ = _ => replace x with (Ok (concat_result f fs)) by (symmetry; exact Y) end. cbn [bind].
    rewrite (wf_check _ W). reflexivity.
  Qed.

  Lemma concat_result_of : concat_of (f :: fs) (concat_result f fs).
  Proof.
    constructor; try reflexivity.
    - intros g Hg. cbn. apply (Hc f g); [left; reflexivity|exact Hg].
    - intros k g t Hk Ht. cbn [concat_result fw_thetas fw_ses fw_vs fw_all_thetas fw_all_ses fw_scaled_psi].
      repeat split; intros.
      + rewrite (stk_at f fs 0 _ k g t); cbn [nth length]; auto; try lia; [rewrite (wf_thetas f Hf); cbn; lia|apply dims_thetas].
      + rewrite (stk_at f fs 0 _ k g t); cbn [nth length]; auto; try lia; [rewrite (wf_ses f Hf); cbn; lia|apply dims_ses].
      + rewrite (stk_at f fs 0 _ k g t); cbn [nth length]; auto; try lia; [rewrite (wf_vs f Hf); cbn; lia|apply dims_vs].
      + rewrite (stk_at f fs 0 _ k g t); cbn [nth length]; auto; try lia; [rewrite (wf_all_thetas f Hf); cbn; lia|apply dims_ath].
      + rewrite (stk_at f fs 0 _ k g t); cbn [nth length]; auto; try lia; [rewrite (wf_all_ses f Hf); cbn; lia|apply dims_ases].
      + rewrite (stk_at f fs 1 _ k g t); cbn [nth length]; auto; try lia; [rewrite (wf_psi f Hf); cbn; lia|apply dims_psi].
    - intros (g & Hg & E). cbn. unfold concat_sens. destruct sens_cases as [[S1 S2]|[S1 S2]]; [|rewrite S2; reflexivity].
      exfalso. apply (S1 g Hg E).
    - intro H. cbn. unfold concat_sens. destruct sens_cases as [[S1 S2]|[[g [S1 S3]] S2]]; [|exfalso; apply (H g S1 S3)].
      rewrite S2. cbn [map]. eexists. split; [reflexivity|]. cbn [se_max_bias se_psi_max_bias].
      intros k g e t Hk He Ht. assert (Eg : get_sens g = e) by (unfold get_sens; rewrite He; reflexivity).
      split; intros.
      + rewrite (stk_at f fs 1 _ k g t); cbn [nth length]; auto; try lia; [cbn; rewrite Eg; reflexivity| |].
        * destruct (sens_shape f (or_introl eq_refl) (S1 f (or_introl eq_refl))) as [-> _]. cbn; lia.
        * intros x Hx. unfold dim. destruct (sens_shape x Hx (S1 x Hx)) as [-> _]. reflexivity.
      + rewrite (stk_at f fs 1 _ k g t); cbn [nth length]; auto; try lia; [cbn; rewrite Eg; reflexivity| |].
        * destruct (sens_shape f (or_introl eq_refl) (S1 f (or_introl eq_refl))) as [_ ->]. cbn; lia.
        * intros x Hx. unfold dim. destruct (sens_shape x Hx (S1 x Hx)) as [_ ->]. reflexivity.
  Qed.
End Concat.

Lemma concat_ok fs : fs <> [] -> (forall g, In g fs -> fw_wf g /\ fw_cluster g = None) -> compat_all fs ->
  exists h, fw_concat (map OpFw fs) = Ok h /\ fw_wf h /\ concat_of fs h.
Proof.
  intros Hn H Hc. destruct fs as [|f fs]; [congruence|]. exists (concat_result f fs).
  destruct (concat_fw_ok f fs (fun g Hg => proj1 (H g Hg)) Hc (fun g Hg => proj2 (H g Hg))) as [A B].
  split; [exact A|]. split; [exact B|]. apply concat_result_of; [|exact Hc]. intros g Hg; apply H; exact Hg.
Qed.

(** A stacking is determined by its blocks. *)
Lemma concat_unique fs h1 h2 : fs <> [] -> fw_wf h1 -> fw_wf h2 -> concat_of fs h1 -> concat_of fs h2 -> fw_obs_eq h1 h2.
Proof.
  intros Hn W1 W2 C1 C2. destruct fs as [|f0 fs0]; [congruence|]. set (fs := f0 :: fs0) in *.
  assert (No : fw_n_obs h1 = fw_n_obs h2 /\ fw_n_rep h1 = fw_n_rep h2).
  { destruct (co_dims _ _ C1 f0 (or_introl eq_refl)) as [-> ->]. destruct (co_dims _ _ C2 f0 (or_introl eq_refl)) as [-> ->]. auto. }
  destruct No as [No Nr].
  assert (Nt : fw_n_thetas h1 = fw_n_thetas h2) by (rewrite (co_n_thetas _ _ C1), (co_n_thetas _ _ C2); reflexivity).
  assert (V : forall t, t < fw_n_thetas h1 ->
     at_ (fw_thetas h1) [t] = at_ (fw_thetas h2) [t] /\ at_ (fw_ses h1) [t] = at_ (fw_ses h2) [t] /\
     at_ (fw_vs h1) [t] = at_ (fw_vs h2) [t] /\ (forall r, at_ (fw_all_thetas h1) [t; r] = at_ (fw_all_thetas h2) [t; r]) /\
     (forall r, at_ (fw_all_ses h1) [t; r] = at_ (fw_all_ses h2) [t; r]) /\
     (forall i r, at_ (fw_scaled_psi h1) [i; t; r] = at_ (fw_scaled_psi h2) [i; t; r])).
  { intros t Ht. rewrite (co_n_thetas _ _ C1) in Ht. destruct (fw_block_lt fs t Ht) as (k & g & s & A & B & ->).
    destruct (co_vals _ _ C1 k g s A B) as (P1 & P2 & P3 & P4 & P5 & P6).
    destruct (co_vals _ _ C2 k g s A B) as (Q1 & Q2 & Q3 & Q4 & Q5 & Q6).
    repeat split; intros; congruence. }
  unfold fw_obs_eq. repeat (split; [assumption|]).
  split; [eapply nd_eq1; [apply (wf_thetas h1 W1)|rewrite Nt; apply (wf_thetas h2 W2)|intros; apply V; assumption]|].
  split; [eapply nd_eq1; [apply (wf_ses h1 W1)|rewrite Nt; apply (wf_ses h2 W2)|intros; apply V; assumption]|].
  split; [eapply nd_eq2; [apply (wf_all_thetas h1 W1)|rewrite Nt, Nr; apply (wf_all_thetas h2 W2)|intros; apply V; assumption]|].
  split; [eapply nd_eq2; [apply (wf_all_ses h1 W1)|rewrite Nt, Nr; apply (wf_all_ses h2 W2)|intros; apply V; assumption]|].
  split; [eapply nd_eq1; [apply (wf_vs h1 W1)|rewrite Nt; apply (wf_vs h2 W2)|intros; apply V; assumption]|].
  split; [eapply nd_eq3; [apply (wf_psi h1 W1)|rewrite No, Nt, Nr; apply (wf_psi h2 W2)|intros; apply V; assumption]|].
  split; [rewrite (co_names _ _ C1), (co_names _ _ C2); reflexivity|].
  destruct (all_some_dec fw_sens get_sens fs) as [[S1 _]|[S1 _]].
  { intros x y H. unfold get_sens. rewrite H. reflexivity. }
  - destruct (co_sens _ _ C1 S1) as (a & Ea & Va). destruct (co_sens _ _ C2 S1) as (b & Eb & Vb). rewrite Ea, Eb.
    destruct (wf_sens h1 W1 a Ea) as (A1 & A2 & _). destruct (wf_sens h2 W2 b Eb) as (B1 & B2 & _). split.
    + eapply nd_eq3; [exact A1|rewrite Nt, Nr; exact B1|]. intros i t r Hi Ht Hr. assert (i = 0) as -> by lia.
      rewrite (co_n_thetas _ _ C1) in Ht. destruct (fw_block_lt fs t Ht) as (k & g & s & A & B & ->).
      assert (Hg : In g fs) by (eapply nth_error_In; exact A).
      rewrite (proj1 (Va k g _ s A (get_sens_eq g (S1 g Hg)) B)). rewrite (proj1 (Vb k g _ s A (get_sens_eq g (S1 g Hg)) B)). reflexivity.
    + eapply nd_eq3; [exact A2|rewrite No, Nt, Nr; exact B2|]. intros i t r Hi Ht Hr.
      rewrite (co_n_thetas _ _ C1) in Ht. destruct (fw_block_lt fs t Ht) as (k & g & s & A & B & ->).
      assert (Hg : In g fs) by (eapply nth_error_In; exact A).
      rewrite (proj2 (Va k g _ s A (get_sens_eq g (S1 g Hg)) B)). rewrite (proj2 (Vb k g _ s A (get_sens_eq g (S1 g Hg)) B)). reflexivity.
  - rewrite (co_sens_none _ _ C1 S1), (co_sens_none _ _ C2 S1). exact I.
Qed.

(** Associativity. *)
Lemma concat_of_app l1 l2 h1 h2 h : l1 <> [] -> l2 <> [] -> concat_of l1 h1 -> concat_of l2 h2 -> concat_of [h1; h2] h -> concat_of (l1 ++ l2) h.
Proof.
  intros N1 N2 C1 C2 C.
  assert (B1 : block [h1; h2] 0 = 0) by reflexivity.
  assert (B2 : block [h1; h2] 1 = list_sum (map fw_n_thetas l1)) by (unfold block; cbn; rewrite (co_n_thetas _ _ C1); lia).
  assert (Lk : forall k g, nth_error (l1 ++ l2) k = Some g ->
     (nth_error l1 k = Some g /\ block (l1 ++ l2) k = block l1 k) \/
     (exists k', nth_error l2 k' = Some g /\ block (l1 ++ l2) k = list_sum (map fw_n_thetas l1) + block l2 k')).
  { intros k g Hk. destruct (Nat.lt_ge_cases k (length l1)) as [H|H].
    - left. rewrite nth_error_app1 in Hk by exact H. split; [exact Hk|]. unfold block. rewrite firstn_app.
      replace (k - length l1) with 0 by lia. cbn. rewrite app_nil_r. reflexivity.
    - right. rewrite nth_error_app2 in Hk by exact H. exists (k - length l1). split; [exact Hk|].
      unfold block. rewrite firstn_app, firstn_all2, map_app, list_sum_app by lia. reflexivity. }
  assert (Bd : forall l h0 k g s, concat_of l h0 -> nth_error l k = Some g -> s < fw_n_thetas g -> block l k + s < fw_n_thetas h0).
  { intros l h0 k g s Ch Hk Hs. rewrite (co_n_thetas _ _ Ch). unfold block. rewrite <- (firstn_skipn k l) at 2.
    rewrite map_app, list_sum_app. assert (skipn k l = g :: skipn (S k) l) as ->.
    { clear -Hk. revert k Hk. induction l; intros [|k] Hk; cbn in *; try discriminate; [congruence|apply IHl; exact Hk]. }
    cbn. lia. }
  constructor.
  - rewrite (co_n_thetas _ _ C). cbn. rewrite (co_n_thetas _ _ C1), (co_n_thetas _ _ C2), map_app, list_sum_app. lia.
  - intros f Hf. apply in_app_or in Hf. destruct Hf as [Hf|Hf].
    + destruct (co_dims _ _ C h1 (or_introl eq_refl)) as [-> ->]. apply (co_dims _ _ C1 f Hf).
    + destruct (co_dims _ _ C h2 (or_intror (or_introl eq_refl))) as [-> ->]. apply (co_dims _ _ C2 f Hf).
  - intros k g s Hk Hs. destruct (Lk k g Hk) as [[Hk' ->]|(k' & Hk' & ->)].
    + destruct (co_vals _ _ C1 k g s Hk' Hs) as (P1 & P2 & P3 & P4 & P5 & P6).
      destruct (co_vals _ _ C 0 h1 (block l1 k + s) eq_refl (Bd _ _ _ _ _ C1 Hk' Hs)) as (Q1 & Q2 & Q3 & Q4 & Q5 & Q6).
      rewrite B1 in *. cbn [Nat.add] in *. repeat split; intros; congruence.
    + destruct (co_vals _ _ C2 k' g s Hk' Hs) as (P1 & P2 & P3 & P4 & P5 & P6).
      destruct (co_vals _ _ C 1 h2 (block l2 k' + s) eq_refl (Bd _ _ _ _ _ C2 Hk' Hs)) as (Q1 & Q2 & Q3 & Q4 & Q5 & Q6).
      rewrite B2 in *. rewrite Nat.add_assoc in *. repeat split; intros; congruence.
  - intros (g & Hg & E). apply (co_sens_none _ _ C). apply in_app_or in Hg. destruct Hg as [Hg|Hg].
    + exists h1. split; [left; reflexivity|]. apply (co_sens_none _ _ C1). eauto.
    + exists h2. split; [right; left; reflexivity|]. apply (co_sens_none _ _ C2). eauto.
  - intro H. destruct (co_sens _ _ C1) as (s1 & E1 & V1); [intros; apply H; apply in_or_app; auto|].
    destruct (co_sens _ _ C2) as (s2 & E2 & V2); [intros; apply H; apply in_or_app; auto|].
    destruct (co_sens _ _ C) as (s & E & V); [intros f [<-|[<-|[]]]; congruence|].
    exists s. split; [exact E|]. intros k g e t Hk He Ht. destruct (Lk k g Hk) as [[Hk' ->]|(k' & Hk' & ->)].
    + destruct (V1 k g e t Hk' He Ht) as [P1 P2].
      destruct (V 0 h1 s1 (block l1 k + t) eq_refl E1 (Bd _ _ _ _ _ C1 Hk' Ht)) as [Q1 Q2].
      rewrite B1 in *. cbn [Nat.add] in *. split; intros; congruence.
    + destruct (V2 k' g e t Hk' He Ht) as [P1 P2].
      destruct (V 1 h2 s2 (block l2 k' + t) eq_refl E2 (Bd _ _ _ _ _ C2 Hk' Ht)) as [Q1 Q2].
      rewrite B2 in *. rewrite Nat.add_assoc in *. split; intros; congruence.
  - apply (co_names _ _ C).
  - apply (co_cluster _ _ C).
Qed.

Lemma concat_assoc l1 l2 : l1 <> [] -> l2 <> [] -> (forall g, In g (l1 ++ l2) -> fw_wf g /\ fw_cluster g = None) -> compat_all (l1 ++ l2) ->
  exists h1 h2 h h', fw_concat (map OpFw l1) = Ok h1 /\ fw_concat (map OpFw l2) = Ok h2 /\
    fw_concat [OpFw h1; OpFw h2] = Ok h /\ fw_concat (map OpFw (l1 ++ l2)) = Ok h' /\ fw_obs_eq h h'.
Proof.
  intros N1 N2 H Hc.
  destruct (concat_ok l1 N1) as (h1 & A1 & W1 & C1); [intros; apply H, in_or_app; auto|intros a b Ha Hb; apply Hc; apply in_or_app; auto|].
  destruct (concat_ok l2 N2) as (h2 & A2 & W2 & C2); [intros; apply H, in_or_app; auto|intros a b Ha Hb; apply Hc; apply in_or_app; auto|].
  assert (D : fw_n_obs h1 = fw_n_obs h2 /\ fw_n_rep h1 = fw_n_rep h2).
  { destruct l1 as [|f1 l1]; [congruence|]. destruct l2 as [|f2 l2]; [congruence|].
    destruct (co_dims _ _ C1 f1 (or_introl eq_refl)) as [-> ->]. destruct (co_dims _ _ C2 f2 (or_introl eq_refl)) as [-> ->].
    apply Hc; apply in_or_app; [left|right]; left; reflexivity. }
  destruct (concat_ok [h1; h2]) as (h & A & W & C).
  { discriminate. }
  { intros g [<-|[<-|[]]]; split; auto; [apply (co_cluster _ _ C1)|apply (co_cluster _ _ C2)]. }
  { intros a b [<-|[<-|[]]] [<-|[<-|[]]]; destruct D; split; congruence. }
  destruct (concat_ok (l1 ++ l2)) as (h' & A' & W' & C').
  { destruct l1; [congruence|discriminate]. }
  { exact H. }
  { exact Hc. }
  exists h1, h2, h, h'. repeat (split; [assumption|]).
  eapply concat_unique; [|exact W|exact W'| |exact C'].
  - destruct l1; [congruence|discriminate].
  - eapply concat_of_app; [exact N1|exact N2|exact C1|exact C2|exact C].
Qed.

(** Rejections. *)
Lemma concat_inv objs h : fw_concat objs = Ok h ->
  exists fs, objs = map OpFw fs /\ fs <> [] /\ compat_all fs /\ (forall g, In g fs -> fw_cluster g = None /\ check_framework_shapes g = Ok tt).
Proof.
  unfold fw_concat. destruct objs as [|o objs]; [discriminate|]. intro H.
  destruct (all_some (map _ (o :: objs))) as [[|f fs]|] eqn:E; try discriminate.
  apply all_some_ok in E.
  assert (Eo : o :: objs = map OpFw (f :: fs)).
  { clear H. revert E. generalize (o :: objs) (f :: fs). induction l as [|x l IH]; intros [|y k] E; cbn in E; try discriminate; [reflexivity|].
    injection E as E1 E2. destruct x; [|discriminate]. injection E1 as ->. cbn. f_equal. apply IH. exact E2. }
  inv_ok.
  match goal with Ha : all_ok check_framework_shapes _ = _ |- _ => pose proof (proj1 (all_ok_forall _ _ _) Ha) as HA end.
  match goal with Ha : all_ok (fun g => check_compat _ _ _) _ = _ |- _ => pose proof (proj1 (all_ok_forall _ _ _) Ha) as HB end.
  match goal with Ha : negb _ = true |- _ => apply negb_true_iff in Ha end.
  exists (f :: fs). split; [exact Eo|]. split; [discriminate|].
  assert (D : forall g, In g (f :: fs) -> fw_n_obs f = fw_n_obs g /\ fw_n_rep f = fw_n_rep g).
  { intros g [<-|Hg]; [auto|]. specialize (HB g Hg). apply compat_ok in HB. tauto. }
  split.
  - intros u v Hu Hv. destruct (D u Hu) as [A1 A2], (D v Hv) as [B1 B2]. split; congruence.
  - intros g Hg. split; [|apply HA; exact Hg].
    destruct (fw_cluster g) as [c|] eqn:Ec; [|reflexivity].
    match goal with Hd : existsb _ _ = false |- _ => rewrite <- not_true_iff_false in Hd; exfalso; apply Hd end.
    apply existsb_exists. exists g. rewrite Ec. auto.
Qed.

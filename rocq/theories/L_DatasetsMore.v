(** Simulated data: clustered, difference-in-differences and heterogeneous data. *)
From Verif Require Export L_DatasetsModels.
From Coq Require Import Lia Lra.
Local Open Scope R_scope.
Local Open Scope string_scope.

(** ** make_pliv_multiway_cluster_CKMS2021 *)
Section Multiway.
  Lemma nth_rows {A} (L : nat -> list A) (q : A) m : (forall i, length (L i) = m) -> forall n a r, (r < n * m)%nat ->
    nth r (flat_map L (seq a n)) q = nth (r mod m) (L (a + r / m)%nat) q.
  Proof.
    intros Len. induction n as [|n IH]; intros a r Hr; [lia|]. assert (Hm : m <> 0%nat) by (destruct m; lia). cbn [seq flat_map].
    destruct (Nat.lt_ge_cases r m) as [L1|L1].
    - rewrite app_nth1 by (rewrite Len; exact L1). rewrite Nat.mod_small, Nat.div_small by exact L1. now rewrite Nat.add_0_r.
    - rewrite app_nth2 by (rewrite Len; exact L1). rewrite Len, IH by lia.
      replace r with ((r - m) + 1 * m)%nat at 3 4 by lia. rewrite Nat.mod_add, Nat.div_add by exact Hm. f_equal. f_equal. lia.
  Qed.
  Lemma repeat_at {A} (v : nat -> A) q n m r : (r < n * m)%nat -> nth r (np_repeat v n m) q = v (r / m)%nat.
  Proof.
    intro H. unfold np_repeat. rewrite (nth_rows (fun i => repeat (v i) m) q m) by (try exact H; intro; apply repeat_length).
    rewrite nth_repeat_lt || idtac. assert (Hm : m <> 0%nat) by (destruct m; lia). assert (K : (r mod m < m)%nat) by now apply Nat.mod_upper_bound.
    revert K. generalize (r mod m)%nat. cbn [Nat.add]. generalize (v (r / m)%nat). clear. intros a k. revert k. induction m as [|m IH]; intros [|k] K; cbn; try lia; [reflexivity|]. apply IH. lia.
  Qed.
  Lemma tile_at {A} (v : nat -> A) q n m r : (r < n * m)%nat -> nth r (np_tile v m n) q = v (r mod m)%nat.
  Proof.
    intro H. unfold np_tile. assert (E : forall a, concat (repeat (map v (seq 0 m)) n) = flat_map (fun _ => map v (seq 0 m)) (seq a n)).
    { clear. induction n as [|n IH]; intro a; [reflexivity|]. cbn [repeat concat seq flat_map]. now rewrite (IH (S a)). }
    rewrite (E 0%nat), (nth_rows (fun _ => map v (seq 0 m)) q m) by (try exact H; intro; now rewrite map_length, seq_length).
    assert (Hm : m <> 0%nat) by (destruct m; lia). assert (K : (r mod m < m)%nat) by now apply Nat.mod_upper_bound.
    rewrite (nth_indep _ q (v 0%nat)) by (now rewrite map_length, seq_length). rewrite map_nth, seq_nth by exact K. reflexivity.
  Qed.
  Lemma product_at n m r : (r < n * m)%nat -> nth r (from_product n m) (0%nat, 0%nat) = (r / m, r mod m)%nat.
  Proof.
    intro H. unfold from_product. rewrite (nth_rows (fun i => map (fun j => (i, j)) (seq 0 m)) _ m) by (try exact H; intro; now rewrite map_length, seq_length).
    assert (Hm : m <> 0%nat) by (destruct m; lia). assert (K : (r mod m < m)%nat) by now apply Nat.mod_upper_bound. cbn [Nat.add].
    rewrite (nth_indep _ _ ((r / m)%nat, 0%nat)) by (now rewrite map_length, seq_length).
    rewrite (map_nth (fun j => ((r / m)%nat, j)) (seq 0 m) 0%nat), seq_nth by exact K. reflexivity.
  Qed.
  Lemma cells_product n m : cells n m (fun r => r / m)%nat (fun r => r mod m)%nat.
  Proof.
    split.
    - intros r Hr. assert (Hm : m <> 0%nat) by (destruct m; lia). split; [apply Nat.div_lt_upper_bound; lia|now apply Nat.mod_upper_bound].
    - intros i j Hi Hj. exists (i * m + j)%nat. split.
      + split; [nia|]. split; [rewrite Nat.div_add_l by lia; rewrite Nat.div_small by exact Hj; lia|rewrite Nat.add_comm, Nat.mod_add by lia; now apply Nat.mod_small].
      + intros r (Hr & <- & <-). pose proof (Nat.div_mod r m). lia.
  Qed.

  Lemma cols_multi_nodup k ci cj x y d z : NoDup (map fst (cols_multi k ci cj x y d z)).
  Proof. unfold cols_multi. rewrite !map_app, !named_fst. cbn [map fst app]. nodup_names. Qed.
  Lemma multi_built n k ci cj x y d z : exists s, cluster_object (table n (cols_multi k ci cj x y d z)) "Y" "D" ["cluster_var_i"; "cluster_var_j"] (numbered "X" 1 k) (M_Data.CStr "Z") = Ok s /\
    S_Data.constructed (table n (cols_multi k ci cj x y d z)) s /\ M_Data.dd_roles s = roles_multi k.
  Proof.
    unfold roles_multi. rewrite !names_numbered. apply cluster_built.
    apply table_usable; [apply cols_multi_nodup| |unfold cols_multi; roles_in|discriminate].
    unfold S_Data.role_columns. cbn. nodup_names.
  Qed.
  Variables (n m k : nat) (theta : R) (pi10 : option R) (zeta0 pi20 xi0 : option vec) (ox oe ov oV : option (R * R)) (ret : ret_arg)
    (ax : cluster_parts (nat -> R)) (aeps av aV : cluster_parts R).
  Notation run := (make_multiway n m k theta pi10 zeta0 pi20 xi0 ox oe ov oV ret ax aeps av aV).
  Lemma multiway_simulated o : run = Ok o ->
    exists (ci cj : nat -> nat) (vi vj : vec) x y d z, cells n m ci cj /\ (forall r, (r < n * m)%nat -> vi r = INR (ci r) /\ vj r = INR (cj r)) /\
      returned ret asks_cluster (n * m) (arrays_multi (n * m) k x y d vi vj z) (cols_multi k vi vj x y d z) (roles_multi k) o /\
      multiway_model n m k theta (kw pi10 1) (kw_vec zeta0 (fun j => 0.5 ^ S j)) (kw_vec pi20 (fun j => 0.5 ^ S j)) (kw_vec xi0 (fun j => 0.5 ^ S j))
        (kw_pair ox) (kw_pair oe) (kw_pair ov) (kw_pair oV) ax aeps av aV ci cj x y d z.
  Proof.
    unfold make_multiway. intro H. cbv zeta in H. exists (fun r => r / m)%nat, (fun r => r mod m)%nat. do 6 eexists. split; [apply cells_product|]. split; [|split].
    2:{ rewrite block_named in H. revert H. apply deliver_returned;
          [apply cluster_iff|apply arrays_cluster|apply frame_cluster|apply cols_multi_nodup|apply multi_built]. }
    - intros r Hr. cbn beta. rewrite (product_at n m r Hr). split; reflexivity.
    - assert (Hv : forall (o0 : option vec) x0 r, dot k x0 (kw_vec o0 halves) r = inner k x0 (kw_vec o0 (fun j => 0.5 ^ S j)) r).
      { intros o0 x0 r. apply dot_inner. intros j _. destruct o0; [reflexivity|]. cbn [kw_vec]. unfold halves. now replace (5 / 10) with 0.5 by lra. }
      intros r Hr. cbv beta. rewrite !Hv, !repeat_at, !tile_at by exact Hr. unfold mix, blend. repeat split; reflexivity.
  Qed.
  Lemma multiway_simulates : (exists o, run = Ok o) <-> asks_arrays ret \/ asks_frame ret \/ asks_cluster ret.
  Proof.
    unfold make_multiway. cbv zeta. rewrite block_named. apply (deliver_iff ret cluster_alias asks_cluster (cluster_iff ret) (n * m) _ (cols_multi k _ _ _ _ _ _) (roles_multi k)). apply multi_built.
  Qed.
  Lemma multiway_refused e : run = Err e -> e = ValueError.
  Proof. unfold make_multiway. cbv zeta. rewrite block_named. apply (deliver_error ret cluster_alias asks_cluster (cluster_iff ret) (n * m) _ (cols_multi k _ _ _ _ _ _) (roles_multi k)). apply multi_built. Qed.
End Multiway.

(** ** make_did_SZ2020 *)
Section Did.
  Lemma cols_did_nodup z y d : NoDup (map fst (cols_did z y d)).
  Proof. apply L_Data.distinct_iff. reflexivity. Qed.
  Lemma cols_cs_nodup z y d t : NoDup (map fst (cols_cs z y d t)).
  Proof. apply L_Data.distinct_iff. reflexivity. Qed.
  Lemma did_built n z y d : exists s, data_object (table n (cols_did z y d)) "y" "d" (numbered "Z" 1 4) M_Data.CNone M_Data.CNone M_Data.CNone = Ok s /\
    S_Data.constructed (table n (cols_did z y d)) s /\ M_Data.dd_roles s = roles_did.
  Proof.
    apply object_built; [|left; reflexivity|reflexivity|reflexivity].
    apply table_usable; [apply cols_did_nodup|apply L_Data.distinct_iff; reflexivity|apply L_Data.subset_iff; reflexivity|discriminate].
  Qed.
  Lemma cs_built n z y d t : exists s, data_object (table n (cols_cs z y d t)) "y" "d" (numbered "Z" 1 4) M_Data.CNone (M_Data.CStr "t") M_Data.CNone = Ok s /\
    S_Data.constructed (table n (cols_cs z y d t)) s /\ M_Data.dd_roles s = roles_cs.
  Proof.
    apply object_built; [|left; reflexivity|reflexivity|reflexivity].
    apply table_usable; [apply cols_cs_nodup|apply L_Data.distinct_iff; reflexivity|apply L_Data.subset_iff; reflexivity|discriminate].
  Qed.
  Lemma f_reg_eq w i : f_reg w i = regression w i.
  Proof. unfold f_reg, regression. lra. Qed.
  Lemma f_ps_eq xi w i : f_ps xi w i = xi * index4 w i.
  Proof. unfold f_ps, index4. f_equal; lra. Qed.
  Lemma did_features_eq dgp x z : did_features dgp x z = match dgp_features dgp x z with Some (r, p) => Ok (p, r) | None => Err ValueError end.
  Proof.
    unfold did_features, dgp_features.
    destruct (Z.eqb_spec dgp 1) as [->|N1]; [reflexivity|]. destruct (Z.eqb_spec dgp 2) as [->|N2]; [reflexivity|]. destruct (Z.eqb_spec dgp 3) as [->|N3]; [reflexivity|].
    destruct (Z.eqb_spec dgp 4) as [->|N4]; [reflexivity|]. destruct (Z.eqb_spec dgp 5) as [->|N5]; [reflexivity|]. destruct (Z.eqb_spec dgp 6) as [->|N6]; [reflexivity|].
    destruct dgp as [|[[[p|p|]|[p|p|]|]|[[p|p|]|[p|p|]|]|]|p]; try reflexivity; exfalso; lia.
  Qed.
  Variables (n : nat) (dgp : Z) (cross : bool) (xi lambda_t : option R) (ret : ret_arg) (x : mat) (eps0 : vec) (eps1 : mat) (u nu u_t : vec).
  Notation run := (make_did n dgp cross xi lambda_t ret x eps0 eps1 u nu u_t).
  Lemma did_simulated o : (forall j, (j < 4)%nat -> varied n x j) -> run = Ok o ->
    exists z w_reg w_ps d y0 y1, dgp_features dgp x z = Some (w_reg, w_ps) /\ (forall j, (j < 4)%nat -> standardised n x z j) /\
      did_model n (kw xi 0.75) w_reg w_ps eps0 eps1 u nu d y0 y1 /\ did_outcome n cross lambda_t ret u_t o z d y0 y1.
  Proof.
    intros _. unfold make_did. cbv zeta. rewrite did_features_eq. destruct (dgp_features dgp x (z_of n x)) as [[r p]|] eqn:F; cbn [bind fst snd]; [|discriminate].
    set (d := fun i => ge01 match p with Some w => expit (f_ps (kw xi (75 / 100)) w i) | None => 5 / 10 end (u i)).
    assert (D01 : forall i, d i = 0 \/ d i = 1) by (intro i; exact (indicator_01 _ _ (ge01_indicator _ _))).
    set (reg := f_reg r). set (y0 := fun i => reg i + (d i * reg i + nu i) + eps0 i).
    set (y1 := fun (a : nat) i => 2 * reg i + (d i * reg i + nu i) + eps1 i a).
    assert (Y1 : forall i, d i * (2 * reg i + (d i * reg i + nu i) + eps1 i 1%nat) + (1 - d i) * (2 * reg i + (d i * reg i + nu i) + eps1 i 0%nat) = y1 (arm_of (d i)) i).
    { intro i. unfold arm_of, y1. destruct (D01 i) as [->| ->]; [destruct (Req_EM_T 0 1); [lra|]|destruct (Req_EM_T 1 1); [|lra]]; ring. }
    intro H. exists (z_of n x), r, p, d, y0, y1. split; [exact F|]. split; [intros j _; apply z_standardised|]. split.
    - intros i _. split; [|split; [unfold y0, reg; now rewrite f_reg_eq|intros a _; unfold y1, reg; now rewrite f_reg_eq]].
      unfold d. destruct p as [w|]; [rewrite f_ps_eq; replace (75 / 100) with 0.75 by lra; apply ge01_indicator|]. replace (5 / 10) with (1 / 2) by lra. apply ge01_indicator.
    - unfold did_outcome. destruct cross.
      + eexists; eexists; split; [|].
        * rewrite block_named in H. revert H. apply deliver_returned; [apply data_iff|apply arrays_data|apply frame_data|apply cols_cs_nodup|apply cs_built].
        * intros i _. cbv beta. rewrite <- Y1. split; [|reflexivity]. eapply indicator_iff; [|apply ge01_indicator]. replace 0.5 with (5 / 10) by lra. split; intro; lra.
      + eexists; split; [|].
        * rewrite block_named in H. revert H. apply deliver_returned; [apply data_iff|apply arrays_data|apply frame_data|apply cols_did_nodup|apply did_built].
        * intros i _. cbv beta. rewrite <- Y1. reflexivity.
  Qed.
  Lemma did_simulates : (exists o, run = Ok o) <-> (1 <= dgp <= 6)%Z /\ (asks_arrays ret \/ asks_frame ret \/ asks_data ret).
  Proof.
    unfold make_did. cbv zeta. rewrite did_features_eq.
    assert (K : (exists rp, dgp_features dgp x (z_of n x) = Some rp) <-> (1 <= dgp <= 6)%Z).
    { unfold dgp_features. split; [intros (rp & Q)|intro Q].
      - destruct dgp as [|[[[p|p|]|[p|p|]|]|[[p|p|]|[p|p|]|]|]|p]; try discriminate; lia.
      - assert (C : (dgp = 1 \/ dgp = 2 \/ dgp = 3 \/ dgp = 4 \/ dgp = 5 \/ dgp = 6)%Z) by lia. destruct C as [->|[->|[->|[->|[->| ->]]]]]; eexists; reflexivity. }
    destruct (dgp_features dgp x (z_of n x)) as [[r p]|] eqn:F; cbn [bind fst snd].
    2:{ split; [intros (o & Q); discriminate|]. intros (Q & _). apply K in Q as (rp & Q). discriminate. }
    assert (Q : (1 <= dgp <= 6)%Z) by (apply K; eauto). rewrite block_named. destruct cross.
    - transitivity (asks_arrays ret \/ asks_frame ret \/ asks_data ret); [apply (deliver_iff ret data_alias asks_data (data_iff ret) n _ (cols_cs _ _ _ _) roles_cs); apply cs_built|tauto].
    - transitivity (asks_arrays ret \/ asks_frame ret \/ asks_data ret); [apply (deliver_iff ret data_alias asks_data (data_iff ret) n _ (cols_did _ _ _) roles_did); apply did_built|tauto].
  Qed.
  Lemma did_refused e : run = Err e -> e = ValueError.
  Proof.
    unfold make_did. cbv zeta. rewrite did_features_eq. destruct (dgp_features dgp x (z_of n x)) as [[r p]|]; cbn [bind fst snd]; [|congruence]. destruct cross; rewrite block_named.
    - apply (deliver_error ret data_alias asks_data (data_iff ret) n _ (cols_cs _ _ _ _) roles_cs); apply cs_built.
    - apply (deliver_error ret data_alias asks_data (data_iff ret) n _ (cols_did _ _ _) roles_did); apply did_built.
  Qed.
End Did.

(** ** make_heterogeneous_data *)
Section Heterogeneous.
  Fixpoint coef_at (l : list (nat * R)) (j : nat) : R :=
    match l with [] => 0 | (s, c) :: r => if Nat.eqb j s then c else coef_at r j end.
  Lemma coef_out l j : ~ In j (map fst l) -> coef_at l j = 0.
  Proof. induction l as [|[s c] l IH]; cbn; [easy|]. intro H. destruct (Nat.eqb_spec j s); [subst; tauto|]. apply IH. tauto. Qed.
  Lemma coef_in l k : NoDup (map fst l) -> (k < length l)%nat -> coef_at l (fst (nth k l (0%nat, 0))) = snd (nth k l (0%nat, 0)).
  Proof.
    revert k. induction l as [|[s c] l IH]; intros k N H; [cbn in H; lia|]. inversion N as [|? ? N1 N2]; subst. destruct k as [|k]; cbn [nth fst snd coef_at].
    - now rewrite Nat.eqb_refl.
    - cbn [length] in H. destruct (Nat.eqb_spec (fst (nth k l (0%nat, 0))) s) as [E|E]; [|apply IH; [exact N2|lia]].
      exfalso. apply N1. rewrite <- E. apply in_map, nth_In. lia.
  Qed.
  Lemma pick p (v : nat -> R) s : (s < p)%nat -> sumf p (fun j => if Nat.eqb j s then v j else 0) = v s.
  Proof.
    intro H. assert (G : forall q, sumf q (fun j => if Nat.eqb j s then v j else 0) = if (s <? q)%nat then v s else 0).
    { induction q as [|q IH]; [reflexivity|]. rewrite sumf_S, IH. destruct (Nat.ltb_spec s q), (Nat.ltb_spec s (S q)), (Nat.eqb_spec q s); try lia; subst; ring. }
    rewrite G. destruct (Nat.ltb_spec s p); [reflexivity|lia].
  Qed.
  Lemma sparse_inner p l (x : mat) i : NoDup (map fst l) -> (forall s, In s (map fst l) -> (s < p)%nat) ->
    inner p x (coef_at l) i = Rsum (map (fun sc => x i (fst sc) * snd sc) l).
  Proof.
    induction l as [|[s c] l IH]; intros N H; [unfold inner; cbn [coef_at map Rsum]; apply sumf_zero; intros; ring|].
    inversion N as [|? ? N1 N2]; subst. cbn [map Rsum fst snd]. rewrite <- IH by (auto; intros; apply H; now right).
    unfold inner. cbn [coef_at]. rewrite <- (pick p (fun j => x i j * c) s) by (apply H; now left). rewrite <- sumf_plus. apply sumf_ext. intros j _.
    destruct (Nat.eqb_spec j s) as [->|]; [rewrite coef_out by exact N1|]; ring.
  Qed.
  Lemma combine_fst (l : list nat) (c : list R) : length c = length l -> map fst (combine l c) = l.
  Proof. revert c. induction l as [|a l IH]; intros [|b c] H; cbn in *; try discriminate; [reflexivity|]. f_equal. apply IH. lia. Qed.
  Lemma coef_sparse support coefs : NoDup support -> length coefs = length support -> sparse support coefs (coef_at (combine support coefs)).
  Proof.
    intros N L. split.
    - intros k Hk. pose proof (coef_in (combine support coefs) k) as C. rewrite combine_nth in C by (symmetry; exact L). cbn [fst snd] in C. apply C; [now rewrite combine_fst|rewrite combine_length; lia].
    - intros j H. apply coef_out. now rewrite combine_fst.
  Qed.
  Variables (n p support_size : nat) (n_x : Z) (binary : pyval) (support : list nat) (coefs_y coefs_d : list R) (eps eta : vec) (x : mat).
  Notation run := (make_heterogeneous n p support_size n_x binary support coefs_y coefs_d eps eta x).
  Hypothesis Su : NoDup support /\ length support = support_size /\ (forall s, In s support -> (s < p)%nat).
  Hypothesis Cy : length coefs_y = support_size.
  Hypothesis Cd : length coefs_d = support_size.
  Lemma heterogeneous_simulated h : run = Ok h ->
    exists (b : bool) y d gamma0 beta0, binary = PBool b /\
      holds n ([("y", y); ("d", d)] ++ map (fun j => ("X_" ++ decimal j, fun i => x i j)) (seq 0 p)) (h_data h) /\
      (forall v, h_effect h v = if (n_x =? 1)%Z then effect_1 v else effect_2 v) /\
      (forall i, (i < n)%nat -> h_effects h i = h_effect h (x i)) /\
      sparse support coefs_y gamma0 /\ sparse support coefs_d beta0 /\
      heterogeneous_model n p b (h_effect h) gamma0 beta0 eps eta x y d.
  Proof.
    destruct Su as (N & L & I). unfold make_heterogeneous.
    destruct ((n_x =? 1) || (n_x =? 2))%Z eqn:Q; cbn [require]; [|discriminate]. destruct (Nat.leb support_size p); cbn [require]; [|discriminate].
    destruct (is_bool binary) eqn:B; cbn [require]; [|discriminate]. destruct (Z.ltb _ _); cbn [require]; [|discriminate]. cbv zeta. intro H. injection H as <-. cbn [h_data h_effects h_effect].
    destruct binary as [| |b| | | |]; try discriminate. exists b. do 2 eexists. exists (coef_at (combine support coefs_y)), (coef_at (combine support coefs_d)).
    split; [reflexivity|]. split; [|split; [|split; [|split; [|split]]]].
    - rewrite block_named0. apply table_holds. cbn [map fst app]. rewrite map_map. cbn [fst]. change (map (fun j => "X_" ++ decimal j) (seq 0 p)) with (numbered "X_" 0 p). nodup_names.
    - intro v. unfold te_fun, effect_1, effect_2. destruct (n_x =? 1)%Z; reflexivity.
    - reflexivity.
    - apply coef_sparse; [exact N|congruence].
    - apply coef_sparse; [exact N|congruence].
    - intros i _. rewrite !sparse_inner by (rewrite ?combine_fst; auto; congruence). cbv beta. unfold sparse_dot. split; [|reflexivity].
      destruct b; [apply ge01_indicator|reflexivity].
  Qed.
  Lemma heterogeneous_simulates : (exists h, run = Ok h) <->
    (n_x = 1%Z \/ n_x = 2%Z) /\ (support_size <= p)%nat /\ (exists b, binary = PBool b) /\ (n_x <= Z.of_nat p)%Z.
  Proof.
    clear Su Cy Cd. unfold make_heterogeneous. destruct (Z.eqb_spec n_x 1) as [->|N1]; [|destruct (Z.eqb_spec n_x 2) as [->|N2]]; cbn [orb require Z.eqb Pos.eqb].
    3:{ split; [intros (h & Q); discriminate|tauto]. }
    all: destruct (Nat.leb_spec support_size p); cbn [require]; [|split; [intros (h & Q); discriminate|lia]].
    all: destruct (is_bool binary) eqn:B; cbn [require]; [|split; [intros (h & Q); discriminate|intros (_ & _ & (b & ->) & _); discriminate]].
    all: match goal with |- context[Z.ltb ?a ?b] => destruct (Z.ltb_spec a b) end; cbn [require].
    all: try (split; [intros (h & Q); discriminate|lia]).
    all: split; [intros _|intros _; eexists; reflexivity].
    all: split; [tauto|split; [assumption|split; [destruct binary as [| |b| | | |]; try discriminate; exists b; reflexivity|lia]]].
  Qed.
  Lemma heterogeneous_refused e : run = Err e -> e = AssertionError \/ e = IndexError.
  Proof.
    unfold make_heterogeneous. destruct (_ || _)%Z; cbn [require]; [|intro H; left; congruence]. destruct (Nat.leb support_size p); cbn [require]; [|intro H; left; congruence].
    destruct (is_bool binary); cbn [require]; [|intro H; left; congruence]. destruct (Z.ltb _ _); cbn [require]; [discriminate|intro H; right; congruence].
  Qed.
End Heterogeneous.

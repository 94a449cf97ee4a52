(** Simulated data: the generators that return arrays, data frames or data objects. *)
From Verif Require Export L_Datasets.
From Coq Require Import Lia Lra.
Local Open Scope R_scope.
Local Open Scope string_scope.

Ltac apart H :=
  cbn [In app map fst] in H; rewrite ?in_app_iff in H; cbn [In] in H;
  repeat (destruct H as [H|H]); try discriminate; try contradiction; try (apply numbered_starts in H as (?s & H); discriminate);
  try (symmetry in H; apply numbered_starts in H as (?s & H); discriminate).
Ltac nodup_names :=
  repeat first [ apply NoDup_nil | apply numbered_nodup
    | apply NoDup_cons; [let H := fresh in intro H; apart H|]
    | apply nodup_app; [ | |let c := fresh in let H := fresh in let K := fresh in intros c H K; apply numbered_starts in H as (?s & ->); apart K] ].
Ltac roles_in := let c := fresh in let H := fresh in intros c H; unfold S_Data.role_columns in H;
  cbn [M_Data.r_y M_Data.r_d M_Data.r_x M_Data.r_z M_Data.r_t M_Data.r_s M_Data.r_cl M_Data.optl M_Data.opt1] in H;
  rewrite ?map_app, ?named_fst; cbn [map fst]; rewrite ?in_app_iff in *; cbn [In] in *; rewrite ?in_app_iff in *; cbn [In] in *; tauto.

(** ** Roles over the usual columns *)
Section Usual.
  Variables (n k : nat) (x : mat) (y d : vec).
  Notation cols_xyd := (S_Datasets.cols_xyd k x y d).
  Notation roles_xyd := (S_Datasets.roles_xyd k).
  Lemma cols_xyd_nodup : NoDup (map fst cols_xyd).
  Proof. unfold cols_xyd. rewrite map_app, named_fst. cbn [map fst]. nodup_names. Qed.
  Lemma xyd_built : exists s, data_object (table n cols_xyd) "y" "d" (numbered "X" 1 k) M_Data.CNone M_Data.CNone M_Data.CNone = Ok s /\
    S_Data.constructed (table n cols_xyd) s /\ M_Data.dd_roles s = roles_xyd.
  Proof.
    unfold roles_xyd. rewrite names_numbered. apply object_built; [|left; reflexivity|reflexivity|reflexivity].
    apply table_usable; [exact cols_xyd_nodup| |unfold cols_xyd; roles_in|discriminate].
    unfold S_Data.role_columns. cbn. rewrite !app_nil_r. nodup_names.
  Qed.
  Variable z : vec.
  Notation cols_xydz := (S_Datasets.cols_xydz k x y d z).
  Notation roles_xydz := (S_Datasets.roles_xydz k).
  Lemma cols_xydz_nodup : NoDup (map fst cols_xydz).
  Proof. unfold cols_xydz. rewrite map_app, named_fst. cbn [map fst]. nodup_names. Qed.
  Lemma xydz_built : exists s, data_object (table n cols_xydz) "y" "d" (numbered "X" 1 k) (M_Data.CStr "z") M_Data.CNone M_Data.CNone = Ok s /\
    S_Data.constructed (table n cols_xydz) s /\ M_Data.dd_roles s = roles_xydz.
  Proof.
    unfold roles_xydz. rewrite names_numbered. apply object_built; [|right; exists "z"; split; reflexivity|reflexivity|reflexivity].
    apply table_usable; [exact cols_xydz_nodup| |unfold cols_xydz; roles_in|discriminate].
    unfold S_Data.role_columns. cbn. nodup_names.
  Qed.
End Usual.


(** ** make_plr_CCDDHNR2018 *)
Section Plr.
  Variables (n k : nat) (alpha : R) (a0 a1 s1 b0 b1 s2 : option R) (ret : ret_arg) (x : mat) (v zeta : vec).
  Notation run := (make_plr n k alpha a0 a1 s1 b0 b1 s2 ret x v zeta).
  Lemma plr_simulated o : run = Ok o ->
    exists y d, returned ret asks_data n (arrays_xyd n k x y d) (cols_xyd k x y d) (roles_xyd k) o /\
      plr_model n alpha (kw a0 1) (kw a1 0.25) (kw s1 1) (kw b0 1) (kw b1 0.25) (kw s2 1) x v zeta y d.
  Proof.
    unfold make_plr. destruct (Nat.ltb 2 k); cbn [require]; [|discriminate]. intro H. cbv zeta in H.
    eexists; eexists; split; [|].
    - rewrite block_named in H. revert H. apply deliver_returned;
        [apply data_iff|apply arrays_data|apply frame_data|apply cols_xyd_nodup|apply xyd_built].
    - intros i _. change (expit ?a) with (logistic a). split; [|]; unfold expit, logistic; replace 0.25 with (25 / 100) by lra; reflexivity.
  Qed.
  Lemma plr_simulates : (exists o, run = Ok o) <-> (3 <= k)%nat /\ (asks_arrays ret \/ asks_frame ret \/ asks_data ret).
  Proof.
    unfold make_plr. destruct (Nat.ltb_spec 2 k); cbn [require]; [|split; [intros (o & Q); discriminate|lia]]. cbv zeta. rewrite block_named.
    transitivity (asks_arrays ret \/ asks_frame ret \/ asks_data ret); [apply (deliver_iff ret data_alias asks_data (data_iff ret) n _ (cols_xyd k x _ _) (roles_xyd k)); apply xyd_built|]. split; [intro Q; split; [lia|exact Q]|tauto].
  Qed.
  Lemma plr_refused e : run = Err e -> e = if (k <? 3)%nat then IndexError else ValueError.
  Proof.
    unfold make_plr. destruct (Nat.ltb_spec 2 k), (Nat.ltb_spec k 3); try lia; cbn [require]; [|congruence]. cbv zeta. rewrite block_named.
    apply (deliver_error ret data_alias asks_data (data_iff ret) n _ (cols_xyd k x _ _) (roles_xyd k)). apply xyd_built.
  Qed.
End Plr.

(** ** make_plr_turrell2018 *)
Section Turrell.
  Variables (n k : nat) (theta : R) (nu gamma : option R) (ret : ret_arg) (x : mat) (v u : vec).
  Notation run := (make_turrell n k theta nu gamma ret x v u).
  Lemma turrell_simulated o : run = Ok o ->
    exists y d, returned ret asks_data n (arrays_xyd n k x y d) (cols_xyd k x y d) (roles_xyd k) o /\
      turrell_model n k theta (kw nu 0) (kw gamma 1) x v u y d.
  Proof.
    unfold make_turrell. intro H. cbv zeta in H. eexists; eexists; split; [|].
    - rewrite block_named in H. revert H. apply deliver_returned;
        [apply data_iff|apply arrays_data|apply frame_data|apply cols_xyd_nodup|apply xyd_built].
    - intros i _. cbv zeta. rewrite (dot_inner k x harmonic (fun j => / INR (S j))) by (intros; apply harmonic_eq).
      unfold m_turrell, g_turrell. split; [|now rewrite Rsqr_pow2].
      f_equal. unfold Rdiv. rewrite Rinv_mult. replace (5 * / 10) with (/ 2) by lra. ring.
  Qed.
  Lemma turrell_simulates : (exists o, run = Ok o) <-> asks_arrays ret \/ asks_frame ret \/ asks_data ret.
  Proof.
    unfold make_turrell. cbv zeta. rewrite block_named. apply (deliver_iff ret data_alias asks_data (data_iff ret) n _ (cols_xyd k x _ _) (roles_xyd k)). apply xyd_built.
  Qed.
  Lemma turrell_refused e : run = Err e -> e = ValueError.
  Proof. unfold make_turrell. cbv zeta. rewrite block_named. apply (deliver_error ret data_alias asks_data (data_iff ret) n _ (cols_xyd k x _ _) (roles_xyd k)). apply xyd_built. Qed.
End Turrell.

(** ** make_irm_data *)
Section Irm.
  Lemma toeplitz_eq j l : toeplitz (5 / 10) j l = (1 / 2) ^ (Nat.max j l - Nat.min j l).
  Proof. unfold toeplitz. replace (5 / 10) with (1 / 2) by lra. f_equal. destruct (Nat.leb_spec j l); lia. Qed.
  Lemma b_sigma_b_eq k : b_sigma_b k = sumf k (fun j => sumf k (fun l => / INR (S j) ^ 2 * (1 / 2) ^ (Nat.max j l - Nat.min j l) * / INR (S l) ^ 2)).
  Proof.
    unfold b_sigma_b. apply sumf_ext. intros j _. rewrite <- sumf_scal_r. apply sumf_ext. intros l _. rewrite toeplitz_eq, !squares_eq. ring.
  Qed.
  Lemma b_sigma_b_pos k : (0 < k)%nat -> 0 < b_sigma_b k.
  Proof.
    intro Hk. rewrite b_sigma_b_eq.
    assert (P : forall j l, 0 < / INR (S j) ^ 2 * (1 / 2) ^ (Nat.max j l - Nat.min j l) * / INR (S l) ^ 2).
    { intros j l. apply Rmult_lt_0_compat; [apply Rmult_lt_0_compat|]; try (apply Rinv_0_lt_compat, pow_lt, lt_0_INR; lia). apply pow_lt. lra. }
    assert (Q : forall j, 0 < sumf k (fun l => / INR (S j) ^ 2 * (1 / 2) ^ (Nat.max j l - Nat.min j l) * / INR (S l) ^ 2)).
    { intro j. apply sumf_pos; [intros; left; apply P|]. exists 0%nat. split; [exact Hk|apply P]. }
    apply sumf_pos; [intros; left; apply Q|]. exists 0%nat. split; [exact Hk|apply Q].
  Qed.
  Variables (n k : nat) (theta r2_d r2_y : R) (ret : ret_arg) (x : mat) (v zeta : vec).
  Notation run := (make_irm n k theta r2_d r2_y ret x v zeta).
  Lemma irm_simulated o : (0 < k)%nat -> 0 <= r2_d < 1 -> 0 <= r2_y < 1 -> run = Ok o ->
    exists y d, returned ret asks_data n (arrays_xyd n k x y d) (cols_xyd k x y d) (roles_xyd k) o /\ irm_model n k theta r2_d r2_y x v zeta y d.
  Proof.
    intros Hk Hd Hy. unfold make_irm. intro H. cbv zeta in H. eexists; eexists; split; [|].
    - rewrite block_named in H. revert H. apply deliver_returned;
        [apply data_iff|apply arrays_data|apply frame_data|apply cols_xyd_nodup|apply xyd_built].
    - exists (c_y k r2_y), (c_d k r2_d). cbv zeta. rewrite <- b_sigma_b_eq. pose proof (b_sigma_b_pos k Hk) as P. pose proof PI_RGT_0 as PP.
      assert (S1 : 0 < PI ^ 2) by (apply pow_lt; exact PP).
      split; [apply sqrt_pos|]. split; [apply sqrt_pos|]. split; [|split].
      + unfold c_y. rewrite pow2_sqrt; [field; lra|]. apply Rmult_le_pos; [lra|]. left. apply Rinv_0_lt_compat, Rmult_lt_0_compat; lra.
      + unfold c_d. rewrite pow2_sqrt; [|apply Rmult_le_pos; [apply Rmult_le_pos; lra|left; apply Rinv_0_lt_compat, Rmult_lt_0_compat; lra]].
        replace (PI ^ 2 / 3 * r2_d / ((1 - r2_d) * b_sigma_b k) * b_sigma_b k) with (PI ^ 2 / 3 * (r2_d / (1 - r2_d))) by (field; lra).
        replace (PI ^ 2 / 3 * (r2_d / (1 - r2_d)) + PI ^ 2 / 3) with (PI ^ 2 / 3 / (1 - r2_d)) by (field; lra). field. lra.
      + intros i _.
        assert (K : forall c, dot k x (fun j => squares j * c) i = c * inner k x (fun j => / INR (S j) ^ 2) i).
        { intro c. unfold dot, inner. rewrite <- sumf_scal. apply sumf_ext. intros j _. rewrite squares_eq. ring. }
        rewrite !K. split; [apply gt01_indicator|ring].
  Qed.
  Lemma irm_simulates : (exists o, run = Ok o) <-> asks_arrays ret \/ asks_frame ret \/ asks_data ret.
  Proof.
    unfold make_irm. cbv zeta. rewrite block_named. apply (deliver_iff ret data_alias asks_data (data_iff ret) n _ (cols_xyd k x _ _) (roles_xyd k)). apply xyd_built.
  Qed.
  Lemma irm_refused e : run = Err e -> e = ValueError.
  Proof. unfold make_irm. cbv zeta. rewrite block_named. apply (deliver_error ret data_alias asks_data (data_iff ret) n _ (cols_xyd k x _ _) (roles_xyd k)). apply xyd_built. Qed.
End Irm.

(** ** make_iivm_data *)
Section Iivm.
  Variables (n k : nat) (theta alpha_x : R) (ret : ret_arg) (x : mat) (u v z : vec).
  Notation run := (make_iivm n k theta alpha_x ret x u v z).
  Lemma iivm_simulated o : run = Ok o ->
    exists y d, returned ret asks_data n (arrays_xyd n k x y d ++ [Some (column n z)]) (cols_xydz k x y d z) (roles_xydz k) o /\
      iivm_model n k theta alpha_x x u v z y d.
  Proof.
    unfold make_iivm. intro H. cbv zeta in H. eexists; eexists; split; [|].
    - rewrite block_named in H. revert H. apply deliver_returned;
        [apply data_iff|apply arrays_data|apply frame_data|apply cols_xydz_nodup|apply xydz_built].
    - intros i _. split; [apply gt01_indicator|]. rewrite (dot_inner k x squares (fun j => / INR (S j) ^ 2)) by (intros; apply squares_eq). ring.
  Qed.
  Lemma iivm_simulates : (exists o, run = Ok o) <-> asks_arrays ret \/ asks_frame ret \/ asks_data ret.
  Proof.
    unfold make_iivm. cbv zeta. rewrite block_named. apply (deliver_iff ret data_alias asks_data (data_iff ret) n _ (cols_xydz k x _ _ z) (roles_xydz k)). apply xydz_built.
  Qed.
  Lemma iivm_refused e : run = Err e -> e = ValueError.
  Proof. unfold make_iivm. cbv zeta. rewrite block_named. apply (deliver_error ret data_alias asks_data (data_iff ret) n _ (cols_xydz k x _ _ z) (roles_xydz k)). apply xydz_built. Qed.
End Iivm.

(** ** make_pliv_CHS2015 *)
Section Pliv.
  Lemma cols_pliv_nodup k kz x z y d : NoDup (map fst (cols_pliv k kz x z y d)).
  Proof. unfold cols_pliv. rewrite !map_app, !named_fst. cbn [map fst app]. nodup_names. Qed.
  Lemma pliv_built n k kz x z y d : exists s, data_object (table n (cols_pliv k kz x z y d)) "y" "d" (numbered "X" 1 k) (M_Data.CList (numbered "Z" 1 kz)) M_Data.CNone M_Data.CNone = Ok s /\
    S_Data.constructed (table n (cols_pliv k kz x z y d)) s /\ M_Data.dd_roles s = roles_pliv k kz.
  Proof.
    unfold roles_pliv. rewrite !names_numbered. apply object_built; [|left; reflexivity|reflexivity|reflexivity].
    apply table_usable; [apply cols_pliv_nodup| |unfold cols_pliv; roles_in|discriminate].
    unfold S_Data.role_columns. cbn. rewrite app_nil_r. nodup_names.
  Qed.
  Lemma pi_rows k kz (x : mat) i j : (kz <= k)%nat -> (j < kz)%nat -> dot k x (pi_chs kz j) i = x i j.
  Proof.
    intros Hk Hj. unfold dot, pi_chs. assert (G : forall m, sumf m (fun l => x i l * (if (l <? kz)%nat then if (j =? l)%nat then 1 else 0 else 0)) = if (j <? m)%nat then x i j else 0).
    { induction m as [|m IH]; [rewrite sumf_0; reflexivity|]. rewrite sumf_S, IH. destruct (Nat.ltb_spec j m), (Nat.ltb_spec j (S m)), (Nat.ltb_spec m kz), (Nat.eqb_spec j m); try lia; subst; ring. }
    rewrite G. destruct (Nat.ltb_spec j k); [reflexivity|lia].
  Qed.
  Variables (n : nat) (alpha : R) (k kz : nat) (ret : ret_arg) (x : mat) (eps u : vec) (xi : mat).
  Notation run := (make_pliv n alpha k kz ret x eps u xi).
  Lemma pliv_simulated o : run = Ok o ->
    exists y d z, returned ret asks_data n (arrays_xyd n k x y d ++ [Some (matrix n kz z)]) (cols_pliv k kz x z y d) (roles_pliv k kz) o /\
      pliv_model n k kz alpha x z eps u xi y d.
  Proof.
    unfold make_pliv. destruct (Nat.leb_spec kz k) as [L|L]; cbn [require]; [|discriminate]. intro H. cbv zeta in H. eexists; eexists; eexists; split; [|].
    - rewrite !block_named in H. revert H. apply deliver_returned;
        [apply data_iff|apply arrays_data|apply frame_data|apply cols_pliv_nodup|apply pliv_built].
    - intros i _. split; [intros j Hj; now rewrite (pi_rows k kz x i j L Hj)|].
      rewrite (dot_inner k x squares (fun j => / INR (S j) ^ 2)) by (intros; apply squares_eq). split; [|reflexivity].
      rewrite (dot_inner kz _ squares (fun j => / INR (S j) ^ 2)) by (intros; apply squares_eq). reflexivity.
  Qed.
  Lemma pliv_simulates : (exists o, run = Ok o) <-> (kz <= k)%nat /\ (asks_arrays ret \/ asks_frame ret \/ asks_data ret).
  Proof.
    unfold make_pliv. destruct (Nat.leb_spec kz k); cbn [require]; [|split; [intros (o & Q); discriminate|lia]]. cbv zeta. rewrite !block_named.
    transitivity (asks_arrays ret \/ asks_frame ret \/ asks_data ret); [apply (deliver_iff ret data_alias asks_data (data_iff ret) n _ (cols_pliv k kz x _ _ _) (roles_pliv k kz)); apply pliv_built|]. tauto.
  Qed.
  Lemma pliv_refused e : run = Err e -> e = if (kz <=? k)%nat then ValueError else AssertionError.
  Proof.
    unfold make_pliv. destruct (Nat.leb_spec kz k); cbn [require]; [|congruence]. cbv zeta. rewrite !block_named.
    apply (deliver_error ret data_alias asks_data (data_iff ret) n _ (cols_pliv k kz x _ _ _) (roles_pliv k kz)). apply pliv_built.
  Qed.
End Pliv.

(** ** make_ssm_data *)
Section Ssm.
  Lemma cols_ssm_nodup k mar x y d z s : NoDup (map fst (cols_ssm k mar x y d z s)).
  Proof. unfold cols_ssm. rewrite !map_app, !named_fst. destruct mar; cbn [map fst app]; nodup_names. Qed.
  Lemma ssm_built n k mar x y d z s : exists o, data_object (table n (cols_ssm k mar x y d z s)) "y" "d" (numbered "X" 1 k) (if mar then M_Data.CNone else M_Data.CStr "z") M_Data.CNone (M_Data.CStr "s") = Ok o /\
    S_Data.constructed (table n (cols_ssm k mar x y d z s)) o /\ M_Data.dd_roles o = roles_ssm k mar.
  Proof.
    unfold roles_ssm. rewrite !names_numbered. apply object_built; [|destruct mar; [left; reflexivity|right; exists "z"; split; reflexivity]|reflexivity|reflexivity].
    apply table_usable; [apply cols_ssm_nodup| |destruct mar; unfold cols_ssm; roles_in|discriminate].
    unfold S_Data.role_columns. destruct mar; cbn; nodup_names.
  Qed.
  Lemma ssm_beta_eq j : ssm_beta j = 0.4 / INR (S j) ^ 2.
  Proof. unfold ssm_beta. replace (4 / 10) with 0.4 by lra. reflexivity. Qed.
  Variables (n k : nat) (theta : R) (mar : bool) (ret : ret_arg) (x : mat) (e0 e1 w z : vec).
  Notation run := (make_ssm n k theta mar ret x e0 e1 w z).
  Lemma ssm_simulated o : run = Ok o ->
    exists y d s, returned ret asks_data n (arrays_xyd n k x y d ++ [Some (column n z); Some (column n s)]) (cols_ssm k mar x y d z s) (roles_ssm k mar) o /\
      ssm_selection n k (if mar then 0 else 1) x z e0 w d s /\ ssm_additive n k theta x e1 d s y.
  Proof.
    unfold make_ssm. intro H. cbv zeta in H. eexists; eexists; eexists; split; [|].
    - rewrite block_named in H. revert H. apply deliver_returned;
        [apply data_iff|apply arrays_data|apply frame_data|apply cols_ssm_nodup|apply ssm_built].
    - assert (K : forall i, dot k x ssm_beta i = inner k x (fun j => 0.4 / INR (S j) ^ 2) i) by (intro i; apply dot_inner; intros; apply ssm_beta_eq).
      split; intros i _; cbv zeta; rewrite !K.
      + split; [apply gt01_indicator|]. eapply indicator_iff; [|apply gt01_indicator]. split; intro; lra.
      + match goal with |- context[gt01 ?a 0] => match a with context[e0] => generalize (indicator_01 _ _ (gt01_indicator a 0)); generalize (gt01 a 0) end end.
        intros q Q. unfold reqb. destruct (Req_EM_T q 0) as [->|Ne]; [ring|]. destruct Q as [->| ->]; [lra|ring].
  Qed.
  Lemma ssm_simulates : (exists o, run = Ok o) <-> asks_arrays ret \/ asks_frame ret \/ asks_data ret.
  Proof.
    unfold make_ssm. cbv zeta. rewrite block_named. apply (deliver_iff ret data_alias asks_data (data_iff ret) n _ (cols_ssm k mar x _ _ z _) (roles_ssm k mar)). apply ssm_built.
  Qed.
  Lemma ssm_refused e : run = Err e -> e = ValueError.
  Proof. unfold make_ssm. cbv zeta. rewrite block_named. apply (deliver_error ret data_alias asks_data (data_iff ret) n _ (cols_ssm k mar x _ _ z _) (roles_ssm k mar)). apply ssm_built. Qed.
End Ssm.

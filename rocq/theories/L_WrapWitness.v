(** Quantile effects and average potential outcomes: concrete cases with sixteen rows. *)
From Verif Require Export L_WrapEnd L_QObjectWitness.
From Coq Require Import Lia Lra.
Local Open Scope R_scope.
Local Open Scope string_scope.

Definition uq_or (i : nat) (treated : bool) (r k : nat) : q_oracles := u_o.
Definition u_qte s nf draw := qte_init q_learner i_rd u_frame s u_sv (fun _ _ => 0) uq_or cls (Some cls) [1 / 4; 1 / 2] (PInt nf) (PInt 1) (PStr "PQ") (PBool false) u_kde (PStr "truncate") (PFloat (1 / 100)) draw.
Definition u_levels : list pyval := [PInt 0; PInt 1].
Definition u_apos s draw := apos_init q_learner i_rd u_frame s reg cls u_levels (PInt 2) (PInt 1) (PStr "APO") WNone (PBool false) (PStr "truncate") (PFloat (1 / 100)) draw.
Lemma u_rows : (0 < M_Data.frows u_frame)%nat.
Proof. cbn. lia. Qed.
Lemma u_none s : u_data None s -> no_instruments s.
Proof. intros (_ & R & _). unfold no_instruments. rewrite R. reflexivity. Qed.
Lemma u_one s : u_data None s -> M_Data.r_d (M_Data.dd_roles s) = ["d"].
Proof. intros (_ & R & _). rewrite R. reflexivity. Qed.
Lemma u_cd s : u_data None s -> M_Data.c_d s = "d".
Proof. intro U. symmetry. exact (one_treatment u_frame s (proj1 U) "d" (u_one s U)). Qed.
Lemma u_listed a l : (forall j, In j l -> (j < 16)%nat /\ col u_frame "d" j = a) -> NoDup l -> (length l <= rows_with 16 (col u_frame "d") a)%nat.
Proof.
  intros V N. unfold rows_with. apply NoDup_incl_length; [exact N|]. intros j Hj. destruct (V j Hj) as (A & B). apply filter_In. split; [apply in_seq; lia|]. destruct (Req_EM_T _ _); [reflexivity|contradiction].
Qed.
Lemma u_many a : (a = 0 \/ a = 1) -> (5 <= rows_with 16 (col u_frame "d") a)%nat.
Proof.
  intros [->| ->]; [apply (u_listed 0 [0; 3; 4; 7; 8]%nat)|apply (u_listed 1 [1; 2; 5; 6; 9]%nat)]; try (repeat (apply NoDup_cons; [cbn [In]; lia|]); apply NoDup_nil);
    intros j Hj; cbn in Hj; repeat (destruct Hj as [<-|Hj]; [split; [lia|reflexivity]|]); destruct Hj.
Qed.
Lemma u_whole : whole_numbers 16 (col u_frame "d").
Proof. intros i _. exists (Z.of_nat (nth (i mod 4) [0; 1; 1; 0] 0)%nat). change (u_d i = IZR (Z.of_nat (nth (i mod 4) [0; 1; 1; 0] 0)%nat)). apply INR_IZR_INZ. Qed.

(** ** Constructors *)
Lemma u_qte_ok s : u_data None s -> exists K b, u_qte s 2 true = Ok (K, b).
Proof.
  intro U. destruct (proj2 (qte_accepts q_learner i_rd u_frame s u_sv (proj1 U) (u_plain _ _ U) (u_arms _ _ U) i_sound u_rows (fun _ _ => 0) uq_or cls (Some cls) [1 / 4; 1 / 2] (PInt 2) (PInt 1) (PStr "PQ") (PBool false) u_kde (PStr "truncate") (PFloat (1 / 100)) ltac:(discriminate))) as ((K & b) & Q).
  - split; [intros q [<-|[<-|[]]]; lra|]. split; [right; eexists; reflexivity|]. split; [apply i_bool|]. split; [exact i_trim|]. exists cls, "d". split; [reflexivity|]. split; [exact (u_binary _ _ U)|].
    split; [apply u_args; exists 0%nat, 3%nat; split; [lia|reflexivity]|]. split; [exact cls_proba|]. left. split; [reflexivity|]. split; [exact (u_none s U)|exact cls_proba].
  - exists K, b. exact Q.
Qed.
Lemma u_apos_ok s : u_data None s -> exists K b, u_apos s true = Ok (K, b).
Proof.
  intro U. destruct (proj2 (apos_accepts q_learner i_rd u_frame s (proj1 U) (u_plain _ _ U) i_sound u_rows reg cls u_levels (PInt 2) (PInt 1) (PStr "APO") WNone (PBool false) (PStr "truncate") (PFloat (1 / 100)) ltac:(discriminate))) as ((K & b) & Q).
  - split; [exact (u_none s U)|]. split; [|split; [reflexivity|split; [exact Logic.I|split; [apply reg_outcome|split; [exact cls_proba|split; [apply i_bool|exact i_trim]]]]]].
    exists "d". split; [exact (u_one s U)|]. split; [exact u_whole|]. split; [apply u_args; exists 0%nat, 3%nat; split; [lia|reflexivity]|].
    intros v [<-|[<-|[]]]; [exists 0|exists 1]; (split; [reflexivity|]); apply u_many; auto.
  - exists K, b. exact Q.
Qed.

(** ** The split of the user *)
Lemma u_set_split {A} (K : wclass A) b : wk_n K = 16%nat -> wo_smpls (fst (wrap_set K u_set b)) = Some [u_smpls].
Proof.
  intro Hn. unfold wrap_set. rewrite Hn. change (check_sample_splitting 16 u_set) with (Ok {| ck_smpls := [[(zs (seq 8 8), zs (seq 0 8)); (zs (seq 0 8), zs (seq 8 8))]]; ck_n_rep := 1; ck_n_folds := 2 |}).
  cbn [ck_smpls]. unfold remade. destruct (wrap_subs _ _); reflexivity.
Qed.
Lemma u_not_whole {A} : ~ asks_no_split (A:=A) 16 (WcSet u_set).
Proof.
  intros (sp & reps & Q & (W & _) & (tr & te & -> & _)). injection Q as <-. inversion W; subst; discriminate.
Qed.
Lemma u_subs {A} (K : wclass A) sp b l : wo_subs b = Some l -> exists l', wo_subs (fst (wrap_set K sp b)) = Some l'.
Proof.
  intro H. unfold wrap_set. destruct (check_sample_splitting _ _); [|exists l; exact H]. unfold remade. destruct (wrap_subs _ _); [eexists; reflexivity|exists l; exact H].
Qed.
Lemma u_qte_n s nf draw K b : u_qte s nf draw = Ok (K, b) -> S_Data.constructed u_frame s -> wk_n K = 16%nat.
Proof. intros H Con. apply (qte_unfold q_learner i_rd u_frame s u_sv Con) in H as (sc & m & k & _ & _ & -> & _). reflexivity. Qed.
Lemma u_apos_n s draw K b : u_apos s draw = Ok (K, b) -> S_Data.constructed u_frame s -> wk_n K = 16%nat.
Proof. intros H Con. apply (apos_unfold q_learner i_rd u_frame s Con u_rows) in H as (_ & -> & _). reflexivity. Qed.
Lemma u_qte_set s : u_data None s -> exists K b0 b, u_qte s 2 true = Ok (K, b0) /\ wlater K (qte_call u_sv K) b0 b /\ wo_smpls b = Some [u_smpls] /\ all_on pair_on b [u_smpls].
Proof.
  intro U. destruct (u_qte_ok s U) as (K & b0 & Q). pose proof (u_qte_n _ _ _ _ _ Q (proj1 U)) as Hn. pose proof Q as Q'. unfold u_qte in Q'.
  destruct (qte_drawn q_learner i_rd u_frame s u_sv (proj1 U) (u_plain _ _ U) i_sound u_rows _ _ _ _ [1 / 4; 1 / 2] _ _ _ _ _ _ _ ltac:(discriminate) _ _ Q') as (c & sm & _ & _ & _ & (l & El & _)).
  set (b := wcalls K (qte_call u_sv K) [WcSet u_set] b0). destruct (u_subs K u_set b0 l El) as (l' & El').
  pose proof (u_set_split K b0 Hn) as Es.
  destruct (qte_reported q_learner i_rd u_frame s u_sv (proj1 U) (u_plain _ _ U) (u_arms _ _ U) i_sound u_rows _ _ _ _ [1 / 4; 1 / 2] _ _ _ _ _ _ _ ltac:(discriminate) _ K b0 [WcSet u_set] l' Q') as (sm' & E1 & On).
  { intros x [<-|[]]. split; [exact Logic.I|exact u_not_whole]. }
  { exact El'. }
  exists K, b0, b. split; [exact Q|]. split; [exists [WcSet u_set]; split; [intros x [<-|[]]; exact Logic.I|reflexivity]|]. split; [exact Es|].
  assert (Z : sm' = [u_smpls]) by (change (wo_smpls b = Some sm') in E1; change (wo_smpls b = Some [u_smpls]) in Es; congruence). subst sm'. exact On.
Qed.
Lemma u_pq_usable0 : pq_usable u_o 0 u_d u_smpls.
Proof.
  intros h Hh. destruct (u_halves h Hh) as (s & Hs & F). destruct (u_pq_usable h Hh) as (A & B & _). split; [exact A|]. split; [exact B|].
  exists (4 + s)%nat. unfold second_half. rewrite F. split; [cbn; auto|]. destruct Hs as [->| ->]; reflexivity.
Qed.
Lemma u_qte_end : exists s K b0 b b', u_data None s /\ u_qte s 2 true = Ok (K, b0) /\ wlater K (qte_call u_sv K) b0 b /\ wo_smpls b = Some [u_smpls] /\ all_on pair_on b [u_smpls] /\
  qte_fit u_sv K PNone (PBool true) ExtNone (PBool false) b = (b', Ok tt).
Proof.
  destruct (u_exists None) as (s & U); [auto|]. destruct (u_qte_set s U) as (K & b0 & b & Q & La & Es & On). pose proof Q as Q'. unfold u_qte in Q'. destruct u_sv_ok as (S1 & S2 & _).
  destruct (qte_success q_learner i_rd u_frame s u_sv (proj1 U) (u_plain _ _ U) i_sound u_rows _ _ _ _ [1 / 4; 1 / 2] _ _ _ _ _ _ _ _ K b0 b [u_smpls] q_predict q_proba PNone true false ltac:(discriminate) Q' La On q_row q_classifier q_clone q_trains (fun _ _ _ _ => u_solver) S1 S2 ltac:(left; reflexivity)) as (b' & Ft).
  - intros i tr r fs _ Hr. destruct r as [|[|r]]; cbn in Hr; try discriminate. injection Hr as <-. left. split; [left; reflexivity|]. exists "d". split; [exact (u_binary _ _ U)|]. destruct tr; [exact u_pq_usable|exact u_pq_usable0].
  - exists s, K, b0, b, b'. auto 10.
Qed.
Lemma u_apos_at s sp : u_data None s -> ~ asks_no_split (A:=pyval * pyval * apos_ext * pyval) 16 (WcSet sp) -> exists K b0 l, u_apos s true = Ok (K, b0) /\
  let b := wcalls K (apos_call s u_levels K) [WcSet sp] b0 in wo_subs b = Some l /\ exists sm, wo_smpls b = Some sm /\ all_on apo_on b sm.
Proof.
  intros U Ns. destruct (u_apos_ok s U) as (K & b0 & Q). pose proof (u_apos_n _ _ _ _ Q (proj1 U)) as Hn. pose proof Q as Q'. unfold u_apos in Q'.
  destruct (apos_drawn q_learner i_rd u_frame s (proj1 U) (u_plain _ _ U) i_sound u_rows _ _ u_levels _ _ _ WNone _ _ _ ltac:(discriminate) K b0 Q') as (_ & _ & _ & _ & _ & (l & El & _)).
  destruct (u_subs K sp b0 l El) as (l' & El'). exists K, b0, l'. split; [exact Q|]. split; [exact El'|].
  refine (apos_reported q_learner i_rd u_frame s (proj1 U) (u_plain _ _ U) i_sound u_rows _ _ u_levels _ _ _ WNone _ _ _ ltac:(discriminate) _ K b0 [WcSet sp] l' ltac:(discriminate) Q' _ El').
  intros x [<-|[]]. split; [exact Logic.I|]. split; [exact Ns|discriminate].
Qed.
Lemma u_apos_set s : u_data None s -> exists K b0 b, u_apos s true = Ok (K, b0) /\ wlater K (apos_call s u_levels K) b0 b /\ wo_smpls b = Some [u_smpls] /\ all_on apo_on b [u_smpls].
Proof.
  intro U. destruct (u_apos_at s u_set U u_not_whole) as (K & b0 & l & Q & El & sm & Es & On). pose proof (u_set_split K b0 (u_apos_n _ _ _ _ Q (proj1 U))) as Es'.
  eexists K, b0, _. split; [exact Q|]. split; [exists [WcSet u_set]; split; [intros x [<-|[]]; exact Logic.I|reflexivity]|]. split; [exact Es'|].
  change (wo_smpls (wcalls K (apos_call s u_levels K) [WcSet u_set] b0) = Some [u_smpls]) in Es'. assert (sm = [u_smpls]) by congruence. subst sm. exact On.
Qed.
Lemma u_y_not : forall s, u_data None s -> ~ S_Data.zero_one_column u_frame (M_Data.r_y (M_Data.dd_roles s)).
Proof.
  intros s (_ & R & _) H. rewrite R in H. destruct (H 2%nat) as [H'|H']; [cbn; lia| |]; cbn in H'; injection H' as H'; lra.
Qed.
Lemma u_level_usable s v fs : u_data None s -> In v u_levels -> In fs [u_smpls] -> level_usable u_frame s v fs.
Proof.
  intros U Hv [<-|[]]. unfold level_usable. rewrite (u_cd s U). destruct Hv as [<-|[<-|[]]]; [exists 0|exists 1]; (split; [reflexivity|]); intros h Hh; destruct (u_halves h Hh) as (k & Hk & F); rewrite F;
    [exists k, (S k)|exists (S k), k]; (split; [apply in_seq; lia|]); (split; [apply in_seq; lia|]); (destruct Hk as [->| ->]; (split; [cbn; lia|]); (split; [cbn; lia|]); (split; [reflexivity|]));
    match goal with |- col u_frame "d" ?i <> _ => change (u_d i <> 0) || change (u_d i <> 1) end; unfold u_d; cbn; lra.
Qed.
Lemma u_apos_end : exists s K b0 b b', u_data None s /\ u_apos s true = Ok (K, b0) /\ wlater K (apos_call s u_levels K) b0 b /\ wo_smpls b = Some [u_smpls] /\ all_on apo_on b [u_smpls] /\
  apos_fit s u_levels K PNone (PBool true) AxNone (PBool false) b = (b', Ok tt).
Proof.
  destruct (u_exists None) as (s & U); [auto|]. destruct (u_apos_set s U) as (K & b0 & b & Q & La & Es & On). pose proof Q as Q'. unfold u_apos in Q'.
  destruct (apos_success q_learner i_rd u_frame s (proj1 U) (u_plain _ _ U) i_sound u_rows _ _ u_levels _ _ _ WNone _ _ _ ltac:(discriminate) _ K b0 b [u_smpls] q_predict q_proba PNone true false Q' La On q_row q_classifier q_clone q_trains) as (b' & Ft).
  - intros r t l fs Hr. destruct r as [|[|r]]; cbn in Hr; try discriminate. injection Hr as <-. apply perm_swap.
  - left. reflexivity.
  - reflexivity.
  - exact (u_y_not s U).
  - intros v fs Hv Hf. exact (u_level_usable s v fs U Hv Hf).
  - exists s, K, b0, b, b'. auto 10.
Qed.
(** A split by treatment is never drawn. *)
Definition u_ones : list nat := [1; 2; 5; 6; 9; 10; 13; 14]%nat.
Definition u_zeros : list nat := [0; 3; 4; 7; 8; 11; 12; 15]%nat.
Definition u_by : pysplit := SList [STup [IxInt (zs u_zeros); IxInt (zs u_ones)]; STup [IxInt (zs u_ones); IxInt (zs u_zeros)]].
Definition u_by_smpls : list fold := [(u_zeros, u_ones); (u_ones, u_zeros)].
Lemma u_by_split {A} (K : wclass A) b : wk_n K = 16%nat -> let b' := fst (wrap_set K u_by b) in wo_smpls b' = Some [u_by_smpls] /\ wo_folds b' = PInt 2 /\ wo_reps b' = PInt 1.
Proof.
  intro Hn. unfold wrap_set. rewrite Hn. change (check_sample_splitting 16 u_by) with (Ok {| ck_smpls := [[(zs u_zeros, zs u_ones); (zs u_ones, zs u_zeros)]]; ck_n_rep := 1; ck_n_folds := 2 |}).
  cbn [ck_smpls]. unfold remade. destruct (wrap_subs _ _); repeat split.
Qed.
Lemma u_by_not_whole {A} : ~ asks_no_split (A:=A) 16 (WcSet u_by).
Proof. intros (sp & reps & Q & (W & _) & (tr & te & -> & _)). injection Q as <-. inversion W; subst; discriminate. Qed.
Lemma count_all v x l : (forall i, In i l -> v i = x) -> value_count v x l = length l.
Proof.
  unfold value_count. induction l as [|a l IH]; intro H; [reflexivity|]. cbn [filter]. destruct (Req_EM_T (v a) x) as [_|N]; [cbn [length]; f_equal; apply IH; intros i Hi; apply H; right; exact Hi|exfalso; apply N, H; left; reflexivity].
Qed.
Lemma count_none v x l : (forall i, In i l -> v i <> x) -> value_count v x l = 0%nat.
Proof.
  unfold value_count. induction l as [|a l IH]; intro H; [reflexivity|]. cbn [filter]. destruct (Req_EM_T (v a) x) as [N|_]; [exfalso; apply (H a (or_introl eq_refl) N)|apply IH; intros i Hi; apply H; right; exact Hi].
Qed.
Lemma u_by_uneven : ~ spread 16 (PInt 2) (PInt 1) (col u_frame "d") [u_by_smpls].
Proof.
  intros (_ & H). destruct (H _ (or_introl eq_refl)) as (_ & _ & B & _). specialize (B (u_zeros, u_ones) (u_ones, u_zeros) 1%nat (or_introl eq_refl) (or_intror (or_introl eq_refl)) ltac:(lia)). cbn [fst snd] in B.
  change (col u_frame "d" 1%nat) with 1 in B. rewrite count_all, count_none in B; [cbn in B; lia| |].
  - intros i Hi. change (u_d i <> 1). cbn in Hi. repeat (destruct Hi as [<-|Hi]; [unfold u_d; cbn; lra|]). destruct Hi.
  - intros i Hi. cbn in Hi. repeat (destruct Hi as [<-|Hi]; [reflexivity|]). destruct Hi.
Qed.
Lemma u_redraw : exists s K b0 b b', u_data None s /\ u_apos s true = Ok (K, b0) /\ wlater K (apos_call s u_levels K) b0 b /\ all_on apo_on b [u_by_smpls] /\ wrap_draw K g_id b = (b', Ok tt) /\
  wo_smpls b' <> Some [u_by_smpls] /\ all_on apo_on b' [u_by_smpls].
Proof.
  destruct (u_exists None) as (s & U); [auto|]. destruct (u_apos_at s u_by U u_by_not_whole) as (K & b0 & l & Q & El & sm & Es & On). pose proof (u_apos_n _ _ _ _ Q (proj1 U)) as Hn.
  destruct (u_by_split K b0 Hn) as (E1 & E2 & E3). set (b := wcalls K (apos_call s u_levels K) [WcSet u_by] b0) in *. change (wo_smpls b = Some [u_by_smpls]) in E1. change (wo_folds b = PInt 2) in E2. change (wo_reps b = PInt 1) in E3.
  assert (sm = [u_by_smpls]) by congruence. subst sm.
  assert (Hs : wk_strata K = col u_frame "d"). { pose proof Q as Q'. unfold u_apos in Q'. apply (apos_unfold q_learner i_rd u_frame s (proj1 U) u_rows) in Q' as (_ & -> & _). cbn [wk_strata apos_class]. rewrite (u_cd s U). reflexivity. }
  assert (Hr : wk_remake K = false /\ (0 < wk_count K)%nat). { pose proof Q as Q'. unfold u_apos in Q'. apply (apos_unfold q_learner i_rd u_frame s (proj1 U) u_rows) in Q' as (_ & -> & _). split; [reflexivity|cbn; lia]. }
  destruct Hr as (Hr & Hk).
  destruct (proj2 (resample_args K ltac:(rewrite Hn; lia) Hk (PInt 2) (PInt 1) g_id)) as (sm & R).
  { rewrite Hn, Hs. split; [apply u_args; exists 0%nat, 3%nat; split; [lia|reflexivity]|exact u_whole]. }
  assert (Dr : wrap_draw K g_id b = ({| wo_folds := wo_folds b; wo_reps := wo_reps b; wo_smpls := Some sm; wo_subs := wo_subs b; wo_fw := wo_fw b |}, Ok tt)) by (unfold wrap_draw; rewrite E2, E3, R, Hr; reflexivity).
  eexists s, K, b0, b, _. split; [exact U|]. split; [exact Q|]. split; [exists [WcSet u_by]; split; [intros x [<-|[]]; exact Logic.I|reflexivity]|]. split; [exact On|]. split; [exact Dr|]. cbn [wo_smpls]. split.
  - intro Z. injection Z as Z. pose proof Q as Q'. unfold u_apos in Q'.
    destruct (apos_redrawn q_learner i_rd u_frame s (proj1 U) u_rows _ _ u_levels _ _ _ WNone _ _ _ ltac:(discriminate) _ K b0 b g_id _ Q' (proj1 (proj2 (proj2 i_sound))) Dr) as (_ & sm2 & E4 & Sp).
    cbn [wo_smpls] in E4. injection E4 as <-. rewrite E2, E3, (u_cd s U), Z in Sp. exact (u_by_uneven Sp).
  - exact On.
Qed.

(** ** Refused and unusable objects *)
Lemma u_missing s K b0 b nj st md : u_data None s -> u_apos s true = Ok (K, b0) -> apos_fit s u_levels K nj st (AxDict [(PInt 0, LxDict [])]) md b = (b, Err KeyError).
Proof.
  intros U Q. unfold u_apos in Q. apply (apos_missing_levels q_learner i_rd u_frame s (proj1 U) u_rows _ _ u_levels _ _ _ WNone _ _ _ _ K b0 b nj st md _ (PInt 1) Q).
  - intros k e [[= <- <-]|[]]. split; [exists (PInt 0); split; [left; reflexivity|exists 0; split; reflexivity]|]. exists []. split; [reflexivity|intros x []].
  - right. left. reflexivity.
  - intros k e r Hin Hr Hv. destruct Hin as [Z|[]]. injection Z as <- <-. cbn in Hr, Hv. rewrite <- Hr in Hv. injection Hv as Hv. lra.
Qed.
Definition u_local s := qte_init q_learner i_rd u_frame s u_sv (fun _ _ => 0) uq_or cls (Some cls) [1 / 4; 1 / 2] (PInt 2) (PInt 1) (PStr "LPQ") (PBool false) u_kde (PStr "truncate") (PFloat (1 / 100)) false.
Lemma u_local_ok : exists s K b, u_data None s /\ u_local s = Ok (K, b) /\ ~ score_setting u_frame s (PStr "LPQ") cls.
Proof.
  destruct (u_exists None) as (s & U); [auto|]. destruct (proj2 (qte_unsplit q_learner i_rd u_frame s u_sv (proj1 U) (fun _ _ => 0) uq_or cls (Some cls) [1 / 4; 1 / 2] (PInt 2) (PInt 1) (PStr "LPQ") (PBool false) u_kde (PStr "truncate") (PFloat (1 / 100)))) as ((K & b) & Q).
  - split; [intros q [<-|[<-|[]]]; lra|]. split; [right; eexists; reflexivity|]. split; [auto|]. split; [exists "d"; exact (u_binary _ _ U)|]. split; [exact i_trim|]. split; [apply i_bool|]. split; [repeat split|]. exists cls. split; [reflexivity|repeat split].
  - exists s, K, b. split; [exact U|]. split; [exact Q|]. intros [(Z & _)|[(_ & (z & Z & _) & _)|(Z & _)]]; try discriminate. pose proof (u_none s U) as N. unfold no_instruments in N. rewrite N in Z. discriminate.
Qed.
Definition i_rare s := apos_init q_learner i_rd i_frame s reg cls [PInt 1; PInt 0] (PInt 2) (PInt 1) (PStr "APO") WNone (PBool false) (PStr "truncate") (PFloat (1 / 100)) false.
Lemma i_rare_ok : exists s K b, i_data ra1 s /\ i_rare s = Ok (K, b) /\ ~ frequent i_frame (M_Data.c_d s) (PInt 0).
Proof.
  destruct (i_exists ra1) as (s & D); [i_wf|discriminate|]. destruct D as (Con & Rl & Ot). assert (Dc : M_Data.r_d (M_Data.dd_roles s) = ["a"]) by (rewrite Rl; reflexivity).
  pose proof (one_treatment i_frame s Con "a" Dc) as Ed.
  destruct (proj2 (apos_unsplit q_learner i_rd i_frame s Con ltac:(cbn; lia) reg cls [PInt 1; PInt 0] (PInt 2) (PInt 1) (PStr "APO") WNone (PBool false) (PStr "truncate") (PFloat (1 / 100)))) as ((K & b) & Q).
  - split; [unfold no_instruments; rewrite Rl; reflexivity|]. split; [|split; [reflexivity|split; [exact Logic.I|split; [apply reg_outcome|split; [exact cls_proba|split; [apply i_bool|exact i_trim]]]]]].
    intros v [<-|[<-|[]]]; [exists 1, 0%nat|exists 0, 2%nat]; (split; [reflexivity|]); (split; [cbn; lia|]); rewrite <- Ed; reflexivity.
  - exists s, K, b. split; [split; [exact Con|auto]|]. split; [exact Q|]. intros (r & Hr & Hc). injection Hr as <-. rewrite <- Ed in Hc.
    assert (Z : (rows_with (M_Data.frows i_frame) (col i_frame "a") 0 <= length [2; 6]%nat)%nat); [|cbn [length] in Z; lia].
    unfold rows_with. apply NoDup_incl_length; [apply NoDup_filter, seq_NoDup|]. intros j Hj. apply filter_In in Hj as (A & B). apply in_seq in A. change (col i_frame "a" j) with (w_a j) in B. destruct (Req_EM_T (w_a j) 0) as [C|C]; [|discriminate]. unfold w_a in C. cbn in A.
    do 8 (destruct j as [|j]; [first [cbn; tauto|exfalso; cbn in C; lra]|]). lia.
Qed.
Definition u_all : pysplit := STup [IxInt (zs (seq 0 16)); IxInt (zs (seq 0 16))].
Lemma u_all_good : good_split 16 u_all [[(zs (seq 0 16), zs (seq 0 16))]] /\ no_split 16 [[(zs (seq 0 16), zs (seq 0 16))]].
Proof.
  assert (N : no_split 16 [[(zs (seq 0 16), zs (seq 0 16))]]) by (exists (zs (seq 0 16)), (zs (seq 0 16)); split; [reflexivity|]; split; apply Permutation_refl).
  split; [|exact N]. split; [apply (w_tuple (zs (seq 0 16), zs (seq 0 16)))|]. left. split; [|exact N]. intros (l & r & Q). discriminate Q.
Qed.

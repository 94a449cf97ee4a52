(** Rejections by the benchmark. *)
From Verif Require Import M_Data L_Data L_DataOps L_DataProps L_BenchData.
From Verif Require Export L_Bench.
From Coq Require Import Lia Lra.
Local Open Scope R_scope.
Local Open Scope res_scope.

(** ** Objects that were never fitted *)
Section Quiet.
Context {P : Type}.
Definition quiet {A} (m : act P A) : Prop := forall w, m_sens (w_obj (fst (m w))) = m_sens (w_obj w).
Lemma quiet_then {A B} (m : act P A) (k : A -> act P B) : quiet m -> (forall x, quiet (k x)) -> quiet (andthen m k).
Proof. intros Hm Hk w. unfold andthen. specialize (Hm w). destruct (m w) as [w1 [x|e]]; cbn [fst] in *; [|exact Hm]. now rewrite (Hk x w1). Qed.
Lemma quiet_lift {A} (r : world P -> result A) : quiet (lift r).
Proof. intro w. reflexivity. Qed.
Lemma quiet_assign (g : dml P -> dml P) : (forall m, m_sens (g m) = m_sens m) -> quiet (M_Model.assign g).
Proof. intros H w. cbn. apply H. Qed.
Lemma quiet_ret {A} (x : A) : quiet (ret x).
Proof. intro w. reflexivity. Qed.
Lemma quiet_alloc b : quiet (@halloc P b).
Proof. intro w. reflexivity. Qed.
Ltac quiet := repeat first [apply quiet_then; [|intro]|apply quiet_lift|apply quiet_ret|apply quiet_alloc|apply quiet_assign; intro; reflexivity].
Lemma quiet_draw (C : ctx P) g perm : quiet (draw_sample_splitting C g perm).
Proof. unfold draw_sample_splitting. apply quiet_then; [apply quiet_lift|]. intro w. cbv zeta. destruct (c_cluster C); quiet. Qed.
Lemma quiet_arrays (C : ctx P) : quiet (initialize_arrays C).
Proof. unfold initialize_arrays. quiet. Qed.
Lemma quiet_params : quiet (@initialize_params P).
Proof. unfold initialize_params. quiet. Qed.
Lemma quiet_construct (C : ctx P) nf nr dr g perm : quiet (construct C nf nr dr g perm).
Proof.
  unfold construct. cbv zeta. repeat (apply quiet_then; [first [apply quiet_lift|apply quiet_assign; intro; reflexivity]|intro]).
  apply quiet_then; [|intro; apply quiet_then; [apply quiet_arrays|intro; apply quiet_params]].
  destruct dr as [| |[|]| | | |]; first [apply quiet_draw|apply quiet_ret].
Qed.
Lemma quiet_op (C : ctx P) o : match o with OFit _ _ _ _ => False | _ => True end -> quiet (run_op C o).
Proof.
  assert (F : forall A (me : meth A), quiet (fw_method me)).
  { intros A me w. unfold fw_method, with_framework, andthen, lift. destruct (m_fw (w_obj w)) as [i|]; [|reflexivity]. destruct (nth_error (w_fws w) i) as [o1|]; [|reflexivity]. destruct (me _) as [f' r']. reflexivity. }
  destruct o; cbn; intro H; [contradiction|apply quiet_draw| | |apply F|apply F].
  - unfold set_sample_splitting. apply quiet_then; [apply quiet_lift|intro]. apply quiet_then; [apply quiet_assign; intro; reflexivity|intro]. apply quiet_then; [apply quiet_arrays|intro; apply quiet_params].
  - unfold set_ml_nuisance_params. quiet.
Qed.
Lemma quiet_run (C : ctx P) ops : without_fit ops -> forall w, m_sens (w_obj (run C ops w)) = m_sens (w_obj w).
Proof.
  induction ops as [|o ops IH]; intros H w; [reflexivity|]. cbn [run]. rewrite IH by (intros o' Ho; apply H; now right). apply (quiet_op C o (H o (or_introl eq_refl))).
Qed.
Lemma new_sens (C : ctx P) nf nr dr g perm w : new_object C nf nr dr g perm = Ok w -> m_sens (w_obj w) = None.
Proof.
  unfold new_object. match goal with |- context [construct _ _ _ _ _ _ ?x] => pose proof (quiet_construct C nf nr dr g perm x) as Q; destruct (construct C nf nr dr g perm x) as [w1 [u|e]] end; [|discriminate].
  intro H. apply ok_inj in H. subst w1. exact Q.
Qed.
Lemma base_sens rd f s nf nr dr w : @base_new P rd f s nf nr dr = Ok w -> m_sens (w_obj w) = None.
Proof. apply new_sens. Qed.
Lemma redraw_sens rd f s v dr w w1 : @redraw P rd f s v dr w = Ok w1 -> m_sens (w_obj w1) = m_sens (w_obj w).
Proof.
  unfold redraw. destruct dr as [| |[|]| | | |]; try (intro H; apply ok_inj in H; subst; reflexivity).
  intro H. apply require_ok in H as (_ & H). pose proof (quiet_draw (strata_ctx f s v) (rd_g rd) (rd_perm rd) w) as Q. destruct (draw_sample_splitting _ _ _ w) as [w' [u|e]]; [|discriminate]. apply ok_inj in H. subst w'. exact Q.
Qed.
End Quiet.

Section New.
Context {E P : Type}.
Variable L : learner E row P.
Variable rd : randomness.
Variable f : M_Data.frame.
Ltac go H := first [apply require_ok in H as (_ & H)|let x := fresh "x" in let X := fresh "X" in apply bind_ok in H as (x & X & H); cbv zeta in H].
Lemma make_sens c s C w0 : make L rd f c s = Ok (C, w0) -> m_sens (w_obj w0) = None.
Proof.
  assert (B : forall nf nr dr v w w1, @base_new P rd f s nf nr dr = Ok w -> @redraw P rd f s v dr w = Ok w1 -> m_sens (w_obj w1) = None) by (intros nf nr dr v w w1 X Y; rewrite (redraw_sens _ _ _ _ _ _ _ Y); exact (base_sens _ _ _ _ _ _ _ X)).
  intro H. destruct c; cbn [make] in H.
  - unfold plr_init in H. repeat go H. apply ok_inj in H. injection H as _ <-. eapply base_sens; eassumption.
  - unfold irm_init in H. repeat go H. apply ok_inj in H. injection H as _ <-. eapply B; eassumption.
  - unfold apo_init in H. repeat go H. apply ok_inj in H. injection H as _ <-. eapply B; eassumption.
  - unfold did_init in H. repeat go H. apply ok_inj in H. injection H as _ <-. eapply B; eassumption.
  - unfold cs_init in H. go H. go H. go H. destruct (M_Data.c_t s); [|discriminate]. repeat go H. apply ok_inj in H. injection H as _ <-. eapply B; eassumption.
Qed.
Lemma bench_unfitted c s C w0 ops bs fa : make L rd f c s = Ok (C, w0) -> without_fit ops ->
  sensitivity_benchmark L rd f c s bs fa (run C ops w0) = Err NotImplementedError.
Proof. intros M H. unfold sensitivity_benchmark. rewrite (quiet_run C ops H), (make_sens c s C w0 M). reflexivity. Qed.
Lemma bench_rejects c s w fa : m_sens (w_obj w) <> None ->
  sensitivity_benchmark L rd f c s BOther fa w = Err TypeError /\
  sensitivity_benchmark L rd f c s (BList []) fa w = Err ValueError /\
  (forall l, ~ incl l (M_Data.r_x (M_Data.dd_roles s)) -> sensitivity_benchmark L rd f c s (BList l) fa w = Err ValueError) /\
  (forall l, l <> [] -> incl l (M_Data.r_x (M_Data.dd_roles s)) -> sensitivity_benchmark L rd f c s (BList l) FitOther w = Err TypeError).
Proof.
  intro Sn. unfold sensitivity_benchmark. destruct (m_sens (w_obj w)) as [sb|]; [|contradiction]. split; [reflexivity|]. split; [reflexivity|]. split.
  - intros l H. destruct l as [|a l]; [exfalso; apply H; intros x []|]. cbn [length Nat.eqb negb require]. destruct (M_Data.subset (a :: l) _) eqn:Q; [apply subset_iff in Q; contradiction|reflexivity].
  - intros l N I. destruct l as [|a l]; [contradiction|]. cbn [length Nat.eqb negb require]. rewrite (proj2 (subset_iff _ _) I). reflexivity.
Qed.
(** The short data object and the short model exist. *)
Lemma short_exists c s C w0 l : S_Data.constructed f s -> make L rd f c s = Ok (C, w0) ->
  exists s2 C2, S_Data.constructed f s2 /\ without l (M_Data.dd_roles s) (M_Data.dd_roles s2) /\ M_Data.dd_other s2 = M_Data.dd_other s /\ make L rd f c s2 = Ok (C2, w0).
Proof.
  intros K M. destruct (sub_constructed f (fun c => negb (M_Data.mem c l)) s K) as (s2 & K2 & R & O & Fo).
  assert (W : without l (M_Data.dd_roles s) (M_Data.dd_roles s2)).
  { rewrite R. repeat split. exists (fun c => negb (M_Data.mem c l)). split; [reflexivity|]. intro x. rewrite negb_true_iff. split.
    - intros H I. apply mem_iff in I. congruence.
    - intro H. destruct (M_Data.mem x l) eqn:Q; [|reflexivity]. apply mem_iff in Q. contradiction. }
  destruct (bench_data f s s2 l K K2 W O) as (E2 & _). destruct (make_without L rd f c s (short_list (M_Data.r_x (M_Data.dd_roles s)) l) (M_Data.c_x s2) (M_Data.dd_force s2) _ M) as ([C2 w'] & M2 & A1 & _).
  rewrite <- E2 in M2. cbn [snd] in A1. subst w'. exists s2, C2. auto.
Qed.
(** Unknown keys of fit_args. *)
Lemma bench_unknown c s C w0 l nj store ext sm w : S_Data.constructed f s -> make L rd f c s = Ok (C, w0) -> m_sens (w_obj w) <> None -> l <> [] -> incl l (M_Data.r_x (M_Data.dd_roles s)) ->
  sensitivity_benchmark L rd f c s (BList l) (FitDict false nj store ext sm) w = Err TypeError.
Proof.
  intros K M Sn N I. destruct (short_exists c s C w0 l K M) as (s2 & C2 & K2 & W & O & M2). destruct (bench_data f s s2 l K K2 W O) as (E2 & A).
  unfold sensitivity_benchmark. destruct (m_sens (w_obj w)) as [sb|]; [|contradiction]. replace (negb (Nat.eqb (length l) 0)) with true by (destruct l; [contradiction|reflexivity]). cbn [require].
  rewrite (proj2 (subset_iff _ _) I). cbn [require bind]. rewrite A. cbn [M_Data.lift bind].
  rewrite E2 in M2. rewrite (make_force L rd f c s _ _ _ (M_Data.dd_force s)) in M2. rewrite M2. reflexivity.
Qed.
(** No features left. *)
Hypothesis Rd : sound_randomness rd.
Lemma bench_all c s C w0 w l fa : S_Data.constructed f s -> make L rd f c s = Ok (C, w0) -> later C w0 w -> incl (M_Data.r_x (M_Data.dd_roles s)) l -> incl l (M_Data.r_x (M_Data.dd_roles s)) ->
  (M_Data.dd_other s = false \/ exists d, M_Data.r_d (M_Data.dd_roles s) = [d]) -> exists e, sensitivity_benchmark L rd f c s (BList l) fa w = Err e.
Proof.
  intros K M Lw I I' Ot. destruct (m_sens (w_obj w)) as [sb|] eqn:Sn; [|exists NotImplementedError; unfold sensitivity_benchmark; rewrite Sn; reflexivity].
  assert (Sn' : m_sens (w_obj w) <> None) by congruence.
  destruct l as [|h rest].
  { exists ValueError. destruct (bench_rejects c s w fa Sn') as (_ & B & _). exact B. }
  set (l0 := (h :: rest)%list) in *. assert (Ne : l0 <> []) by discriminate.
  destruct (short_exists c s C w0 l0 K M) as (s2 & C2 & K2 & W & O & M2).
  assert (Fx : forall nj store ext sm, fit_with fa nj store ext sm -> exists e, sensitivity_benchmark L rd f c s (BList l0) fa w = Err e).
  { intros nj store ext sm Fw. rewrite (bench_eq L rd f c s s2 l0 fa nj store ext sm C2 w0 w K K2 W O Sn' Ne I' Fw M2).
    destruct (fit (some_x s2 C2) nj store ext sm w) as [w' [[]|e]] eqn:Ef; [|eauto]. exfalso.
    destruct (bench_shape L rd f Rd c s s2 l0 C w0 C2 w0 K K2 W O M M2) as (_ & Sh & D2 & _).
    assert (X : M_Data.c_x s2 = []).
    { destruct (constructed_form f s2 K2) as (d & ds & Ed & Es). pose proof (constructed_inv _ _ K2) as [IC IW IU IX IY I0 I1 IL]. assert (Q : M_Data.c_x s2 = M_Data.xd_list s2 d) by (rewrite Es; reflexivity). rewrite Q, (xd_list_features f) by (auto; rewrite Ed; now left).
      unfold S_Data.features. pose proof (short_without _ _ _ W) as Sx. rewrite Sx. destruct W as (_ & Wd & _).
      assert (Z : short_list (M_Data.r_x (M_Data.dd_roles s)) l0 = []).
      { unfold short_list. assert (Y : forall m, incl m l0 -> filter (fun x => negb (M_Data.mem x l0)) m = []) by (induction m as [|b m IH]; intro Hm; [reflexivity|]; cbn [filter]; rewrite (proj2 (mem_iff b l0)) by (apply Hm; now left); cbn [negb]; apply IH; intros x Hx; apply Hm; now right). apply Y, I. }
      rewrite Z. cbn. rewrite O. destruct Ot as [-> |(d1 & Ed1)]; [reflexivity|]. destruct (M_Data.dd_other s); [|reflexivity]. rewrite Wd, Ed1. rewrite Wd, Ed1 in Ed. injection Ed as <- _. cbn. now rewrite String.eqb_refl. }
    assert (Wf : wf (some_x s2 C2) w). { apply (wf_shape C). - destruct Sh as (A1 & A2 & A3). split; [exact A1|]. split; [exact A2|exact A3]. - exact (made_wf E L rd f c s C w0 w (S_Data.R_new _ _ K) Rd M Lw). }
    assert (Nd : c_dcols (some_x s2 C2) <> []) by exact D2.
    destruct (fit_inv (some_x s2 C2) _ _ _ _ _ _ (dcols_pos _ Nd) Wf Ef) as (_ & Ck & _).
    destruct (Ck 0%nat 0%nat (wf_rep _ _ Wf) (dcols_pos _ Nd)) as ([[[no cl] s3] v] & St). apply step_fun_iff in St. destruct St as (St & _). unfold nuis_call in St.
    destruct (set_external _ _ _ _); [|discriminate]. cbn [bind] in St. destruct (smpls_rep _ _) as [sp|]; [|discriminate]. cbn [bind] in St. unfold some_x in St. cbn [c_nuis] in St. rewrite X in St. discriminate. }
  destruct fa as [|known nj store ext sm|].
  - apply (Fx PNone (PBool true) ExtNone (PBool false)). repeat split.
  - destruct known; [apply (Fx nj store ext sm); repeat split|]. exists TypeError. exact (bench_unknown c s C w0 l0 nj store ext sm w K M Sn' Ne I').
  - exists TypeError. destruct (bench_rejects c s w FitNone Sn') as (_ & _ & _ & B). exact (B l0 Ne I').
Qed.
End New.

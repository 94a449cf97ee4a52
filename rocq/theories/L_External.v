(** Fits from complete external predictions. *)
From Verif Require Import L_CrossPath.
From Verif Require Export S_External L_ClusterSuccess L_ClassDid L_ClassesWitness.
From Coq Require Import Lia Lra FunctionalExtensionality.
Local Open Scope R_scope.
Local Open Scope res_scope.
Local Open Scope string_scope.

Lemma wf_pred_ok ext dcols learners n nr : well_formed_predictions ext dcols learners n nr -> check_external ext dcols learners n nr = Ok tt.
Proof.
  intros (el & -> & H). unfold check_external.
  assert (A : forallb (fun p => smem (fst p) dcols) el = true).
  { apply forallb_forall. intros (d & inner) Hin. apply L_ModelProps.smem_in. exact (proj1 (H d inner Hin)). }
  rewrite A. cbn [require]. clear A. revert H. generalize el. clear. induction el as [|(d & inner) el IH]; intro H; [reflexivity|]. cbn [all_ok].
  destruct (H d inner (or_introl eq_refl)) as (_ & il & -> & Hi). cbn [snd].
  assert (B : forallb (fun q => smem (fst q) learners) il = true).
  { apply forallb_forall. intros (l & e) Hin. apply L_ModelProps.smem_in. exact (proj1 (Hi l e Hin)). }
  rewrite B. cbn [require]. clear B.
  match goal with |- bind (all_ok ?ff il) _ = _ => assert (D : all_ok ff il = Ok tt) end.
  { revert Hi. generalize il. clear. induction il as [|(l & e) il IH]; intro Hi; [reflexivity|]. cbn [all_ok]. destruct (Hi l e (or_introl eq_refl)) as (_ & a & -> & Sa). cbn [snd]. rewrite Sa.
    assert (Q : shape_eqb [n; nr] [n; nr] = true) by (apply shape_eqb_true; reflexivity). rewrite Q. cbn [require bind]. apply IH. intros. apply Hi. right. assumption. }
  rewrite D. cbn [bind]. apply IH. intros. apply H. right. assumption.
Qed.
Lemma supplied_same ext d l r v v' : supplied ext d l r v -> supplied ext d l r v' -> v = v'.
Proof.
  intros (el & il & a & -> & D & G & V) (el' & il' & a' & X & D' & G' & V'). injection X as <-. rewrite D in D'. injection D' as <-. rewrite G in G'. injection G' as <-.
  apply functional_extensionality. intro i. rewrite V, V'. reflexivity.
Qed.

(** The predictions handed to the nuisance estimation are the given ones. *)
Definition all_given {P} (C : ctx P) (names : list string) (ext : ext_arg) (col : string) (r : nat) (e : string -> option vec) : Prop :=
  forall l, In l names -> exists v, e l = Some v /\ supplied ext col l r v.
Lemma given_all {P} (C : ctx P) names ext col r e : complete_predictions ext (c_dcols C) names -> incl names (c_learners C) -> In col (c_dcols C) ->
  ext_matches C ext col r e -> all_given C names ext col r e.
Proof.
  intros Hc Hi Hd M l Hl. specialize (M l (Hi l Hl)). destruct (Hc col l r Hd Hl) as (v & Hv). destruct (e l) as [v'|]; [exists v'; split; [reflexivity|exact M]|destruct (M v Hv)].
Qed.
Lemma given_val {P} (C : ctx P) names ext col r e l v : all_given C names ext col r e -> In l names -> supplied ext col l r v -> e l = Some v.
Proof. intros A Hl Hv. destruct (A l Hl) as (v' & E & Hv'). rewrite E, (supplied_same _ _ _ _ _ _ Hv Hv'). reflexivity. Qed.

Lemma set_external_some ext learners col r l v : supplied ext col l r v -> exists e, set_external ext learners col r = Ok e.
Proof.
  intros (el & il & a & -> & D & _). unfold set_external. destruct learners; [eexists; reflexivity|]. rewrite D. eexists. reflexivity.
Qed.

Lemma fit_external {P} (C : ctx P) names w nj b ext b' (est : framework -> nat -> nat -> list fold -> string -> Prop) : c_dcols C <> [] -> reachable C w -> (c_cluster C <> Some []) -> sens_var_ok C -> no_jobs_or_int nj -> c_ext_ok C = true ->
  (exists sm, m_smpls (w_obj w) = Some sm) -> well_formed_predictions ext (c_dcols C) (c_learners C) (c_n C) (m_n_rep (w_obj w)) ->
  complete_predictions ext (c_dcols C) names -> incl names (c_learners C) -> names <> [] ->
  (forall r t fs prm e col, nth_error (c_dcols C) t = Some col -> all_given C names ext col r e -> exists out, c_nuis C r t fs prm e = Ok out) ->
  (forall out F r t fs prm e col, reports C w out F -> (r < fw_n_rep F)%nat -> (t < fw_n_thetas F)%nat -> nth_error (c_dcols C) t = Some col -> all_given C names ext col r e ->
     c_nuis C r t fs prm e = Ok (out r t) -> est F r t fs col) ->
  fit_from C w nj b ext b' est.
Proof.
  intros Hd Hw Hcl Hs Hj Hx (sm & Es) Wf Cp Hi Hne Hok Hest. pose proof (reachable_wf _ _ Hw) as W. assert (Hd' : (0 < length (c_dcols C))%nat) by (destruct (c_dcols C); [congruence|cbn; lia]).
  assert (Gv : forall col r, In col (c_dcols C) -> exists e, set_external ext (c_learners C) col r = Ok e /\ all_given C names ext col r e).
  { intros col r Hc. destruct names as [|l0 names']; [congruence|]. destruct (Cp col l0 r Hc (or_introl eq_refl)) as (v & Hv). destruct (set_external_some ext (c_learners C) col r l0 v Hv) as (e & He).
    exists e. split; [exact He|]. apply given_all; [exact Cp|exact Hi|exact Hc|]. apply external_matches, He. }
  assert (Fs : exists w', fit C nj (PBool b) ext (PBool b') w = (w', Ok tt)).
  { apply fit_complete; [exact Hd'|exact W| | |apply var_ok_cond, Hs].
    - unfold fit_check, check_fit, lift. cbn [snd]. assert (Q : match nj with PNone => true | v => is_int v end = true) by (destruct Hj as [->|(k & ->)]; reflexivity).
      rewrite Q. cbn [require is_bool]. rewrite Hx. apply wf_pred_ok, Wf.
    - intros r t Hr Ht. rewrite <- (wf_smpls _ _ W sm Es) in Hr. destruct (nth_error sm r) as [fs|] eqn:Er; [|apply nth_error_None in Er; lia].
      destruct (nth_error (c_dcols C) t) as [col|] eqn:Et; [|apply nth_error_None in Et; lia]. destruct (Gv col r (nth_error_In _ _ Et)) as (e & He & Ge).
      destruct (Hok r t fs (fun l => nth r (m_params (w_obj w) l col) None) e col Et Ge) as (out & Eo).
      unfold step_fun, nuis_call, cluster_args_of, smpls_rep. rewrite Es. rewrite (nth_error_nth _ _ EmptyString Et). cbn [bind]. rewrite He. cbn [bind]. rewrite Er. cbn [bind]. rewrite Eo. cbn [bind].
      destruct (c_cluster C) as [cv|] eqn:Hc; [|eexists; reflexivity]. destruct (wf_smpls_c _ _ W cv sm Hc Es) as (sc & Esc & Lsc). rewrite Esc.
      pose proof (wf_smpls _ _ W sm Es) as Ls. destruct (nth_error sc r) as [cf|] eqn:Ec; [|apply nth_error_None in Ec; lia]. cbn [bind].
      pose proof (wf_cv _ _ W cv Hc) as Lv. destruct cv as [|v1 [|v2 [|v3 cv]]]; [congruence|eexists; reflexivity..|cbn in Lv; lia]. }
  destruct Fs as (w' & H). exists w'. destruct (fit_reports C w nj (PBool b) ext (PBool b') w' Hd Hw H) as (out & F & (sm' & Es' & Ls & Nr) & Cf & Rp & _).
  exists F, sm'. split; [exact H|]. assert (Er : fw_n_rep F = length sm') by (rewrite (rp_n_rep _ _ _ _ Rp); symmetry; exact Ls).
  split; [exact (conj Cf (conj (rp_wf _ _ _ _ Rp) (conj (rp_agg _ _ _ _ Rp) (conj Es' (conj Er (rp_n_thetas _ _ _ _ Rp))))))|].
  intros r t fs col Hr Ht. assert (Hr' : (r < length sm')%nat) by (apply nth_error_Some; congruence). assert (Ht' : (t < length (c_dcols C))%nat) by (apply nth_error_Some; congruence).
  destruct (Nr r t col) as (e & M & N); [lia|exact Ht|]. rewrite (nth_error_nth _ _ _ Hr) in N.
  eapply Hest; [exact Rp|lia|rewrite (rp_n_thetas _ _ _ _ Rp); exact Ht'|exact Ht| |exact N]. apply given_all; [exact Cp|exact Hi|eapply nth_error_In, Ht|exact M].
Qed.

(** Reading the values of a fully supplied nuisance estimation. *)
Lemma hv_ext v : hv (ext_hat v) = v. Proof. reflexivity. Qed.
Lemma hv_trim tr thr h : hv (trim_hat tr thr h) = fun i => match h_preds h i with Some p => if tr then Rmin (Rmax p thr) (1 - thr) else p | None => 0 end.
Proof. apply functional_extensionality. intro i. unfold hv, trim_hat. cbn. destruct (h_preds h i); [destruct tr; reflexivity|reflexivity]. Qed.
Lemma hv_clip tr thr v : hv (trim_hat tr thr (ext_hat v)) = clip tr thr v.
Proof. rewrite hv_trim. reflexivity. Qed.
Lemma soft_not_binary ext d l n r v (h : hat) : soft_predictions ext d l n -> supplied ext d l r v -> h_preds h = (fun i => Some (v i)) -> binary_preds n h = false.
Proof.
  intros S Hv E. destruct (S r v Hv) as (i & Hi & N0 & N1). unfold binary_preds. destruct (forallb _ (seq 0 n)) eqn:Ef; [|reflexivity]. exfalso.
  rewrite forallb_forall in Ef. specialize (Ef i ltac:(apply in_seq; lia)). rewrite E in Ef. apply orb_true_iff in Ef as [Ef|Ef]; apply reqb_spec in Ef; contradiction.
Qed.
Ltac giv A l v E S := let H := fresh in destruct (A l ltac:(cbn; tauto)) as (v & E & S).

Ltac ext_start C names vok := apply (fit_external C names); try assumption; try discriminate; try reflexivity; try lazymatch goal with |- sens_var_ok _ => vok | |- incl _ _ => intros ?l ?Hl; cbn in *; tauto end.
Ltac val A N Sv := let Q := fresh "Q" in pose proof (fun H => given_val _ _ _ _ _ _ _ _ A H Sv) as Q; rewrite (Q ltac:(cbn; tauto)) in N; clear Q.

Section Classes.
Context {E P : Type}.
Variable L : learner E row P.
Variable mc : machinery E P.

Lemma plr_ext n dcols bin x y d w nj b ext b' : let C := plr_ctx L mc n dcols false bin x y d in
  (0 < n)%nat -> dcols <> [] -> reachable C w -> no_jobs_or_int nj -> (exists sm, m_smpls (w_obj w) = Some sm) ->
  well_formed_predictions ext dcols ["ml_l"; "ml_m"] n (m_n_rep (w_obj w)) -> complete_predictions ext dcols ["ml_l"; "ml_m"] ->
  (forall t col, nth_error dcols t = Some col -> bin t = true -> soft_predictions ext col "ml_m" n) ->
  fit_from C w nj b ext b' (fun F r t fs col => forall l m, supplied ext col "ml_l" r l -> supplied ext col "ml_m" r m ->
    let v := fun i => d t i - m i in sumf n (fun i => v i * v i) <> 0 ->
    let theta := sumf n (fun i => v i * (y i - l i)) / sumf n (fun i => v i * v i) in
    estimate_is F n t r theta (fun i => v i * (y i - l i) - theta * (v i * v i)) (sumf n (fun i => v i * v i))).
Proof.
  intros C Hn Hd Hw Hj Hs Wf Cp Sf. apply (fit_external C ["ml_l"; "ml_m"]); try assumption; try discriminate; try reflexivity; [apply plr_var_ok|apply incl_refl| |].
  - intros r t fs prm e col Ht A. giv A "ml_l" l El Sl. giv A "ml_m" m Em Sm. cbn [C plr_ctx c_nuis]. unfold plr_nuis, or_ext. cbn [setup_of su_ext]. rewrite El, Em. cbn [bind setup_of su_n].
    assert (Q : (bin t && binary_preds n (ext_hat m))%bool = false).
    { destruct (bin t) eqn:Eb; [|reflexivity]. apply (soft_not_binary ext col "ml_m" n r m); [eapply Sf; eassumption|exact Sm|reflexivity]. }
    rewrite Q. cbn [negb require bind]. eexists. reflexivity.
  - intros out F r t fs prm e col Rp Hr Ht Hc A N l m Sl Sm v Hs' theta. cbn [C plr_ctx c_nuis] in N. unfold plr_nuis, or_ext in N. cbn [setup_of su_ext] in N.
    rewrite (given_val C _ _ _ _ _ _ _ A (or_introl eq_refl) Sl), (given_val C _ _ _ _ _ _ _ A (or_intror (or_introl eq_refl)) Sm) in N. cbn [bind andb] in N.
    destruct (negb _); cbn [require bind] in N; [|discriminate N]. injection N as N.
    apply (ratio_estimate C w out F r t (fun i => v i * v i) (fun i => v i * (y i - l i)) Hn eq_refl Rp Hr Ht); [|exact Hs'].
    intros i _. rewrite <- N. split; reflexivity.
Qed.

Lemma plr_iv_ext n dcols bin x y d w nj b ext b' : let C := plr_ctx L mc n dcols true bin x y d in
  (0 < n)%nat -> dcols <> [] -> reachable C w -> no_jobs_or_int nj -> (exists sm, m_smpls (w_obj w) = Some sm) ->
  well_formed_predictions ext dcols ["ml_l"; "ml_m"; "ml_g"] n (m_n_rep (w_obj w)) -> complete_predictions ext dcols ["ml_m"; "ml_g"] ->
  (forall t col, nth_error dcols t = Some col -> bin t = true -> soft_predictions ext col "ml_m" n) ->
  fit_from C w nj b ext b' (fun F r t fs col => forall m g, supplied ext col "ml_m" r m -> supplied ext col "ml_g" r g ->
    let v := fun i => d t i - m i in sumf n (fun i => v i * d t i) <> 0 ->
    let theta := sumf n (fun i => v i * (y i - g i)) / sumf n (fun i => v i * d t i) in
    estimate_is F n t r theta (fun i => v i * (y i - g i) - theta * (v i * d t i)) (sumf n (fun i => v i * d t i))).
Proof.
  intros C Hn Hd Hw Hj Hs Wf Cp Sf. ext_start C ["ml_m"; "ml_g"] ltac:(apply plr_var_ok).
  - intros r t fs prm e col Ht A. giv A "ml_m" m Em Sm. giv A "ml_g" g Eg Sg. cbn [C plr_ctx c_nuis]. unfold plr_nuis, or_ext. cbn [setup_of su_ext]. rewrite Em, Eg. cbn [andb].
    assert (Q : (bin t && binary_preds n (ext_hat m))%bool = false).
    { destruct (bin t) eqn:Eb; [|reflexivity]. apply (soft_not_binary ext col "ml_m" n r m); [eapply Sf; eassumption|exact Sm|reflexivity]. }
    destruct (e "ml_l"); cbn [bind setup_of su_n]; rewrite Q; cbn [negb require bind]; eexists; reflexivity.
  - intros out F r t fs prm e col Rp Hr Ht Hc A N m g Sm Sg v Hs' theta. cbn [C plr_ctx c_nuis] in N. unfold plr_nuis, or_ext in N. cbn [setup_of su_ext] in N.
    val A N Sm. val A N Sg. cbn [andb] in N.
    assert (Q : no_a (out r t) = (fun i => - (v i * d t i)) /\ no_b (out r t) = (fun i => v i * (y i - g i))).
    { destruct (e "ml_l"); cbn [bind] in N; (destruct (negb _); cbn [require bind] in N; [|discriminate N]); injection N as N; rewrite <- N; split; reflexivity. }
    apply (ratio_estimate C w out F r t (fun i => v i * d t i) (fun i => v i * (y i - g i)) Hn eq_refl Rp Hr Ht); [|exact Hs'].
    intros i _. destruct Q as (-> & ->). split; reflexivity.
Qed.

Lemma pliv_ext n dcols x y d z w nj b ext b' : let C := pliv_ctx L mc n dcols false x y d z in
  (0 < n)%nat -> dcols <> [] -> reachable C w -> no_jobs_or_int nj -> (exists sm, m_smpls (w_obj w) = Some sm) ->
  well_formed_predictions ext dcols ["ml_l"; "ml_m"; "ml_r"] n (m_n_rep (w_obj w)) -> complete_predictions ext dcols ["ml_l"; "ml_m"; "ml_r"] ->
  fit_from C w nj b ext b' (fun F r t fs col => forall l m q, supplied ext col "ml_l" r l -> supplied ext col "ml_m" r m -> supplied ext col "ml_r" r q ->
    let v := fun i => z i - m i in let a := fun i => (d t i - q i) * v i in sumf n a <> 0 ->
    let theta := sumf n (fun i => v i * (y i - l i)) / sumf n a in
    estimate_is F n t r theta (fun i => v i * (y i - l i) - theta * a i) (sumf n a)).
Proof.
  intros C Hn Hd Hw Hj Hs Wf Cp. ext_start C ["ml_l"; "ml_m"; "ml_r"] ltac:(exact I).
  - intros r t fs prm e col Ht A. giv A "ml_l" l El Sl. giv A "ml_m" m Em Sm. giv A "ml_r" q Er Sr. cbn [C pliv_ctx c_nuis]. unfold pliv_x_nuis, or_ext. cbn [setup_of su_ext]. rewrite El, Em, Er. cbn [bind]. eexists. reflexivity.
  - intros out F r t fs prm e col Rp Hr Ht Hc A N l m q Sl Sm Sq v a Hs' theta. cbn [C pliv_ctx c_nuis] in N. unfold pliv_x_nuis, or_ext in N. cbn [setup_of su_ext] in N.
    val A N Sl. val A N Sm. val A N Sq. cbn [bind] in N. injection N as N.
    apply (ratio_estimate C w out F r t a (fun i => v i * (y i - l i)) Hn eq_refl Rp Hr Ht); [|exact Hs']. intros i _. rewrite <- N. split; reflexivity.
Qed.
Lemma pliv_iv_ext n dcols x y d z w nj b ext b' : let C := pliv_ctx L mc n dcols true x y d z in
  (0 < n)%nat -> dcols <> [] -> reachable C w -> no_jobs_or_int nj -> (exists sm, m_smpls (w_obj w) = Some sm) ->
  well_formed_predictions ext dcols ["ml_l"; "ml_m"; "ml_r"; "ml_g"] n (m_n_rep (w_obj w)) -> complete_predictions ext dcols ["ml_l"; "ml_m"; "ml_r"; "ml_g"] ->
  fit_from C w nj b ext b' (fun F r t fs col => forall m g, supplied ext col "ml_m" r m -> supplied ext col "ml_g" r g ->
    let v := fun i => z i - m i in let a := fun i => v i * d t i in sumf n a <> 0 ->
    let theta := sumf n (fun i => v i * (y i - g i)) / sumf n a in
    estimate_is F n t r theta (fun i => v i * (y i - g i) - theta * a i) (sumf n a)).
Proof.
  intros C Hn Hd Hw Hj Hs Wf Cp. ext_start C ["ml_l"; "ml_m"; "ml_r"; "ml_g"] ltac:(exact I).
  - intros r t fs prm e col Ht A. giv A "ml_l" l El Sl. giv A "ml_m" m Em Sm. giv A "ml_r" q Er Sr. giv A "ml_g" g Eg Sg. cbn [C pliv_ctx c_nuis]. unfold pliv_x_nuis, or_ext. cbn [setup_of su_ext]. rewrite El, Em, Er, Eg. cbn [bind]. eexists. reflexivity.
  - intros out F r t fs prm e col Rp Hr Ht Hc A N m g Sm Sg v a Hs' theta. cbn [C pliv_ctx c_nuis] in N. unfold pliv_x_nuis, or_ext in N. cbn [setup_of su_ext] in N.
    giv A "ml_l" l El Sl. giv A "ml_r" q Er Sr. rewrite El, Er in N. val A N Sm. val A N Sg. cbn [bind] in N. injection N as N.
    apply (ratio_estimate C w out F r t a (fun i => v i * (y i - g i)) Hn eq_refl Rp Hr Ht); [|exact Hs']. intros i _. rewrite <- N. split; reflexivity.
Qed.

(** Several instruments. *)
Lemma or_ext_some su name (v : vec) k : su_ext su name = Some v -> or_ext (E := E) (P := P) su name k = Ok (ext_hat v).
Proof. unfold or_ext. intros ->. reflexivity. Qed.
Lemma ext_instruments su x smpls (mf : string -> vec) (zs : list (string * vec)) : (forall p, In p zs -> su_ext su ("ml_m_" ++ fst p)%string = Some (mf (fst p))) ->
  map_res (fun p : string * vec => let! h := or_ext su ("ml_m_" ++ fst p)%string (fit_checked L su ("ml_m_" ++ fst p)%string "ml_m" x (snd p) smpls smpls) in Ok (("ml_m_" ++ fst p)%string, h)) zs = Ok (map (fun p => (("ml_m_" ++ fst p)%string, ext_hat (mf (fst p)))) zs).
Proof.
  induction zs as [|p zs IH]; intro H; [reflexivity|]. cbn [map_res map]. unfold or_ext at 1. rewrite (H p (or_introl eq_refl)). cbn [bind].
  rewrite IH by (intros q Hq; apply H; right; exact Hq). reflexivity.
Qed.
Lemma pliv_several_ext proj n dcols x y d zs w nj b ext b' : let C := pliv_several_ctx L mc n proj dcols x y d zs in
  let names := ("ml_l" :: "ml_r" :: map (fun p => "ml_m_" ++ fst p)%string zs)%list in
  (0 < n)%nat -> dcols <> [] -> reachable C w -> no_jobs_or_int nj -> (exists sm, m_smpls (w_obj w) = Some sm) ->
  well_formed_predictions ext dcols names n (m_n_rep (w_obj w)) -> complete_predictions ext dcols names ->
  fit_from C w nj b ext b' (fun F r t fs col => forall l q (mf : string -> vec), supplied ext col "ml_l" r l -> supplied ext col "ml_r" r q ->
    (forall p, In p zs -> supplied ext col ("ml_m_" ++ fst p)%string r (mf (fst p))) ->
    let v := fun i => map (fun p : string * vec => snd p i - mf (fst p) i) zs in
    let h := fun i => proj (map (fun j => (v j, d t j - q j)) (seq 0 n)) (v i) in
    let a := fun i => (d t i - q i) * h i in sumf n a <> 0 ->
    let theta := sumf n (fun i => h i * (y i - l i)) / sumf n a in
    estimate_is F n t r theta (fun i => h i * (y i - l i) - theta * a i) (sumf n a)).
Proof.
  intros C names Hn Hd Hw Hj Hs Wf Cp. apply (fit_external C names); try assumption; try discriminate; try reflexivity; try apply incl_refl; try exact I.
  - intros r t fs prm e col Ht A. giv A "ml_l" l El Sl. giv A "ml_r" q Er Sr. cbn [C pliv_several_ctx c_nuis]. unfold pliv_xs_nuis.
    assert (Q : exists mf : string -> vec, forall p, In p zs -> e ("ml_m_" ++ fst p)%string = Some (mf (fst p))).
    { exists (fun z => match e ("ml_m_" ++ z)%string with Some v => v | None => fun _ => 0 end). intros p Hp. destruct (A ("ml_m_" ++ fst p)%string) as (v & Ev & _); [right; right; apply (in_map (fun p => ("ml_m_" ++ fst p)%string) zs p Hp)|]. rewrite Ev. reflexivity. }
    destruct Q as (mf & Q). rewrite (or_ext_some (setup_of mc n r t prm e) "ml_l" l) by exact El. cbn [bind]. rewrite (ext_instruments (setup_of mc n r t prm e) (x t) fs mf zs Q). cbn [bind]. rewrite (or_ext_some (setup_of mc n r t prm e) "ml_r" q) by exact Er. cbn [bind]. eexists. reflexivity.
  - intros out F r t fs prm e col Rp Hr Ht Hc A N l q mf Sl Sq Sz v h a Hs' theta. cbn [C pliv_several_ctx c_nuis] in N. unfold pliv_xs_nuis in N.
    rewrite (or_ext_some (setup_of mc n r t prm e) "ml_l" l) in N by exact (given_val _ _ _ _ _ _ _ _ A (or_introl eq_refl) Sl). cbn [bind] in N.
    rewrite (ext_instruments (setup_of mc n r t prm e) (x t) fs mf zs) in N.
    2:{ intros p Hp. apply (given_val _ _ _ _ _ _ _ _ A); [right; right; apply (in_map (fun p => ("ml_m_" ++ fst p)%string) zs p Hp)|apply Sz, Hp]. }
    cbn [bind] in N. rewrite (or_ext_some (setup_of mc n r t prm e) "ml_r" q) in N by exact (given_val _ _ _ _ _ _ _ _ A (or_intror (or_introl eq_refl)) Sq). cbn [bind] in N. injection N as N.
    assert (Ev : forall i, map (fun p : R * R => fst p - snd p) (combine (map (fun p : string * vec => snd p i) zs) (map (fun p : string * hat => hv (snd p) i) (map (fun p : string * vec => (("ml_m_" ++ fst p)%string, ext_hat (mf (fst p)))) zs))) = v i).
    { intro i. unfold v. rewrite map_map. cbn [snd]. clear. induction zs as [|p zs' IH]; [reflexivity|]. cbn [map combine fst snd]. f_equal. exact IH. }
    assert (Eh : forall i, proj (map (fun j => (map (fun p : R * R => fst p - snd p) (combine (map (fun p : string * vec => snd p j) zs) (map (fun p : string * hat => hv (snd p) j) (map (fun p : string * vec => (("ml_m_" ++ fst p)%string, ext_hat (mf (fst p)))) zs))), d t j - q j)) (seq 0 n))
        (map (fun p : R * R => fst p - snd p) (combine (map (fun p : string * vec => snd p i) zs) (map (fun p : string * hat => hv (snd p) i) (map (fun p : string * vec => (("ml_m_" ++ fst p)%string, ext_hat (mf (fst p)))) zs)))) = h i).
    { intro i. unfold h. rewrite Ev. f_equal. apply map_ext. intro j. rewrite Ev. reflexivity. }
    apply (ratio_estimate C w out F r t a (fun i => h i * (y i - l i)) Hn eq_refl Rp Hr Ht); [|exact Hs']. intros i _. rewrite <- N. unfold a. rewrite <- (Eh i). split; reflexivity.
Qed.
End Classes.

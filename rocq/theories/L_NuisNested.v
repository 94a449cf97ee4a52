(** Projected instruments, several instruments, nested cross-fitting of the
    sample selection model. *)
From Verif Require Export L_NuisModels L_QNested.
From Coq Require Import Lia Lra.
Local Open Scope R_scope.
Local Open Scope res_scope.
Local Open Scope string_scope.

Section Train.
Context {E X P : Type}.
Variable L : learner E X P.
Lemma loop_train smpls : forall k models x v p t tr tgs p' t' tr' tgs', fold_loop L k smpls models x (YVec v) false true p t tr tgs = Ok (p', t', tr', tgs') ->
  exists more, tr' = (tr ++ more)%list /\ length more = length smpls /\
    forall j h, nth_error smpls j = Some h -> exists m, nth_error models (k + j) = Some m /\ nth_error more j = Some (map (fun a => [a]) (ln_predict L m (map x (fst h)))).
Proof.
  induction smpls as [|h smpls IH]; intros k models x v p t tr tgs p' t' tr' tgs' H; cbn [fold_loop] in H.
  - injection H as _ _ <- _. exists []. rewrite app_nil_r. split; [reflexivity|]. split; [reflexivity|]. intros [|j] h Hj; discriminate.
  - destruct (nth_error models k) as [m|] eqn:Em; [|discriminate]. cbn [bind] in H. apply IH in H as (more & -> & Hl & Hm). eexists. split; [rewrite <- app_assoc; reflexivity|]. split; [cbn; now rewrite Hl|].
    intros [|j] h' Hj; cbn in Hj.
    + injection Hj as <-. exists m. rewrite Nat.add_0_r. split; [exact Em|reflexivity].
    + destruct (Hm j h' Hj) as (m' & M1 & M2). exists m'. rewrite Nat.add_succ_r. split; [exact M1|exact M2].
Qed.
Variables (f : E -> X -> R) (g : E -> X -> list R).
Hypothesis Hrow : row_wise L f g.
Hypothesis Hclone : clone_ok L.
(** The exported train predictions are those of the models that predict the test rows. *)
Lemma cv_train_spec order est n x v smpls ps wm r : partition_of n smpls -> schedule order (length smpls) -> cv_predict L order est n x (YVec v) smpls ps false true wm = Ok r ->
  exists tr tgs, cv_train r = Some (tr, tgs) /\ length tr = length smpls /\
    forall k h, nth_error smpls k = Some h -> exists m p, param_of ps k p /\ fitted L est p (train_rows x v h) m /\ nth_error tr k = Some (map (fun j => [f m (x j)]) (fst h)) /\
      forall i, In i (snd h) -> cv_preds r i = Some (f m (x i)).
Proof.
  intros Hp Hs H. pose proof (cv_inv L f g Hrow Hclone _ _ _ _ _ _ _ _ _ _ _ Hp Hs H) as (_ & Pb). rewrite cv_cases in H by (try assumption; apply (cv_nonempty _ _ _ _ _ _ _ _ _ _ _ _ H)).
  replace (is_fast ps (YVec v) true wm) with false in H by (unfold is_fast; cbn; destruct (is_list_params ps); reflexivity).
  unfold cv_manual in H. cbn [orb require andb negb is_fold_target] in H.
  destruct (map_res _ (seq 0 (length smpls))) as [y_list|e] eqn:Ey in H; [|discriminate]. cbn [bind] in H.
  destruct (match ps with FoldDicts l => Nat.eqb (length l) (length smpls) | _ => true end); cbn [require] in H; [|discriminate].
  match type of H with bind ?m _ = _ => destruct m as [models|e] eqn:Em end; [|discriminate]. cbn [bind] in H.
  apply parallel_iff in Em; [|exact Hs]. apply map_res_nth in Em. destruct Em as [Lm Em]. apply map_res_nth in Ey. destruct Ey as [Ly Ey].
  match type of H with bind ?m _ = _ => destruct m as [[[[p' t'] tr'] tgs']|e] eqn:El end; [|discriminate]. cbn [bind] in H. injection H as <-. cbn [cv_train cv_preds] in *.
  apply loop_train in El as (more & -> & Hl & Hm). exists more, tgs'. split; [reflexivity|]. split; [exact Hl|]. intros k h Hk.
  destruct (Hm k h Hk) as (m & M1 & M2). assert (Lk : (k < length smpls)%nat) by (apply nth_error_Some; congruence). destruct (Em k Lk) as (m' & M1' & M3). cbn [Nat.add] in M1. assert (m' = m) by congruence. subst m'.
  destruct (Ey k Lk) as (w & W1 & W2). apply (task_fits L est x smpls ps (YVec v) y_list k Lk) in M3; [|rewrite W2; exact W1|rewrite W2; reflexivity].
  pose proof M3 as Fm. destruct M3 as (p & data & Q1 & Q2 & Q3). rewrite (nth_error_nth _ _ _ Hk) in Q2. cbn in Q2. subst data. exists m, p. split; [exact Q1|]. split; [exact Q3|]. split.
  - rewrite M2. f_equal. rewrite (proj1 (Hrow m _)), !map_map. reflexivity.
  - intros i Hi. destruct (Pb k h i Hk Hi) as (m2 & v2 & F2 & V2 & PV). unfold used in F2. assert (m2 = m) by (apply (fits_fun _ _ _ _ _ _ _ _ _ F2 Fm)). subst m2.
    cbn [cv_preds] in V2. rewrite V2. unfold val_of in PV. replace (is_fast ps (YVec v) true wm) with false in PV by (unfold is_fast; cbn; destruct (is_list_params ps); reflexivity). cbn in PV. now rewrite PV.
Qed.
End Train.

Section Nested.
Context {E P : Type}.
Variable L : learner E row P.
Variables (f : E -> row -> R) (g : E -> row -> list R).
Variable su : setup E P.
Notation n := (su_n su).
Notation Nuisance := (nuisance L f g su).
Notation Crossfit := (cross_fitted L f g su).
Notation Fit := (fit_ok L g su).
Notation Group := (group_rows n).

(** ** Projected instruments *)
Lemma tested_at smpls i : partition_of n smpls -> (i < n)%nat -> exists k h, tested_in smpls i k h.
Proof. intros Hp Hi. destruct (tested_exists n smpls i Hp Hi) as (k & h & T). exists k, h. exact T. Qed.
Lemma combine_map_same {A B} (u : nat -> A) (v : nat -> B) l : combine (map u l) (map v l) = map (fun j => (u j, v j)) l.
Proof. induction l; cbn; congruence. Qed.
Lemma pliv_xz x zrow y d smpls out : setting L f g su smpls -> labels_ok L g su "ml_l" y everyone smpls -> pliv_xz_nuis L su x zrow y d smpls = Ok out ->
  exists l m mt, Crossfit "ml_l" "ml_l" x y whole_train smpls l /\ projected L f su x (fun i => x i ++ zrow i)%list d smpls m mt /\
    reported su out "ml_l" l /\ reported su out "ml_m" m /\ reported su out "ml_r" mt /\
    score_is su out (fun i => - ((d i - mt i) * (m i - mt i))) (fun i => (m i - mt i) * (y i - l i)).
Proof.
  intros S Fl H. unfold pliv_xz_nuis in H. inv1 H. inv1 H. inv1 H. inv1 H. inv1 H. inv1 H. subst out. rename h0 into rm, h1 into rr.
  apply checked_inv in E0. apply (fit_all L f g) in E0; [|assumption|exact Fl]. destruct E0 as (A & K & _). destruct S as [S1 S2 S3 S4 S5].
  destruct (cv_train_spec L f g S1 S2 _ _ _ _ _ _ _ _ _ S3 (S5 _) E1) as (tr & tgs & T1 & T2 & T3). rewrite T1 in E2. clear T1.
  pose proof (own_fold L f g S1 S2 _ _ _ _ _ _ _ _ _ _ S3 (S5 _) E2) as O.
  set (hm := {| h_preds := cv_preds rm; h_targets := cv_targets rm |}) in *. set (ht := {| h_preds := cv_preds rr; h_targets := cv_targets rr |}) in *.
  assert (Q : forall i, (i < n)%nat -> exists k h e e', tested_in smpls i k h /\ fitted_on L su "ml_m" "ml_m" k (fun i => x i ++ zrow i)%list d (fst h) e /\ h_preds hm i = Some (f e (x i ++ zrow i)%list) /\
      fitted_on L su "ml_r" "ml_r" k x (fun j => f e (x j ++ zrow j)%list) (fst h) e' /\ h_preds ht i = Some (f e' (x i))).
  { intros i Hi. destruct (O i Hi) as (k & h' & p & data & e' & (U1 & U2 & U3) & V1 & V2 & V3 & V4). destruct (T3 k h' U1) as (e & p0 & W1 & W2 & W3 & W4).
    cbn in V2. destruct V2 as (v & V2 & _ & ->). rewrite nth_error_map, W3 in V2. cbn in V2. injection V2 as <-. rewrite map_map in V3. cbn in V3. rewrite combine_map_same in V3.
    exists k, h', e, e'. split; [repeat split; assumption|]. split; [exists p0; split; [exact W1|exact W2]|]. split; [apply W4, U2|]. split; [exists p; split; [exact V1|exact V3]|exact V4]. }
  exists (hv h), (hv hm), (hv ht). split; [exact A|]. split.
  { intros i Hi. destruct (Q i Hi) as (k & h' & e & e' & Q1 & Q2 & Q3 & Q4 & Q5). exists k, h', e, e'. unfold hv. rewrite Q3, Q5. auto. }
  split; [apply out_reported; [reflexivity|exact K]|]. split; [|split].
  - apply out_reported; [reflexivity|]. intros i Hi. destruct (Q i Hi) as (k & h' & e & e' & Q1 & Q2 & Q3 & Q4 & Q5). unfold hv. rewrite Q3. reflexivity.
  - apply out_reported; [reflexivity|]. intros i Hi. destruct (Q i Hi) as (k & h' & e & e' & Q1 & Q2 & Q3 & Q4 & Q5). unfold hv. rewrite Q5. reflexivity.
  - apply scored_is. intros i _. cbn. split; ring.
Qed.

(** ** Several instruments *)
Lemma dict_get_app {A} k (a b : list (string * A)) : dict_get k (a ++ b)%list = match dict_get k a with Some v => Some v | None => dict_get k b end.
Proof. induction a as [|(k0, v0) a IH]; [reflexivity|]. cbn. destruct (String.eqb k k0); [reflexivity|exact IH]. Qed.
Lemma prefix_inj a b : ("ml_m_" ++ a)%string = ("ml_m_" ++ b)%string -> a = b.
Proof. cbn. intro H. now injection H. Qed.
Lemma instruments_spec (x : nat -> row) smpls : setting L f g su smpls -> forall (zs : list (string * vec)) ms, NoDup (map fst zs) ->
  (forall name z, In (name, z) zs -> Fit ("ml_m_" ++ name)%string "ml_m" z everyone smpls) ->
  map_res (fun p : string * vec => let name := ("ml_m_" ++ fst p)%string in let! h := or_ext su name (fit_checked L su name "ml_m" x (snd p) smpls smpls) in Ok (name, h)) zs = Ok ms ->
  exists mf : string -> vec, (forall i, map (fun p : string * hat => hv (snd p) i) ms = map (fun p => mf (fst p) i) zs) /\
    forall name z, In (name, z) zs -> Nuisance ("ml_m_" ++ name)%string "ml_m" x z whole_train smpls (mf name) /\ exists h, dict_get ("ml_m_" ++ name)%string ms = Some h /\ known su h /\ hv h = mf name.
Proof.
  intros S. induction zs as [|(nm, z) zs IH]; intros ms Nd F H; cbn [map_res] in H.
  - inv1 H. subst ms. exists (fun _ _ => 0). split; [reflexivity|]. intros ? ? [].
  - inv1 H. inv1 E0. inv1 E0. subst h. cbn [fst snd] in E1. inv1 H. inv1 H. subst ms. cbn in Nd. inversion Nd as [|? ? Hnot Nd']; subst.
    destruct (IH h Nd') as (mf & M1 & M2); [intros ? ? Hin; apply F; now right|reflexivity|]. apply (nuis_all L f g) in E1 as (N1 & K1); [|assumption|apply (F nm z); now left].
    exists (fun s => if String.eqb s nm then hv h0 else mf s). split.
    + intro i. cbn. rewrite String.eqb_refl. f_equal. rewrite M1. apply map_ext_in. intros (nm', z') Hin. cbn. destruct (String.eqb_spec nm' nm) as [->|]; [|reflexivity]. exfalso. apply Hnot. apply in_map_iff. exists (nm, z'). auto.
    + intros name z' [Q|Q].
      * injection Q as <- <-. rewrite String.eqb_refl. split; [exact N1|]. exists h0. cbn [dict_get fst]. rewrite String.eqb_refl. auto.
      * destruct (String.eqb_spec name nm) as [->|Hne]; [exfalso; apply Hnot; apply in_map_iff; exists (nm, z'); auto|]. destruct (M2 name z' Q) as (A & hh & B1 & B2 & B3). split; [exact A|]. exists hh. split; [|auto].
        cbn [dict_get fst]. destruct (String.eqb_spec ("ml_m_" ++ name) ("ml_m_" ++ nm)) as [Eq|_]; [apply prefix_inj in Eq; contradiction|exact B1].
Qed.
Lemma pliv_several proj x y d zs smpls out : setting L f g su smpls -> NoDup (map fst zs) -> Fit "ml_l" "ml_l" y everyone smpls ->
  (forall name z, In (name, z) zs -> Fit ("ml_m_" ++ name)%string "ml_m" z everyone smpls) -> Fit "ml_r" "ml_r" d everyone smpls ->
  pliv_xs_nuis L su proj x y d zs smpls = Ok out ->
  exists l r (mf : string -> vec), Nuisance "ml_l" "ml_l" x y whole_train smpls l /\ Nuisance "ml_r" "ml_r" x d whole_train smpls r /\ reported su out "ml_l" l /\ reported su out "ml_r" r /\
    (forall name z, In (name, z) zs -> Nuisance ("ml_m_" ++ name)%string "ml_m" x z whole_train smpls (mf name) /\ reported su out ("ml_m_" ++ name)%string (mf name)) /\
    let v := fun i => map (fun p : string * vec => snd p i - mf (fst p) i) zs in
    let fitted_values := fun i => proj (map (fun j => (v j, d j - r j)) (seq 0 n)) (v i) in
    score_is su out (fun i => - ((d i - r i) * fitted_values i)) (fun i => fitted_values i * (y i - l i)).
Proof.
  intros S Nd Fl Fm Fr H. unfold pliv_xs_nuis in H. inv1 H. inv1 H. inv1 H. inv1 H. subst out.
  apply (nuis_all L f g) in E0 as (N1 & K1); [|assumption|exact Fl]. apply (nuis_all L f g) in E2 as (N2 & K2); [|assumption|exact Fr].
  destruct (instruments_spec x smpls S zs h0 Nd Fm E1) as (mf & M1 & M2).
  assert (Keys : forall k hh, dict_get k h0 = Some hh -> exists s, k = ("ml_m_" ++ s)%string).
  { revert E1. clear. revert h0. induction zs as [|(nm, z) zs IH]; intros h0 E1 k hh Hk; cbn [map_res] in E1; [inv1 E1; subst h0; discriminate|]. inv1 E1. inv1 E0. inv1 E0. subst h. inv1 E1. inv1 E1. subst h0. cbn [dict_get fst] in Hk.
    destruct (String.eqb_spec k ("ml_m_" ++ nm)) as [->|_]; [eauto|]. apply (IH h eq_refl k hh Hk). }
  exists (hv h), (hv h1), mf. split; [exact N1|]. split; [exact N2|]. split; [apply out_reported; [reflexivity|exact K1]|]. split.
  { apply out_reported; [|exact K2]. cbn [dict_get fst]. replace (String.eqb "ml_r" "ml_l") with false by reflexivity. rewrite dict_get_app. destruct (dict_get "ml_r" h0) eqn:Ek; [apply Keys in Ek as (s & Ek); discriminate|reflexivity]. }
  split.
  { intros name z Hin. destruct (M2 name z Hin) as (A & hh & B1 & B2 & B3). split; [exact A|]. rewrite <- B3. apply out_reported; [|exact B2].
    cbn [dict_get fst]. replace (String.eqb ("ml_m_" ++ name) "ml_l") with false by reflexivity. rewrite dict_get_app, B1. reflexivity. }
  cbn zeta. apply scored_is. intros i _. cbn [el_a el_b pliv_proj_score].
  assert (V : forall j, map (fun p : R * R => fst p - snd p) (combine (map (fun p : string * vec => snd p j) zs) (map (fun p : string * hat => hv (snd p) j) h0)) = map (fun p : string * vec => snd p j - mf (fst p) j) zs).
  { intro j. rewrite M1. clear. induction zs as [|p zs IH]; [reflexivity|]. cbn. now rewrite IH. }
  rewrite V. assert (D : map (fun i0 => (map (fun p : R * R => fst p - snd p) (combine (map (fun p : string * vec => snd p i0) zs) (map (fun p : string * hat => hv (snd p) i0) h0)), d i0 - hv h1 i0)) (seq 0 n) = map (fun j => (map (fun p : string * vec => snd p j - mf (fst p) j) zs, d j - hv h1 j)) (seq 0 n)).
  { apply map_ext. intro j. now rewrite V. }
  rewrite D. split; reflexivity.
Qed.

(** ** Nested cross-fitting *)
Lemma model_fitted name lrn k x y rows e : (let! p := fold_params (su_params su name) k in prepare L (su_learner su lrn) p) = Ok e -> forall e', ln_fit L e (map (fun j => (x j, y j)) rows) = Ok e' -> fitted_on L su name lrn k x y rows e'.
Proof.
  intros H e' F. inv1 H. exists h. split.
  - unfold fold_params in E0. unfold param_of. destruct (su_params su name); [inv1 E0; auto|inv1 E0; auto|]. destruct (nth_error l k); [|discriminate]. inv1 E0. eauto.
  - unfold prepare in H. unfold fitted. destruct h; [|inv1 H; subst e; exact F]. exists e. auto.
Qed.
Lemma col1_nth rows vs : col1 rows = Ok vs -> length vs = length rows /\ forall k r, nth_error rows k = Some r -> exists v, nth_error vs k = Some v /\ nth_error r 1 = Some v.
Proof.
  intro H. unfold col1 in H. destruct (map_res_nth_error _ _ _ H) as (A & B). split; [exact A|]. intros k r Hk. destruct (B k r Hk) as (v & V1 & V2). exists v. split; [exact V1|]. destruct (nth_error r 1); [congruence|discriminate].
Qed.
Lemma predict01_at e0 data e xs vs : row_wise L f g -> classifier_ok L g -> ln_fit L e0 data = Ok e -> predict01 L e xs = Ok vs ->
  length vs = length xs /\ forall k v, nth_error xs k = Some v -> exists p, nth_error vs k = Some p /\ prob_at f g e v p.
Proof.
  intros Hr Hc Hf H. unfold predict01 in H. destruct (Hr e xs) as (R1 & R2). rewrite R2 in H. destruct (Hc _ _ _ Hf) as (_ & _ & Hlen).
  destruct (forallb _ _) eqn:Ef in H.
  - apply col1_nth in H as (H1 & H2). rewrite map_length in H1. split; [exact H1|]. intros k v Hk. destruct (H2 k (g e v)) as (p & P1 & P2); [apply (map_nth_error (g e)); exact Hk|]. exists p. split; [exact P1|].
    split; [intro; exact P2|]. intro Hne. exfalso. apply Hne. rewrite forallb_forall in Ef. specialize (Ef (g e v)). apply Nat.eqb_eq, Ef, in_map. apply nth_error_In in Hk. exact Hk.
  - inv1 H. rewrite R1 in H. subst vs. rewrite map_length. split; [reflexivity|]. intros k v Hk. exists (f e v). split; [apply map_nth_error, Hk|]. split; [|reflexivity].
    intro Hl. exfalso. assert (T : forallb (fun r => Nat.eqb (length r) 2) (map (g e) xs) = true).
    { apply forallb_forall. intros r Hin. apply in_map_iff in Hin as (v' & <- & _). rewrite Hlen, <- (Hlen v), Hl. reflexivity. }
    congruence.
Qed.
Lemma collect_skip fs : forall rs (v : nat -> option R) sel i, (forall h, In h fs -> ~ In i (snd h)) ->
  fold_left (fun v (p : fold * ssm_fold_res) => scatter (snd (fst p)) (sel (snd p)) v) (combine fs rs) v i = v i.
Proof.
  induction fs as [|h fs IH]; intros rs v sel i H; [reflexivity|]. destruct rs as [|r rs]; [reflexivity|]. cbn [combine fold_left fst snd]. rewrite IH by (intros h' Hh'; apply H; now right).
  apply scatter_skip, H. now left.
Qed.
Lemma collect_hit sel i : forall fs rs (v : nat -> option R) k h r, tested_in fs i k h -> NoDup (snd h) -> nth_error rs k = Some r -> length (sel r) = length (snd h) ->
  fold_left (fun v (p : fold * ssm_fold_res) => scatter (snd (fst p)) (sel (snd p)) v) (combine fs rs) v i = nth_error (sel r) (position i (snd h)).
Proof.
  induction fs as [|h0 fs IH]; intros rs v k h r (T1 & T2 & T3) Nd Hr Hl; [destruct k; discriminate|]. destruct rs as [|r0 rs]; [destruct k; discriminate|]. cbn [combine fold_left fst snd].
  destruct k as [|k]; cbn in T1, Hr.
  - injection T1 as <-. injection Hr as <-. rewrite collect_skip.
    + rewrite scatter_spec by assumption. destruct (in_dec Nat.eq_dec i (snd h0)); [reflexivity|contradiction].
    + intros h' Hh' Hi. apply In_nth_error in Hh' as (k' & Hk'). specialize (T3 (S k') h' Hk' Hi). discriminate.
  - apply (IH rs _ k h r); try assumption. split; [exact T1|]. split; [exact T2|]. intros k' h' Hk' Hi. specialize (T3 (S k') h' Hk' Hi). congruence.
Qed.
Lemma position_error i l : In i l -> nth_error l (position i l) = Some i.
Proof. intro H. rewrite (nth_error_nth' l 0%nat) by (apply position_lt, H). f_equal. apply position_nth, H. Qed.
Lemma part_nodup (smpls : list fold) : forall k h, NoDup (flat_map snd smpls) -> nth_error smpls k = Some h -> NoDup (snd h).
Proof.
  induction smpls as [|h0 smpls IH]; intros k h Nd Hk; [destruct k; discriminate|]. cbn in Nd. destruct k as [|k]; cbn in Hk.
  - injection Hk as <-. revert Nd. generalize (flat_map snd smpls). intros l Nd. induction (snd h0) as [|a t IHt]; [constructor|]. cbn in Nd. inversion Nd as [|? ? Ha Nd']; subst. constructor; [intro Hin; apply Ha, in_or_app; now left|apply IHt, Nd'].
  - apply (IH k h); [|exact Hk]. clear - Nd. induction (snd h0) as [|a t IHt]; [exact Nd|]. inversion Nd; subst. auto.
Qed.
Lemma ssm_fold_spec tts x zrow y d s smpls k r : row_wise L f g -> classifier_ok L g -> ssm_fold L su tts x zrow y d s smpls k = Ok r ->
  exists h, nth_error smpls k = Some h /\ length (sf_pi r) = length (snd h) /\ length (sf_m r) = length (snd h) /\ length (sf_g1 r) = length (snd h) /\ length (sf_g0 r) = length (snd h) /\
  exists (q : vec) rows1 rows0 ep em e1 e0,
    let A := fst (tts (fst h) (map (fun j => d j + 2 * s j) (fst h))) in
    let B := snd (tts (fst h) (map (fun j => d j + 2 * s j) (fst h))) in
    let xq := fun j => (x j ++ [q j])%list in
    fitted_on L su "ml_pi" "ml_pi" k (fun j => x j ++ d j :: zrow j)%list s A ep /\
    (forall j, (j < n)%nat -> prob_at f g ep (x j ++ d j :: zrow j)%list (q j)) /\
    fitted_on L su "ml_m" "ml_m" k xq d B em /\
    Group (fun j => d j = 1 /\ s j = 1) B rows1 /\ fitted_on L su "ml_g_d1" "ml_g" k xq y rows1 e1 /\
    Group (fun j => d j = 0 /\ s j = 1) B rows0 /\ fitted_on L su "ml_g_d0" "ml_g" k xq y rows0 e0 /\
    forall p i, nth_error (snd h) p = Some i -> nth_error (sf_pi r) p = Some (q i) /\ (exists v, nth_error (sf_m r) p = Some v /\ prob_at f g em (xq i) v) /\
      nth_error (sf_g1 r) p = Some (f e1 (xq i)) /\ nth_error (sf_g0 r) p = Some (f e0 (xq i)).
Proof.
  intros Hr Hc H. unfold ssm_fold in H. destruct (nth_error smpls k) as [h|] eqn:Ek; [|discriminate]. set (ha := tts (fst h) (map (fun i => d i + 2 * s i) (fst h))) in *. cbn zeta in H.
  inv1 H. inv1 H. inv1 H. inv1 H. inv1 H. inv1 H. inv1 H. inv1 H. inv1 H. inv1 H. inv1 H. subst r. cbn [sf_pi sf_m sf_g1 sf_g0].
  set (q := fun i => nth i h2 0) in *. exists h. split; [reflexivity|].
  destruct (predict01_at _ _ _ _ _ Hr Hc E1 E2) as (P1 & P2). rewrite map_length, seq_length in P1. destruct (predict01_at _ _ _ _ _ Hr Hc E4 E5) as (Q1 & Q2). rewrite map_length in Q1.
  split; [apply map_length|]. split; [exact Q1|]. split; [rewrite (proj1 (Hr _ _)), !map_length; reflexivity|]. split; [rewrite (proj1 (Hr _ _)), !map_length; reflexivity|].
  exists q, (intersect_where n (is01_2 d s 1 1) (snd ha)), (intersect_where n (is01_2 d s 0 1) (snd ha)), h1, h4, h7, h9. cbn zeta.
  split; [apply (model_fitted _ _ _ _ _ _ _ E0 _ E1)|]. split.
  { intros j Hj. destruct (P2 j (x j ++ d j :: zrow j)%list) as (p & X1 & X2).
    - rewrite nth_error_map. rewrite (nth_error_nth' _ 0%nat) by (rewrite seq_length; exact Hj). rewrite seq_nth by exact Hj. reflexivity.
    - unfold q. rewrite (nth_error_nth _ _ _ X1). exact X2. }
  split; [apply (model_fitted _ _ _ _ _ _ _ E3 _ E4)|]. split; [split; [apply sub_sorted|intro j; rewrite intersect_in, is01_2_iff; reflexivity]|]. split; [apply (model_fitted _ _ _ _ _ _ _ E6 _ E7)|].
  split; [split; [apply sub_sorted|intro j; rewrite intersect_in, is01_2_iff; reflexivity]|]. split; [apply (model_fitted _ _ _ _ _ _ _ E8 _ E9)|].
  intros p i Hp. split; [apply map_nth_error, Hp|]. split; [apply Q2; apply (map_nth_error (fun i => (x i ++ [q i])%list)), Hp|].
  rewrite !(proj1 (Hr _ _)). split; rewrite map_map; apply (map_nth_error (fun j => f _ (x j ++ [q j])%list)), Hp.
Qed.
Lemma ssm_non tts norm tr thr x zrow y d s smpls out : setting L f g su smpls -> classifier_ok L g ->
  ssm_non_nuis L su tts (length smpls) norm tr thr x zrow y d s smpls = Ok out ->
  exists pi m0 m g1 g0, nested_selection L f g su tts x zrow y d s smpls pi m0 g1 g0 /\ trimmed su tr thr m0 m /\
    reported su out "ml_pi" pi /\ reported su out "ml_m" m /\ reported su out "ml_g_d1" g1 /\ reported su out "ml_g_d0" g0 /\
    scored out (ssm_score n norm y (fun i => if Req_EM_T (d i) 1 then 1 else 0) s g1 g0 pi m).
Proof.
  intros S Hc H. unfold ssm_non_nuis in H. inv1 H. rename h into rs. inv1 H. rewrite firstn_all in H. destruct S as [S1 S2 S3 S4 S5].
  destruct (map_res_nth _ _ _ E0) as (Lr & Hrs). assert (Nd : NoDup (flat_map snd smpls)) by (apply (Permutation_NoDup (Permutation_sym S3)), seq_NoDup).
  set (hpi := {| h_preds := ssm_collect smpls rs sf_pi; h_targets := _ |}) in H. set (hm := {| h_preds := ssm_collect smpls rs sf_m; h_targets := _ |}) in H.
  set (h1 := {| h_preds := ssm_collect smpls rs sf_g1; h_targets := _ |}) in H. set (h0 := {| h_preds := ssm_collect smpls rs sf_g0; h_targets := _ |}) in H.
  assert (Q : forall i, (i < n)%nat -> exists k h r, tested_in smpls i k h /\ ssm_fold L su tts x zrow y d s smpls k = Ok r /\ nth_error (snd h) (position i (snd h)) = Some i /\
    (length (sf_pi r) = length (snd h) -> h_preds hpi i = nth_error (sf_pi r) (position i (snd h))) /\ (length (sf_m r) = length (snd h) -> h_preds hm i = nth_error (sf_m r) (position i (snd h))) /\
    (length (sf_g1 r) = length (snd h) -> h_preds h1 i = nth_error (sf_g1 r) (position i (snd h))) /\ (length (sf_g0 r) = length (snd h) -> h_preds h0 i = nth_error (sf_g0 r) (position i (snd h)))).
  { intros i Hi. destruct (tested_at smpls i S3 Hi) as (k & h & T). pose proof T as (T1 & T2 & _). assert (Lk : (k < length smpls)%nat) by (apply nth_error_Some; congruence). destruct (Hrs k Lk) as (r & R1 & R2).
    exists k, h, r. split; [exact T|]. split; [exact R2|]. split; [apply position_error, T2|]. pose proof (part_nodup smpls k h Nd T1) as Ndh.
    cbn [h_preds hpi hm h1 h0]. unfold ssm_collect. split; [|split; [|split]]; intro Hl; eapply collect_hit; eassumption. }
  assert (W : forall i, (i < n)%nat -> exists k h (q : vec) rows1 rows0 ep em e1 e0, let A := fst (tts (fst h) (map (fun j => d j + 2 * s j) (fst h))) in let B := snd (tts (fst h) (map (fun j => d j + 2 * s j) (fst h))) in let xq := fun j => (x j ++ [q j])%list in
    tested_in smpls i k h /\ fitted_on L su "ml_pi" "ml_pi" k (fun j => x j ++ d j :: zrow j)%list s A ep /\
    (forall j, (j < n)%nat -> prob_at f g ep (x j ++ d j :: zrow j)%list (q j)) /\ h_preds hpi i = Some (q i) /\
    fitted_on L su "ml_m" "ml_m" k xq d B em /\ (exists v, h_preds hm i = Some v /\ prob_at f g em (xq i) v) /\
    Group (fun j => d j = 1 /\ s j = 1) B rows1 /\ fitted_on L su "ml_g_d1" "ml_g" k xq y rows1 e1 /\ h_preds h1 i = Some (f e1 (xq i)) /\
    Group (fun j => d j = 0 /\ s j = 1) B rows0 /\ fitted_on L su "ml_g_d0" "ml_g" k xq y rows0 e0 /\ h_preds h0 i = Some (f e0 (xq i))).
  { intros i Hi. destruct (Q i Hi) as (k & h & r & T & R & Pos & C1 & C2 & C3 & C4). destruct (ssm_fold_spec _ _ _ _ _ _ _ _ _ S1 Hc R) as (h' & Hk & L1 & L2 & L3 & L4 & q & rows1 & rows0 & ep & em & e1 & e0 & Z).
    assert (h' = h) by (destruct T; congruence). subst h'. cbn zeta in Z. destruct Z as (Z1 & Z2 & Z3 & Z4 & Z5 & Z6 & Z7 & Z8). destruct (Z8 _ _ Pos) as (Y1 & Y2 & Y3 & Y4).
    exists k, h, q, rows1, rows0, ep, em, e1, e0. cbn zeta. rewrite (C1 L1), (C2 L2), (C3 L3), (C4 L4). tauto. }
  assert (K : known su hpi /\ known su hm /\ known su h1 /\ known su h0).
  { assert (KK : forall hh : hat, (forall i, (i < n)%nat -> exists v, h_preds hh i = Some v) -> known su hh) by (intros hh Hh i Hi; destruct (Hh i Hi) as (v & V); unfold hv; rewrite V; reflexivity).
    split; [|split; [|split]]; apply KK; intros i Hi; destruct (W i Hi) as (k & h & q & rows1 & rows0 & ep & em & e1 & e0 & Z); cbn zeta in Z; destruct Z as (_ & _ & _ & Z1 & _ & (v & Z2 & _) & _ & _ & Z3 & _ & _ & Z4); eauto. }
  destruct K as (K1 & K2 & K3 & K4).
  exists (hv hpi), (hv hm), (hv (trim_hat tr thr hm)), (hv h1), (hv h0). split.
  { intros i Hi. destruct (W i Hi) as (k & h & q & rows1 & rows0 & ep & em & e1 & e0 & Z). exists k, h, q, rows1, rows0, ep, em, e1, e0. cbn zeta in *. destruct Z as (Z1 & Z2 & Z3 & Z4 & Z5 & (v & Z6 & Z6') & Z7 & Z8 & Z9 & Z10 & Z11 & Z12).
    unfold hv. rewrite Z4, Z6, Z9, Z12. cbn [oget]. auto 15. }
  split; [apply trim_trimmed; exact K2|]. rewrite <- H. split; [apply out_reported; [reflexivity|exact K1]|]. split; [apply out_reported; [reflexivity|apply trim_known; exact K2]|].
  split; [apply out_reported; [reflexivity|exact K3]|]. split; [apply out_reported; [reflexivity|exact K4]|].
  assert (D : dtreat d = fun i => if Req_EM_T (d i) 1 then 1 else 0). { apply FunctionalExtensionality.functional_extensionality. intro i. unfold dtreat, b2r, reqb. destruct (Req_EM_T (d i) 1); reflexivity. }
  rewrite <- D. apply out_scored.
Qed.
End Nested.

(** Lemmas on the estimator object: effect of the single statements. *)
From Verif Require Export S_Model L_Framework.
From Coq Require Import FunctionalExtensionality.
Local Open Scope R_scope.

(** ** Actions *)
Lemma andthen_ok {P A B} (m : act P A) (k : A -> act P B) w w' y :
  andthen m k w = (w', Ok y) -> exists w1 x, m w = (w1, Ok x) /\ k x w1 = (w', Ok y).
Proof. unfold andthen. destruct (m w) as [w1 [x|e]]; intro H; [eauto|discriminate]. Qed.
Lemma andthen_eq {P A B} (m : act P A) (k : A -> act P B) w w1 x :
  m w = (w1, Ok x) -> andthen m k w = k x w1.
Proof. unfold andthen. now intros ->. Qed.
Lemma andthen_err {P A B} (m : act P A) (k : A -> act P B) w w1 e :
  m w = (w1, Err e) -> andthen m k w = (w1, Err e).
Proof. unfold andthen. now intros ->. Qed.
Lemma lift_eq {P A} (r : world P -> result A) w : lift r w = (w, r w).
Proof. reflexivity. Qed.

Lemma for_app {P A} (l1 l2 : list A) (body : A -> act P unit) w :
  for_ (l1 ++ l2) body w = andthen (for_ l1 body) (fun _ => for_ l2 body) w.
Proof.
  revert w. induction l1 as [|x l1 IH]; intro w; [reflexivity|].
  cbn [app for_]. unfold andthen at 1 2. unfold andthen at 1. destruct (body x w) as [w1 [u|e]]; [|reflexivity].
  rewrite IH. reflexivity.
Qed.

(** Relations preserved by all statements. *)
Definition keeps {P A} (Rel : world P -> world P -> Prop) (m : act P A) : Prop := forall w, Rel w (fst (m w)).
Lemma keeps_bind {P A B} (Rel : world P -> world P -> Prop) (m : act P A) (k : A -> act P B) :
  (forall a b c, Rel a b -> Rel b c -> Rel a c) -> keeps Rel m -> (forall x, keeps Rel (k x)) -> keeps Rel (andthen m k).
Proof.
  intros T Hm Hk w. unfold andthen. specialize (Hm w). destruct (m w) as [w1 [x|e]]; cbn in *; [|assumption].
  eapply T; [exact Hm|apply Hk].
Qed.
Lemma keeps_lift {P A} (Rel : world P -> world P -> Prop) (r : world P -> result A) : (forall w, Rel w w) -> keeps Rel (lift r).
Proof. intros H w. apply H. Qed.
Lemma keeps_ret {P A} (Rel : world P -> world P -> Prop) (x : A) : (forall w, Rel w w) -> keeps Rel (ret x).
Proof. intros H w. apply H. Qed.
Lemma keeps_for {P A} (Rel : world P -> world P -> Prop) (l : list A) body :
  (forall w, Rel w w) -> (forall a b c, Rel a b -> Rel b c -> Rel a c) -> (forall x, keeps Rel (body x)) -> keeps Rel (@for_ P A l body).
Proof.
  intros Rf T H. induction l as [|x l IH]; [apply keeps_ret, Rf|]. cbn [for_]. apply keeps_bind; [exact T|apply H|intros _; exact IH].
Qed.

(** ** Buffers *)
Definition b_put (idx : list nat) (x : option R) (b : buf) : buf :=
  mk_buf (b_shape b) (fun i => if shape_eqb i idx then x else b_at b i).
Definition b_putcol (r t : nat) (v : nat -> option R) (b : buf) : buf :=
  mk_buf (b_shape b) (fun i => match i with
     | [k; r'; t'] => if Nat.eqb r' r && Nat.eqb t' t then v k else b_at b i
     | _ => b_at b i end).
Lemma in_shapeb_spec idx s : in_shapeb idx s = true <-> in_shape idx s.
Proof.
  revert s. induction idx as [|i idx IH]; intros [|m s]; cbn [in_shapeb in_shape]; try (split; [discriminate|tauto]); [tauto|].
  rewrite andb_true_iff, Nat.ltb_lt, IH. tauto.
Qed.
Lemma b_set_ok idx x b : in_shape idx (b_shape b) -> b_set idx x b = Ok (b_put idx x b).
Proof. intro H. unfold b_set. rewrite (proj2 (in_shapeb_spec _ _) H). reflexivity. Qed.
Lemma b_col_ok r t v b n nr nt : b_shape b = [n; nr; nt] -> (r < nr)%nat -> (t < nt)%nat -> b_col r t v b = Ok (b_putcol r t v b).
Proof.
  intros Hs Hr Ht. unfold b_col. rewrite Hs. apply Nat.ltb_lt in Hr, Ht. rewrite Hr, Ht. cbn. unfold b_putcol. now rewrite Hs.
Qed.
Lemma col_putcol r t v b : col_of (b_putcol r t (fun i => Some (v i)) b) r t = v.
Proof. apply functional_extensionality. intro i. unfold col_of. cbn. now rewrite !Nat.eqb_refl. Qed.
Lemma putcol_at r t v b i : b_at (b_putcol r t v b) [i; r; t] = v i.
Proof. cbn. now rewrite !Nat.eqb_refl. Qed.
Lemma putcol_other r t v b i r' t' : (r' <> r \/ t' <> t) -> b_at (b_putcol r t v b) [i; r'; t'] = b_at b [i; r'; t'].
Proof.
  intro H. cbn. destruct (Nat.eqb_spec r' r), (Nat.eqb_spec t' t); try reflexivity. cbn. lia.
Qed.
Lemma shape_eqb_true a b : shape_eqb a b = true <-> a = b.
Proof.
  revert b. induction a as [|x a IH]; intros [|y b]; cbn [shape_eqb]; try (split; congruence).
  rewrite andb_true_iff, Nat.eqb_eq, IH. split; [intros [-> ->]; reflexivity|intro H; injection H; auto].
Qed.
Lemma put_at idx x b : b_at (b_put idx x b) idx = x.
Proof. cbn. now rewrite (proj2 (shape_eqb_true idx idx) eq_refl). Qed.
Lemma put_other idx x b i : i <> idx -> b_at (b_put idx x b) i = b_at b i.
Proof. intro H. cbn. destruct (shape_eqb i idx) eqn:E; [|reflexivity]. apply shape_eqb_true in E. contradiction. Qed.

(** ** Heap *)
Lemma set_nth_length {A} k (x : A) l : length (set_nth k x l) = length l.
Proof. revert k. induction l as [|y l IH]; intros [|k]; cbn; auto. Qed.
Lemma set_nth_same {A} k (x : A) l d : (k < length l)%nat -> nth k (set_nth k x l) d = x.
Proof. revert k. induction l as [|y l IH]; intros [|k]; cbn; intro H; try lia; [reflexivity|]. apply IH. lia. Qed.
Lemma set_nth_other {A} k j (x : A) l d : j <> k -> nth j (set_nth k x l) d = nth j l d.
Proof. revert k j. induction l as [|y l IH]; intros [|k] [|j]; cbn; intro H; try reflexivity; try lia. apply IH. lia. Qed.
Lemma set_nth_error_other {A} k j (x : A) l : j <> k -> nth_error (set_nth k x l) j = nth_error l j.
Proof. revert k j. induction l as [|y l IH]; intros [|k] [|j]; cbn; intro H; try reflexivity; try lia. apply IH. lia. Qed.
Lemma set_nth_error_same {A} k (x : A) l : (k < length l)%nat -> nth_error (set_nth k x l) k = Some x.
Proof. revert k. induction l as [|y l IH]; intros [|k]; cbn; intro H; try lia; [reflexivity|]. apply IH. lia. Qed.
Lemma hget_set_same h l b : (l < length h)%nat -> hget (set_nth l b h) l = b.
Proof. apply set_nth_same. Qed.
Lemma hget_set_other h l l' b : l' <> l -> hget (set_nth l b h) l' = hget h l'.
Proof. apply set_nth_other. Qed.
Lemma hget_app h b l : (l < length h)%nat -> hget (h ++ b) l = hget h l.
Proof. intro H. unfold hget. now rewrite app_nth1. Qed.

(** ** Well-formed objects *)
Section Obj.
Context {P : Type}.
Variable C : ctx P.
Notation n := (c_n C).
Notation nt := (length (c_dcols C)).

Record wf (w : world P) : Prop := {
  wf_lv : (m_vs (w_obj w) < length (w_heap w))%nat;
  wf_lc : (m_all_coef (w_obj w) < length (w_heap w))%nat;
  wf_ls : (m_all_se (w_obj w) < length (w_heap w))%nat;
  wf_d1 : m_vs (w_obj w) <> m_all_coef (w_obj w);
  wf_d2 : m_vs (w_obj w) <> m_all_se (w_obj w);
  wf_d3 : m_all_coef (w_obj w) <> m_all_se (w_obj w);
  wf_sv : b_shape (hget (w_heap w) (m_vs (w_obj w))) = [nt];
  wf_sc : b_shape (hget (w_heap w) (m_all_coef (w_obj w))) = [nt; m_n_rep (w_obj w)];
  wf_ss : b_shape (hget (w_heap w) (m_all_se (w_obj w))) = [nt; m_n_rep (w_obj w)];
  wf_psi_s : b_shape (m_psi (w_obj w)) = [n; m_n_rep (w_obj w); nt];
  wf_dpsi_s : b_shape (m_psi_deriv (w_obj w)) = [n; m_n_rep (w_obj w); nt];
  wf_pa_s : b_shape (m_psi_a (w_obj w)) = [n; m_n_rep (w_obj w); nt];
  wf_pb_s : b_shape (m_psi_b (w_obj w)) = [n; m_n_rep (w_obj w); nt];
  wf_coef_s : b_shape (m_coef (w_obj w)) = [nt];
  wf_se_s : b_shape (m_se (w_obj w)) = [nt];
  wf_rep : (0 < m_n_rep (w_obj w))%nat;
  wf_smpls : forall sm, m_smpls (w_obj w) = Some sm -> length sm = m_n_rep (w_obj w);
  wf_smpls_c : forall cv sm, c_cluster C = Some cv -> m_smpls (w_obj w) = Some sm ->
     exists sc, m_smpls_cluster (w_obj w) = Some sc /\ length sc = m_n_rep (w_obj w);
  wf_cv : forall cv, c_cluster C = Some cv -> (length cv <= 2)%nat;
  wf_params : forall l t, length (m_params (w_obj w) l t) = m_n_rep (w_obj w);
  wf_fw : forall k, m_fw (w_obj w) = Some k -> (k < length (w_fws w))%nat;
  wf_fws : forall k o, nth_error (w_fws w) k = Some o ->
     (fo_vs o < length (w_heap w))%nat /\ (fo_all_thetas o < length (w_heap w))%nat /\ (fo_all_ses o < length (w_heap w))%nat }.

(** Extra shapes during a fit. *)
Record fit_shapes (store : bool) (w : world P) : Prop := {
  fs_loss : exists d, m_loss (w_obj w) = Some d /\ forall l, b_shape (d l) = [m_n_rep (w_obj w); nt];
  fs_preds : store = true -> exists d, m_preds (w_obj w) = Some d /\ forall l, b_shape (d l) = [n; m_n_rep (w_obj w); nt];
  fs_targets : store = true -> exists d, m_targets (w_obj w) = Some d /\ forall l, b_shape (d l) = [n; m_n_rep (w_obj w); nt];
  fs_sens : forall est, c_sens C = Some est -> exists s, m_sens (w_obj w) = Some s /\
     b_shape (sb_sigma2 s) = [1%nat; m_n_rep (w_obj w); nt] /\ b_shape (sb_nu2 s) = [1%nat; m_n_rep (w_obj w); nt] /\
     b_shape (sb_psi_sigma2 s) = [n; m_n_rep (w_obj w); nt] /\ b_shape (sb_psi_nu2 s) = [n; m_n_rep (w_obj w); nt] /\
     b_shape (sb_rr s) = [n; m_n_rep (w_obj w); nt] }.

(** ** Dictionaries of buffers *)
Lemma dict_write_ok names (d : string -> buf) (u : string -> buf -> result buf) (v : string -> buf -> buf) :
  (forall l b, b_shape b = b_shape (d l) -> u l b = Ok (v l b) /\ b_shape (v l b) = b_shape b) ->
  (forall l b, v l (v l b) = v l b) ->
  exists d', dict_write names d u = Ok d' /\ (forall l, b_shape (d' l) = b_shape (d l)) /\
    (forall l, In l names -> d' l = v l (d l)) /\ (forall l, ~ In l names -> d' l = d l).
Proof.
  intros Hu Hi. unfold dict_write.
  assert (G : forall ns d0, (forall l, b_shape (d0 l) = b_shape (d l)) ->
     exists d', fold_left (fun acc l => bind acc (fun d => bind (u l (d l)) (fun b => Ok (fun k => if String.eqb k l then b else d k)))) ns (Ok d0) = Ok d' /\
       (forall l, b_shape (d' l) = b_shape (d l)) /\ (forall l, In l ns -> d' l = v l (d0 l)) /\ (forall l, ~ In l ns -> d' l = d0 l)).
  { induction ns as [|a ns IH]; intros d0 H0.
    - exists d0. cbn. repeat split; auto; tauto.
    - cbn [fold_left bind]. destruct (Hu a (d0 a) (H0 a)) as [E1 E2]. rewrite E1. cbn [bind].
      destruct (IH (fun k => if String.eqb k a then v a (d0 a) else d0 k)) as (d' & E & Sh & I1 & I2).
      { intro l. destruct (String.eqb_spec l a) as [->|]; [rewrite E2|]; apply H0. }
      exists d'. split; [exact E|]. split; [exact Sh|]. split.
      + intros l Hl. destruct (in_dec String.string_dec l ns) as [Hin|Hout].
        * rewrite (I1 l Hin). destruct (String.eqb_spec l a) as [->|]; [apply Hi|reflexivity].
        * destruct Hl as [->|Hl]; [|contradiction]. rewrite (I2 _ Hout). now rewrite String.eqb_refl.
      + intros l Hl. cbn in Hl. rewrite (I2 l) by tauto. destruct (String.eqb_spec l a) as [->|]; [tauto|reflexivity]. }
  destruct (G names d (fun _ => eq_refl)) as (d' & E & Sh & I1 & I2). eauto.
Qed.
End Obj.

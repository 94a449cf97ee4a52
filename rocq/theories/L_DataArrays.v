(** Data objects built from arrays. *)
From Verif Require Import Base M_Data S_Data L_Data L_DataOps L_DataProps.
From Coq Require Import DecimalString DecimalNat Ascii.
Open Scope string_scope.
Open Scope list_scope.

(** ** Generated names *)
Lemma digits_inj n m : digits n = digits m -> n = m.
Proof.
  unfold digits. intros H.
  assert (E : Some (Nat.to_uint n) = Some (Nat.to_uint m)).
  { rewrite <- (NilEmpty.usu (Nat.to_uint n)), <- (NilEmpty.usu (Nat.to_uint m)), H. reflexivity. }
  injection E as E. rewrite <- (Unsigned.of_to n), <- (Unsigned.of_to m), E. reflexivity.
Qed.
Lemma append_inj p a b : (p ++ a)%string = (p ++ b)%string -> a = b.
Proof. induction p as [|c p IH]; cbn; [auto|]. intros [= H]. exact (IH H). Qed.
Lemma numbered_nodup p k : NoDup (numbered p k).
Proof.
  unfold numbered.
  assert (G : forall n, NoDup (map (fun i => (p ++ digits (i + 1))%string) (seq n k))); [|apply G].
  induction k as [|k IH]; intros n; cbn [seq map]; [constructor|].
  constructor; [|apply IH].
  rewrite in_map_iff. intros [i [A B]]. apply append_inj, digits_inj in A. apply in_seq in B. lia.
Qed.
Lemma numbered_length p k : length (numbered p k) = k.
Proof. unfold numbered. now rewrite map_length, seq_length. Qed.
Lemma names_nodup p k : NoDup (names p k).
Proof. unfold names. destruct (k =? 1)%nat; [apply nodup_one|apply numbered_nodup]. Qed.
Lemma names_length p k : length (names p k) = k.
Proof. unfold names. destruct (Nat.eqb_spec k 1); [subst; reflexivity|apply numbered_length]. Qed.

(* the first character tells the groups apart *)
Definition starts (a : ascii) (c : string) : Prop := exists r, c = String a r.
Lemma numbered_starts a p k c : In c (numbered (String a p) k) -> starts a c.
Proof. unfold numbered. rewrite in_map_iff. intros [i [<- _]]. eexists. reflexivity. Qed.
Lemma names_starts a p k c : In c (names (String a p) k) -> starts a c.
Proof.
  unfold names. destruct (k =? 1)%nat; [|apply numbered_starts].
  intros [<-|[]]. eexists. reflexivity.
Qed.
Lemma starts_differ a b c : starts a c -> starts b c -> a = b.
Proof. intros [r ->] [q H]. congruence. Qed.

(** ** Frames from columns *)
Lemma nth_seq_id (l : list string) : map (fun j => nth j l EmptyString) (seq 0 (length l)) = l.
Proof.
  induction l as [|x r IH]; cbn; [reflexivity|]. f_equal.
  rewrite <- seq_shift, map_map. exact IH.
Qed.
Lemma map_fst_named ns a : map fst (named ns a) = ns.
Proof. unfold named. rewrite map_map. apply nth_seq_id. Qed.
Lemma named_in ns a j c : nth_error ns j = Some c -> In (c, fun i => a_at a i j) (named ns a).
Proof.
  intros H. unfold named. apply in_map_iff. exists j. split.
  - now rewrite (nth_error_nth _ _ _ H).
  - apply in_seq. assert (nth_error ns j <> None) by congruence. apply nth_error_Some in H0. lia.
Qed.
Lemma col_get_in c v l : NoDup (map fst l) -> In (c, v) l -> col_get c l = v.
Proof.
  induction l as [|[k w] r IH]; cbn; [tauto|]. intros N H. inversion N; subst.
  destruct (String.eqb_spec c k) as [->|K].
  - destruct H as [H|H]; [congruence|]. exfalso. apply H2, in_map_iff. now exists (k, v).
  - apply IH; [assumption|]. destruct H as [H|H]; [congruence|exact H].
Qed.
Lemma map_fst_pad n l : map fst (pad_columns n l) = map fst l.
Proof. unfold pad_columns. now rewrite map_map. Qed.

Definition zcols (z : option arr) : nat := match z with Some z => a_cols z | None => 0 end.
Lemma array_names x y d z t v :
  map fst (array_columns x y d z t v) =
  numbered "X" (a_cols x) ++ ["y"] ++ names "d" (a_cols d)
  ++ (match z with Some z => names "z" (a_cols z) | None => [] end)
  ++ (match t with Some _ => ["t"] | None => [] end) ++ (match v with Some _ => ["s"] | None => [] end).
Proof.
  unfold array_columns. rewrite !map_app, !map_fst_named.
  destruct z, t, v; cbn [opt_named]; rewrite ?map_fst_named; reflexivity.
Qed.

(* groups of names with different first characters *)
Lemma array_names_nodup x y d z t v : NoDup (map fst (array_columns x y d z t v)).
Proof.
  rewrite array_names.
  assert (SX : forall c, In c (numbered "X" (a_cols x)) -> starts "X"%char c) by (intros c; apply numbered_starts).
  assert (SY : forall c, In c ["y"] -> starts "y"%char c) by (intros c [<-|[]]; eexists; reflexivity).
  assert (SD : forall c, In c (names "d" (a_cols d)) -> starts "d"%char c) by (intros c; apply names_starts).
  assert (SZ : forall c, In c (match z with Some z => names "z" (a_cols z) | None => [] end) -> starts "z"%char c)
    by (intros c; destruct z; [apply names_starts|intros []]).
  assert (ST : forall c, In c (match t with Some _ => ["t"] | None => [] end) -> starts "t"%char c)
    by (intros c; destruct t; [intros [<-|[]]; eexists; reflexivity|intros []]).
  assert (SS : forall c, In c (match v with Some _ => ["s"] | None => [] end) -> starts "s"%char c)
    by (intros c; destruct v; [intros [<-|[]]; eexists; reflexivity|intros []]).
  assert (NZ : NoDup (match z with Some z => names "z" (a_cols z) | None => [] end))
    by (destruct z; [apply names_nodup|constructor]).
  assert (NT : NoDup (match t with Some _ => ["t"] | None => [] end)) by (destruct t; [apply nodup_one|constructor]).
  assert (NS : NoDup (match v with Some _ => ["s"] | None => [] end)) by (destruct v; [apply nodup_one|constructor]).
  set (lz := match z with Some z => names "z" (a_cols z) | None => [] end) in *.
  set (lt := match t with Some _ => ["t"] | None => [] end) in *.
  set (ls := match v with Some _ => ["s"] | None => [] end) in *.
  assert (ND := names_nodup "d" (a_cols d)). assert (NX := numbered_nodup "X" (a_cols x)).
  assert (Q : forall a b (l m : list string), a <> b -> (forall c, In c l -> starts a c) -> (forall c, In c m -> starts b c) ->
     forall c, In c l -> ~ In c m).
  { intros a b l m N A B c C D. apply N. exact (starts_differ a b c (A c C) (B c D)). }
  assert (J : forall a l m n, (forall c, In c l -> starts a c) ->
     (forall c, In c l -> ~ In c m) -> (forall c, In c l -> ~ In c n) -> forall c, In c l -> ~ In c (m ++ n)).
  { intros a l m n _ A B c C. rewrite in_app_iff. intros [D|D]; [exact (A c C D)|exact (B c C D)]. }
  repeat (rewrite nodup_app; split; [first [assumption|apply nodup_one]|]; split).
  - assumption.
  - apply (Q "t"%char "s"%char); [discriminate|assumption..].
  - apply (J "z"%char); [assumption|apply (Q "z"%char "t"%char)|apply (Q "z"%char "s"%char)]; try assumption; discriminate.
  - apply (J "d"%char); [assumption|apply (Q "d"%char "z"%char); try assumption; discriminate|].
    apply (J "d"%char); [assumption|apply (Q "d"%char "t"%char)|apply (Q "d"%char "s"%char)]; try assumption; discriminate.
  - apply (J "y"%char); [assumption|apply (Q "y"%char "d"%char); try assumption; discriminate|].
    apply (J "y"%char); [assumption|apply (Q "y"%char "z"%char); try assumption; discriminate|].
    apply (J "y"%char); [assumption|apply (Q "y"%char "t"%char)|apply (Q "y"%char "s"%char)]; try assumption; discriminate.
  - apply (J "X"%char); [assumption|apply (Q "X"%char "y"%char); try assumption; discriminate|].
    apply (J "X"%char); [assumption|apply (Q "X"%char "d"%char); try assumption; discriminate|].
    apply (J "X"%char); [assumption|apply (Q "X"%char "z"%char); try assumption; discriminate|].
    apply (J "X"%char); [assumption|apply (Q "X"%char "t"%char)|apply (Q "X"%char "s"%char)]; try assumption; discriminate.
Qed.

(** ** Roles after construction *)
Lemma construct_roles f cl y d x z t v other fo s :
  construct f cl y d x z t v other fo = Ok s ->
  one_arg f y = Ok (r_y (dd_roles s)) /\ list_arg f d = Ok (r_d (dd_roles s)) /\
  opt_list_arg f z = Ok (r_z (dd_roles s)) /\ opt_one_arg f t = Ok (r_t (dd_roles s)) /\
  opt_one_arg f v = Ok (r_s (dd_roles s)) /\ (x <> CNone -> list_arg f x = Ok (r_x (dd_roles s))) /\
  (cl = None -> r_cl (dd_roles s) = None) /\
  (forall c, cl = Some c -> exists l, list_arg f c = Ok l /\ r_cl (dd_roles s) = Some l) /\
  bool_arg other = Ok (dd_other s) /\ force_arg fo = Ok (dd_force s).
Proof.
  unfold construct. intros H.
  apply require_inv in H as [HC H].
  apply bind_inv in H as [cl' [Hcl H]].
  apply bind_inv in H as [y' [Hy H]].
  apply bind_inv in H as [d' [Hd H]].
  apply bind_inv in H as [z' [Hz H]].
  apply bind_inv in H as [t' [Ht H]].
  apply bind_inv in H as [v' [Hv H]]. cbv zeta in H.
  apply bind_inv in H as [x' [Hx H]].
  apply require_inv in H as [HB H].
  apply bind_inv in H as [other' [Ho H]].
  apply bind_inv in H as [fo' [Hf H]].
  apply bind_inv in H as [bt [_ H]].
  apply bind_inv in H as [by_ [_ H]].
  apply bind_inv in H as [s1 [Hs H]].
  apply require_inv in H as [HD H]. injection H as <-.
  destruct (next _ _) as [s2 [e|]] eqn:E; cbn in Hs; [discriminate|].
  injection Hs as <-. apply next_none in E as [s3 [E1 E2]].
  apply set_yzts_keeps in E1. apply set_xd0_keeps in E2.
  destruct E1 as [R1 [O1 [F1 _]]]. destruct E2 as [R2 [_ [_ [O2 [F2 _]]]]].
  rewrite R2, R1, O2, O1, F2, F1. cbn.
  repeat split; auto.
  - intros N. destruct x; [congruence|exact Hx..].
  - intros ->. now injection Hcl as <-.
  - intros c ->. apply bind_inv in Hcl as [l [A B]]. apply require_inv in B as [_ B].
    injection B as <-. eauto.
Qed.

(** ** Round trip *)
Lemma columns_named f l a (cs : columns) :
  (forall c w, In (c, w) cs -> forall i, (i < frows f)%nat -> fcell f c i = w i) ->
  (forall p, In p (named l a) -> In p cs) -> length l = a_cols a -> columns_are f l a.
Proof.
  intros G I L. split; [exact L|]. intros j c E i Hi.
  rewrite (G c (fun i => a_at a i j)); [reflexivity| |exact Hi].
  apply I. now apply named_in.
Qed.

Lemma pieces_named f s x y d z t v (cs : columns) :
  a_cols y = 1%nat -> (forall t', t = Some t' -> a_cols t' = 1%nat) -> (forall v', v = Some v' -> a_cols v' = 1%nat) ->
  (forall c w, In (c, w) cs -> forall i, (i < frows f)%nat -> fcell f c i = w i) ->
  (forall p, In p (array_columns x y d z t v) -> In p cs) ->
  r_y (dd_roles s) = "y" -> r_d (dd_roles s) = names "d" (a_cols d) ->
  r_x (dd_roles s) = numbered "X" (a_cols x) ->
  r_z (dd_roles s) = option_map (fun z => names "z" (a_cols z)) z ->
  r_t (dd_roles s) = option_map (fun _ => "t") t -> r_s (dd_roles s) = option_map (fun _ => "s") v ->
  pieces f s x y d z t v.
Proof.
  intros Cy Ct Cv G I Ry Rd Rx Rz Rt Rs.
  unfold pieces. rewrite Ry, Rd, Rx, Rz, Rt, Rs.
  unfold array_columns in I.
  repeat split.
  - apply numbered_length.
  - apply (columns_named f (numbered "X" (a_cols x)) x cs G); [|apply numbered_length].
    intros p Hp. apply I. rewrite !in_app_iff. tauto.
  - now rewrite Cy.
  - apply (columns_named f ["y"] y cs G); [|now rewrite Cy].
    intros p Hp. apply I. rewrite !in_app_iff. tauto.
  - apply names_length.
  - apply (columns_named f (names "d" (a_cols d)) d cs G); [|apply names_length].
    intros p Hp. apply I. rewrite !in_app_iff. tauto.
  - destruct z as [z|]; [|reflexivity]. eexists. split; [reflexivity|].
    apply (columns_named f _ z cs G); [|apply names_length].
    intros p Hp. apply I. rewrite !in_app_iff. cbn [opt_named]. tauto.
  - destruct t as [t|]; [|reflexivity]. eexists. split; [reflexivity|].
    apply (columns_named f _ t cs G); [|rewrite Ct; reflexivity].
    intros p Hp. apply I. rewrite !in_app_iff. cbn [opt_named]. tauto.
  - destruct v as [v|]; [|reflexivity]. eexists. split; [reflexivity|].
    apply (columns_named f _ v cs G); [|rewrite Cv; reflexivity].
    intros p Hp. apply I. rewrite !in_app_iff. cbn [opt_named]. tauto.
Qed.

Lemma from_arrays_inv x y d z t v other fo f s :
  from_arrays x y d z t v other fo = Ok (f, s) ->
  exists force, force_arg fo = Ok force /\ check_array force x = true /\ check_array Strict d = true /\
    a_cols y = 1%nat /\ opt_check (check_array Strict) z = true /\
    (a_rows y = a_rows x /\ a_rows d = a_rows x /\ opt_check (fun z => (a_rows z =? a_rows x)%nat) z = true) /\
    opt_check (fun t => column_or_1d t && (a_rows t =? a_rows x)%nat) t = true /\
    opt_check (fun v => column_or_1d v && (a_rows v =? a_rows x)%nat) v = true /\
    f = frame_of (a_rows x) (array_columns x y d z t v) /\
    construct f None (CStr "y") (CList (names "d" (a_cols d)))
          (CList (numbered "X" (a_cols x)))
          (match z with Some z => CList (names "z" (a_cols z)) | None => CNone end)
          (match t with Some _ => CStr "t" | None => CNone end)
          (match v with Some _ => CStr "s" | None => CNone end) other fo = Ok s.
Proof.
  unfold from_arrays. intros H.
  apply bind_inv in H as [force [A1 H]].
  apply require_inv in H as [A2 H]. apply require_inv in H as [A3 H]. apply require_inv in H as [A4 H].
  apply require_inv in H as [A5 H]. apply require_inv in H as [A6 H]. apply require_inv in H as [A7 H].
  apply require_inv in H as [A8 H]. cbv zeta in H. apply bind_inv in H as [s' [A9 H]].
  injection H as <- <-. exists force.
  apply andb_true_iff in A6 as [A6 A6c]. apply andb_true_iff in A6 as [A6a A6b].
  apply Nat.eqb_eq in A6a, A6b. apply Nat.eqb_eq in A4.
  repeat split; auto.
Qed.
Lemma from_arrays_roles x y d z t v other fo f s :
  from_arrays x y d z t v other fo = Ok (f, s) ->
  let r := dd_roles s in
  r_y r = "y" /\ r_d r = names "d" (a_cols d) /\ r_x r = numbered "X" (a_cols x) /\
  r_z r = option_map (fun z => names "z" (a_cols z)) z /\
  r_t r = option_map (fun _ => "t") t /\ r_s r = option_map (fun _ => "s") v /\ r_cl r = None.
Proof.
  intros H. apply from_arrays_inv in H as [force [_ [_ [_ [_ [_ [_ [_ [_ [-> H]]]]]]]]]].
  apply construct_roles in H as [B1 [B2 [B3 [B4 [B5 [B6 [B7 _]]]]]]].
  apply one_arg_inv in B1 as [B1 _]. apply list_arg_inv in B2 as [B2 _].
  specialize (B6 ltac:(discriminate)). apply list_arg_inv in B6 as [B6 _].
  cbv zeta. split; [congruence|].
  split; [destruct B2 as [B2|[c [B2 _]]]; congruence|].
  split; [destruct B6 as [B6|[c [B6 _]]]; congruence|].
  split.
  { destruct z as [z|]; cbn [opt_list_arg] in B3; [|cbn [option_map]; congruence].
    apply bind_inv in B3 as [l [C1 C2]]. apply list_arg_inv in C1 as [[C1|[c [C1 _]]] _]; [|discriminate].
    cbn [option_map]. congruence. }
  split.
  { destruct t as [t|]; cbn [opt_one_arg] in B4; [|cbn [option_map]; congruence].
    apply bind_inv in B4 as [l [C1 C2]]. apply one_arg_inv in C1 as [C1 _]. cbn [option_map]. congruence. }
  split.
  { destruct v as [v|]; cbn [opt_one_arg] in B5; [|cbn [option_map]; congruence].
    apply bind_inv in B5 as [l [C1 C2]]. apply one_arg_inv in C1 as [C1 _]. cbn [option_map]. congruence. }
  now apply B7.
Qed.
Lemma frame_of_get n l : NoDup (map fst l) ->
  forall c w, In (c, w) l -> forall i, (i < frows (frame_of n l))%nat -> fcell (frame_of n l) c i = w i.
Proof. intros N c w H i _. cbn. now rewrite (col_get_in c w l N H). Qed.

Lemma from_arrays_roundtrip x y d z t v other fo f s :
  from_arrays x y d z t v other fo = Ok (f, s) ->
  constructed f s /\ frows f = a_rows x /\ pieces f s x y d z t v.
Proof.
  intros H. assert (R := from_arrays_roles _ _ _ _ _ _ _ _ _ _ H). cbv zeta in R.
  apply from_arrays_inv in H as [force [_ [_ [_ [Cy [_ [_ [T [V [-> H]]]]]]]]]].
  split; [repeat eexists; exact H|]. split; [reflexivity|].
  apply (pieces_named _ _ _ _ _ _ _ _ (array_columns x y d z t v)); try tauto.
  - intros t' ->. cbn in T. apply andb_true_iff in T as [T _]. now apply Nat.eqb_eq.
  - intros t' ->. cbn in V. apply andb_true_iff in V as [V _]. now apply Nat.eqb_eq.
  - apply frame_of_get, array_names_nodup.
Qed.

(** ** Acceptance *)
Lemma arr_all_cells (p : cell -> bool) (P : cell -> Prop) a :
  (forall c, p c = true <-> P c) -> (arr_all p a = true <-> all_cells P a).
Proof.
  intros E. unfold arr_all, all_cells. rewrite forallb_forall. split.
  - intros H i j Hi Hj. assert (G := H i ltac:(apply in_seq; lia)). rewrite forallb_forall in G.
    apply E, G, in_seq. lia.
  - intros H i Hi. apply in_seq in Hi. rewrite forallb_forall. intros j Hj. apply in_seq in Hj.
    apply E, H; lia.
Qed.
Lemma not_infinite_iff c : not_infinite c = true <-> c <> Infin.
Proof. destruct c; cbn; split; congruence. Qed.
Lemma check_array_iff fo a : check_array fo a = true <->
  (1 <= a_rows a)%nat /\ (1 <= a_cols a)%nat /\ all_cells (allowed fo) a.
Proof.
  unfold check_array. rewrite !andb_true_iff, !Nat.leb_le.
  assert (E : (match fo with Strict => arr_all finite a | AllowNan => arr_all not_infinite a | Loose => true end) = true
     <-> all_cells (allowed fo) a).
  { destruct fo; cbn [allowed].
    - apply arr_all_cells, finite_iff.
    - split; [intros _ i j _ _; exact Logic.I|reflexivity].
    - apply arr_all_cells, not_infinite_iff. }
  rewrite E. tauto.
Qed.

Lemma columns_number f l a p : columns_are f l a -> frows f = a_rows a ->
  (all_cells p a <-> forall c, In c l -> forall i, (i < frows f)%nat -> p (fcell f c i)).
Proof.
  intros [L H] R. split.
  - intros A c Hc i Hi. apply In_nth_error in Hc as [j Hj]. rewrite (H j c Hj i Hi). apply A; [lia|].
    assert (nth_error l j <> None) by congruence. apply nth_error_Some in H0. lia.
  - intros A i j Hi Hj. destruct (nth_error l j) as [c|] eqn:E.
    + rewrite <- (H j c E i) by lia. apply A; [now apply nth_error_In in E|lia].
    + apply nth_error_None in E. lia.
Qed.

Lemma accepted_fits x y d z t v other fo f s :
  from_arrays x y d z t v other (farg_of fo) = Ok (f, s) -> fits fo x y d z t v.
Proof.
  intros H. destruct (from_arrays_roundtrip _ _ _ _ _ _ _ _ _ _ H) as [C [FR P]].
  apply from_arrays_inv in H as [force [F [Hx [Hd [Cy [Hz [[Ry [Rd Rz]] [Ht [Hv _]]]]]]]]].
  rewrite force_arg_of in F. injection F as <-.
  apply check_array_iff in Hx as [X1 [X2 X3]]. apply check_array_iff in Hd as [D1 [D2 D3]].
  assert (N := numbers f s (R_new f s C)). assert (U := arrays_reachable f s (R_new f s C)).
  destruct U as [U1 [U2 [U3 [U4 [U5 U6]]]]]. rewrite U1, U2, U3, U4, U5 in N. destruct N as [N _].
  destruct P as [P1 [P2 [P3 [P4 [P5 P6]]]]].
  assert (V : forall c a, columns_are f [c] a -> a_rows a = a_rows x -> number_column f c -> all_cells number a).
  { intros c a G R K. apply (columns_number f [c] a number G); [congruence|].
    intros c' [<-|[]]. exact K. }
  unfold fits. cbv zeta. split; [exact X1|]. split; [exact X2|]. split; [exact X3|].
  split. { split; [exact Ry|]. split; [exact Cy|]. apply (V _ y P2 Ry), N. now left. }
  split. { split; [exact Rd|]. split; [exact D2|exact D3]. }
  split.
  { destruct z as [z|]; cbn in *; [|exact Logic.I]. apply check_array_iff in Hz as [Z1 [Z2 Z3]].
    apply Nat.eqb_eq in Rz. split; [exact Rz|split; [exact Z2|exact Z3]]. }
  split.
  { destruct t as [t|]; cbn in *; [|exact Logic.I]. apply andb_true_iff in Ht as [T1 T2].
    apply Nat.eqb_eq in T1, T2. split; [exact T2|]. split; [exact T1|].
    destruct P5 as [c [E G]]. apply (V c t G T2), N. rewrite E. right. right. rewrite !in_app_iff. cbn. tauto. }
  { destruct v as [v|]; cbn in *; [|exact Logic.I]. apply andb_true_iff in Hv as [T1 T2].
    apply Nat.eqb_eq in T1, T2. split; [exact T2|]. split; [exact T1|].
    destruct P6 as [c [E G]]. apply (V c v G T2), N. rewrite E. right. right. rewrite !in_app_iff. cbn. tauto. }
Qed.

Lemma fits_accepted x y d z t v other fo : fits fo x y d z t v ->
  exists f s, from_arrays x y d z t v (FBool other) (farg_of fo) = Ok (f, s).
Proof.
  unfold fits. cbv zeta. intros [X1 [X2 [X3 [[Y1 [Y2 Y3]] [[D1 [D2 D3]] [Z [T V]]]]]]].
  set (f := frame_of (a_rows x) (array_columns x y d z t v)).
  set (r := mk_roles "y" (names "d" (a_cols d)) (numbered "X" (a_cols x))
     (option_map (fun z => names "z" (a_cols z)) z) (option_map (fun _ => "t") t) (option_map (fun _ => "s") v) None).
  assert (P : pieces f (mk_dd r other fo [] false "" None None None "" [] None) x y d z t v).
  { apply (pieces_named _ _ _ _ _ _ _ _ (array_columns x y d z t v)); try reflexivity; try tauto.
    - intros t' ->. apply T.
    - intros t' ->. apply V.
    - apply frame_of_get, array_names_nodup. }
  assert (ND := array_names_nodup x y d z t v).
  assert (PM : forall c, In c (role_columns r) <-> In c (fcols f)).
  { intros c. unfold f, frame_of; cbn [fcols]. rewrite array_names. unfold role_columns, r. cbn [r_y r_d r_x r_z r_t r_s r_cl].
    destruct z, t, v; cbn [option_map optl opt1]; rewrite !in_app_iff; cbn [In]; tauto. }
  assert (W : NoDup (role_columns r)).
  { rewrite array_names in ND. unfold role_columns, r. cbn [r_y r_d r_x r_z r_t r_s r_cl].
    assert (Q : optl (option_map (fun z => names "z" (a_cols z)) z) = match z with Some z => names "z" (a_cols z) | None => [] end)
      by (destruct z; reflexivity).
    rewrite Q.
    assert (Q2 : opt1 (option_map (fun _ => "t") t) = match t with Some _ => ["t"] | None => [] end) by (destruct t; reflexivity).
    assert (Q3 : opt1 (option_map (fun _ => "s") v) = match v with Some _ => ["s"] | None => [] end) by (destruct v; reflexivity).
    rewrite Q2, Q3. cbn [optl]. rewrite app_nil_r.
    rewrite nodup_app in ND. destruct ND as [N1 [N2 N3]]. rewrite nodup_app in N2. destruct N2 as [N2 [N4 N5]].
    rewrite nodup_app in N4. destruct N4 as [N4 [N6 N7]].
    rewrite nodup_app. split; [exact N2|]. split.
    - rewrite nodup_app. split; [exact N4|]. split.
      + rewrite nodup_app. split; [exact N1|]. split; [exact N6|].
        intros c Hc G. apply (N3 c Hc). rewrite !in_app_iff in *. tauto.
      + intros c Hc. rewrite in_app_iff. intros [G|G].
        * apply (N3 c G). rewrite !in_app_iff. tauto.
        * exact (N7 c Hc G).
    - intros c Hc. rewrite !in_app_iff. intros G.
      assert (G' : In c (numbered "X" (a_cols x)) \/ In c (names "d" (a_cols d) ++ (match z with Some z => names "z" (a_cols z) | None => [] end) ++
         match t with Some _ => ["t"] | None => [] end ++ match v with Some _ => ["s"] | None => [] end))
        by (rewrite !in_app_iff; tauto).
      destruct G' as [G'|G'].
      + apply (N3 c G'). rewrite in_app_iff. tauto.
      + exact (N5 c Hc G'). }
  destruct P as [P1 [P2 [P3 [P4 [P5 P6]]]]]. cbn [dd_roles] in P1, P2, P3, P4, P5, P6.
  assert (USE : usable f r fo).
  { split; [exact ND|]. split; [split; [exact W|intros c Hc; now apply PM]|].
    split. { intros E. apply (f_equal (@length string)) in E. unfold r in E. cbn [r_d] in E. rewrite names_length in E. cbn in E. lia. }
    split.
    - intros c. rewrite !in_app_iff, !in_opt1. intros [[<-|[]]|[Hc|[Hc|[Hc|[Hc|Hc]]]]].
      + assert (G := proj1 (columns_number f _ y number P2 (eq_sym Y1)) Y3). intros i Hi. apply G; [now left|exact Hi].
      + intros i Hi. exact (proj1 (columns_number f _ d number P3 (eq_sym D1)) D3 c Hc i Hi).
      + destruct z as [z|]; [|destruct Hc]. destruct P4 as [l [El Gl]]. destruct Z as [Z1 [Z2 Z3]].
        rewrite El in Hc. cbn [optl] in Hc.
        intros i Hi. exact (proj1 (columns_number f _ z number Gl (eq_sym Z1)) Z3 c Hc i Hi).
      + destruct t as [t|]; [|discriminate]. destruct P5 as [l [El Gl]]. destruct T as [Z1 [Z2 Z3]].
        rewrite El in Hc. injection Hc as ->.
        intros i Hi. apply (proj1 (columns_number f _ t number Gl (eq_sym Z1)) Z3 c); [now left|exact Hi].
      + destruct v as [v|]; [|discriminate]. destruct P6 as [l [El Gl]]. destruct V as [Z1 [Z2 Z3]].
        rewrite El in Hc. injection Hc as ->.
        intros i Hi. apply (proj1 (columns_number f _ v number Gl (eq_sym Z1)) Z3 c); [now left|exact Hi].
      + destruct Hc.
    - intros c Hc i Hi. exact (proj1 (columns_number f _ x (allowed fo) P1 eq_refl) X3 c Hc i Hi). }
  destruct (construct_ok f r other fo USE) as [s [K _]].
  exists f, s. unfold from_arrays. rewrite force_arg_of. cbn [bind].
  rewrite (proj2 (check_array_iff fo x)) by tauto. cbn [require].
  rewrite (proj2 (check_array_iff Strict d)) by (rewrite D1; tauto). cbn [require].
  unfold column_or_1d. rewrite Y2. cbn [Nat.eqb require].
  assert (Z' : opt_check (check_array Strict) z = true).
  { destruct z as [z|]; [|reflexivity]. cbn. apply check_array_iff. destruct Z as [Z1 Z2]. rewrite Z1. tauto. }
  rewrite Z', Y1, D1, !Nat.eqb_refl. cbn [require andb].
  assert (Z2 : opt_check (fun z => (a_rows z =? a_rows x)%nat) z = true).
  { destruct z as [z|]; [|reflexivity]. cbn. apply Nat.eqb_eq, Z. }
  rewrite Z2. cbn [require].
  assert (T' : opt_check (fun t0 => ((a_cols t0 =? 1)%nat && (a_rows t0 =? a_rows x)%nat)%bool) t = true).
  { destruct t as [t|]; [|reflexivity]. cbn [opt_check]. destruct T as [T1 [T2 _]]. rewrite T1, T2, !Nat.eqb_refl. reflexivity. }
  rewrite T'. cbn [require].
  assert (V' : opt_check (fun t0 => ((a_cols t0 =? 1)%nat && (a_rows t0 =? a_rows x)%nat)%bool) v = true).
  { destruct v as [v|]; [|reflexivity]. cbn [opt_check]. destruct V as [T1 [T2 _]]. rewrite T1, T2, !Nat.eqb_refl. reflexivity. }
  rewrite V'. cbn [require]. cbv zeta. fold f.
  unfold r in K. cbn [r_y r_d r_x r_z r_t r_s r_cl option_map] in K.
  destruct z, t, v; cbn [option_map olist ostr] in K; rewrite K; reflexivity.
Qed.

(** ** Cluster data from arrays *)
Lemma cluster_inv x y d cl z t v other fo f s :
  cluster_from_arrays x y d cl z t v other fo = Ok (f, s) ->
  exists f0 s0, from_arrays x y d z t v other fo = Ok (f0, s0) /\ check_array Strict cl = true /\
    let r := dd_roles s0 in
    let cn := names "cluster_var" (a_cols cl) in
    f = frame_of (Nat.max (a_rows cl) (a_rows x))
             (pad_columns (a_rows cl) (named cn cl)
              ++ pad_columns (a_rows x) (array_columns x y d z t v)) /\
    construct f (Some (CList cn)) (CStr (r_y r)) (CList (r_d r)) (CList (r_x r))
          (olist (r_z r)) (ostr (r_t r)) (ostr (r_s r))
          (FBool (dd_other s0)) (farg_of (dd_force s0)) = Ok s.
Proof.
  unfold cluster_from_arrays. intros H. apply bind_inv in H as [[f0 s0] [A H]].
  apply require_inv in H as [B H]. cbv zeta in H. apply bind_inv in H as [s' [C H]].
  injection H as <- <-. exists f0, s0. split; [exact A|]. split; [exact B|]. cbv zeta.
  split; [reflexivity|exact C].
Qed.

Lemma cluster_names_nodup x y d cl z t v :
  NoDup (map fst (pad_columns (a_rows cl) (named (names "cluster_var" (a_cols cl)) cl)
              ++ pad_columns (a_rows x) (array_columns x y d z t v))).
Proof.
  rewrite map_app, !map_fst_pad, map_fst_named. apply nodup_app.
  split; [apply names_nodup|]. split; [apply array_names_nodup|].
  intros c Hc. apply (names_starts "c"%char "luster_var") in Hc.
  rewrite array_names, !in_app_iff. intros G.
  assert (K : forall a, starts a c -> a = "c"%char) by (intros a Ha; exact (starts_differ _ _ c Ha Hc)).
  destruct G as [G|[G|[G|[G|[G|G]]]]].
  - apply (numbered_starts "X"%char "") in G. apply K in G. discriminate.
  - destruct G as [<-|[]]. specialize (K "y"%char (ex_intro _ _ eq_refl)). discriminate.
  - apply (names_starts "d"%char "") in G. apply K in G. discriminate.
  - destruct z; [|destruct G]. apply (names_starts "z"%char "") in G. apply K in G. discriminate.
  - destruct t; [|destruct G]. destruct G as [<-|[]]. specialize (K "t"%char (ex_intro _ _ eq_refl)). discriminate.
  - destruct v; [|destruct G]. destruct G as [<-|[]]. specialize (K "s"%char (ex_intro _ _ eq_refl)). discriminate.
Qed.

Lemma olist_arg_back f z l : opt_list_arg f (olist z) = Ok l -> l = z.
Proof.
  destruct z as [z|]; cbn [olist opt_list_arg]; [|intros [= <-]; reflexivity].
  intros H. apply bind_inv in H as [a [A B]]. apply list_arg_inv in A as [[A|[c [A _]]] _]; congruence.
Qed.
Lemma ostr_arg_back f z l : opt_one_arg f (ostr z) = Ok l -> l = z.
Proof.
  destruct z as [z|]; cbn [ostr opt_one_arg]; [|intros [= <-]; reflexivity].
  intros H. apply bind_inv in H as [a [A B]]. apply one_arg_inv in A as [A _]. congruence.
Qed.

Lemma cluster_roundtrip x y d cl z t v other fo f s :
  cluster_from_arrays x y d cl z t v other fo = Ok (f, s) ->
  constructed f s /\ frows f = a_rows x /\ a_rows cl = a_rows x /\ pieces f s x y d z t v /\
  exists l, r_cl (dd_roles s) = Some l /\ columns_are f l cl.
Proof.
  intros H. apply cluster_inv in H as [f0 [s0 [A [B [Hf C]]]]].
  assert (R := from_arrays_roles _ _ _ _ _ _ _ _ _ _ A). cbv zeta in R.
  destruct R as [R1 [R2 [R3 [R4 [R5 [R6 _]]]]]].
  assert (K : constructed f s) by (repeat eexists; exact C).
  assert (RR := construct_roles _ _ _ _ _ _ _ _ _ _ _ C).
  destruct RR as [Q1 [Q2 [Q3 [Q4 [Q5 [Q6 [_ [Q7 _]]]]]]]].
  apply one_arg_inv in Q1 as [Q1 _]. injection Q1 as Q1.
  apply list_arg_inv in Q2 as [[Q2|[c [Q2 _]]] _]; [injection Q2 as Q2|discriminate].
  specialize (Q6 ltac:(discriminate)). apply list_arg_inv in Q6 as [[Q6|[c [Q6 _]]] _]; [injection Q6 as Q6|discriminate].
  apply olist_arg_back in Q3. apply ostr_arg_back in Q4. apply ostr_arg_back in Q5.
  destruct (Q7 _ eq_refl) as [l [L1 L2]].
  apply list_arg_inv in L1 as [[L1|[c [L1 _]]] _]; [injection L1 as L1|discriminate]. subst l.
  assert (N := numbers f s (R_new f s K)). assert (U := arrays_reachable f s (R_new f s K)).
  destruct U as [U1 [U2 [U3 [U4 [U5 U6]]]]]. rewrite U1, U2, U3, U4, U5 in N. destruct N as [N _].
  apply from_arrays_inv in A as [force [_ [_ [_ [Cy [_ [_ [T [V _]]]]]]]]].
  apply check_array_iff in B as [B1 [B2 B3]].
  set (cs := pad_columns (a_rows cl) (named (names "cluster_var" (a_cols cl)) cl)
              ++ pad_columns (a_rows x) (array_columns x y d z t v)) in *.
  assert (ND : NoDup (map fst cs)) by apply cluster_names_nodup.
  assert (GET := frame_of_get (Nat.max (a_rows cl) (a_rows x)) cs ND). rewrite <- Hf in GET.
  assert (FR : frows f = Nat.max (a_rows cl) (a_rows x)) by (rewrite Hf; reflexivity).
  assert (INC : forall p, In p (named (names "cluster_var" (a_cols cl)) cl) -> In (fst p, pad (a_rows cl) (snd p)) cs).
  { intros p Hp. unfold cs. apply in_or_app. left. unfold pad_columns. apply in_map_iff. now exists p. }
  assert (INA : forall p, In p (array_columns x y d z t v) -> In (fst p, pad (a_rows x) (snd p)) cs).
  { intros p Hp. unfold cs. apply in_or_app. right. unfold pad_columns. apply in_map_iff. now exists p. }
  assert (E1 : (a_rows x <= a_rows cl)%nat).
  { destruct (le_lt_dec (a_rows x) (a_rows cl)) as [Hle|Hlt]; [exact Hle|exfalso].
    assert (P0 := names_length "cluster_var" (a_cols cl)).
    destruct (names "cluster_var" (a_cols cl)) as [|c0 cn] eqn:CN; [cbn in P0; lia|].
    assert (G := N c0). destruct (G ltac:(right; right; rewrite L2; rewrite !in_app_iff; cbn [optl In]; tauto) (a_rows cl) ltac:(lia)) as [q Hq].
    rewrite (GET c0 _ (INC _ (named_in (c0 :: cn) cl 0 c0 eq_refl)) (a_rows cl) ltac:(lia)) in Hq.
    cbn [fst snd] in Hq. unfold pad in Hq. rewrite Nat.ltb_irrefl in Hq. discriminate. }
  assert (E2 : (a_rows cl <= a_rows x)%nat).
  { destruct (le_lt_dec (a_rows cl) (a_rows x)) as [Hle|Hlt]; [exact Hle|exfalso].
    destruct (N (r_y (dd_roles s)) ltac:(now left) (a_rows x) ltac:(lia)) as [q Hq].
    assert (IY : In ("y", fun i => a_at y i 0) (array_columns x y d z t v)).
    { unfold array_columns. rewrite !in_app_iff. right. left. now left. }
    rewrite <- Q1, R1 in Hq. rewrite (GET "y" _ (INA _ IY) (a_rows x) ltac:(lia)) in Hq.
    cbn [fst snd] in Hq. unfold pad in Hq. rewrite Nat.ltb_irrefl in Hq. discriminate. }
  assert (E : a_rows cl = a_rows x) by lia.
  assert (FR' : frows f = a_rows x) by lia.
  split; [exact K|]. split; [exact FR'|]. split; [exact E|]. split.
  - apply (pieces_named _ _ _ _ _ _ _ _ (array_columns x y d z t v)); try congruence; auto.
    + intros t' ->. cbn in T. apply andb_true_iff in T as [T _]. now apply Nat.eqb_eq.
    + intros t' ->. cbn in V. apply andb_true_iff in V as [V _]. now apply Nat.eqb_eq.
    + intros c w Hc i Hi. rewrite (GET c _ (INA _ Hc) i Hi). cbn [snd]. unfold pad.
      rewrite (proj2 (Nat.ltb_lt _ _)) by lia. reflexivity.
  - eexists. split; [exact L2|].
    apply (columns_named f _ cl (named (names "cluster_var" (a_cols cl)) cl)); [|auto|apply names_length].
    intros c w Hc i Hi. rewrite (GET c _ (INC _ Hc) i Hi). cbn [snd]. unfold pad.
    rewrite (proj2 (Nat.ltb_lt _ _)) by lia. reflexivity.
Qed.

Lemma from_arrays_names x y d z t v other fo f s :
  from_arrays x y d z t v other fo = Ok (f, s) ->
  NoDup (fcols f) /\ NoDup (role_columns (dd_roles s)) /\
  (forall c, In c (fcols f) <-> In c (role_columns (dd_roles s))).
Proof.
  intros H. destruct (from_arrays_roundtrip _ _ _ _ _ _ _ _ _ _ H) as [C _].
  assert (W := roles_reachable _ _ (R_new _ _ C)).
  assert (R := from_arrays_roles _ _ _ _ _ _ _ _ _ _ H). cbv zeta in R.
  destruct R as [R1 [R2 [R3 [R4 [R5 [R6 R7]]]]]].
  apply from_arrays_inv in H as [force [_ [_ [_ [_ [_ [_ [_ [_ [-> _]]]]]]]]]].
  split; [apply array_names_nodup|]. split; [apply W|].
  intros c. unfold frame_of; cbn [fcols]. rewrite array_names. unfold role_columns.
  rewrite R1, R2, R3, R4, R5, R6, R7.
  destruct z, t, v; cbn [option_map optl opt1]; rewrite !in_app_iff; cbn [In]; tauto.
Qed.

Lemma from_arrays_accepts x y d z t v other fo :
  (exists f s, from_arrays x y d z t v (FBool other) (farg_of fo) = Ok (f, s)) <-> fits fo x y d z t v.
Proof.
  split; [intros [f [s H]]; exact (accepted_fits _ _ _ _ _ _ _ _ _ _ H)|apply fits_accepted].
Qed.

Lemma cluster_accepts x y d cl z t v other fo :
  (exists f s, cluster_from_arrays x y d cl z t v (FBool other) (farg_of fo) = Ok (f, s)) <->
  fits fo x y d z t v /\ matrix (a_rows x) cl.
Proof.
  split.
  - intros [f [s H]]. destruct (cluster_roundtrip _ _ _ _ _ _ _ _ _ _ _ H) as [_ [_ [E _]]].
    apply cluster_inv in H as [f0 [s0 [A [B _]]]]. apply accepted_fits in A.
    apply check_array_iff in B as [B1 [B2 B3]]. split; [exact A|].
    split; [exact E|]. split; [exact B2|exact B3].
  - intros [F [E [B2 B3]]].
    assert (X1 : (1 <= a_rows x)%nat) by apply F.
    destruct (fits_accepted x y d z t v other fo F) as [f0 [s0 A]].
    assert (R := from_arrays_roles _ _ _ _ _ _ _ _ _ _ A). cbv zeta in R.
    destruct R as [R1 [R2 [R3 [R4 [R5 [R6 R7]]]]]].
    destruct (from_arrays_roundtrip _ _ _ _ _ _ _ _ _ _ A) as [K0 [FR0 P0]].
    assert (NM := from_arrays_names _ _ _ _ _ _ _ _ _ _ A). destruct NM as [_ [ND0 PM0]].
    assert (INV := from_arrays_inv _ _ _ _ _ _ _ _ _ _ A).
    destruct INV as [force [HF [_ [_ [Cy [_ [_ [T [V [Hf0 HK]]]]]]]]]].
    rewrite force_arg_of in HF. injection HF as <-.
    assert (CR := construct_roles _ _ _ _ _ _ _ _ _ _ _ HK).
    destruct CR as [_ [_ [_ [_ [_ [_ [_ [_ [CO CF]]]]]]]]].
    cbn [bool_arg] in CO. injection CO as CO. rewrite force_arg_of in CF. injection CF as CF.
    set (cn := names "cluster_var" (a_cols cl)).
    set (cs := pad_columns (a_rows cl) (named cn cl) ++ pad_columns (a_rows x) (array_columns x y d z t v)).
    set (f := frame_of (Nat.max (a_rows cl) (a_rows x)) cs).
    set (r := set_rcl (dd_roles s0) (Some cn)).
    assert (ND : NoDup (map fst cs)) by apply cluster_names_nodup.
    assert (GET := frame_of_get (Nat.max (a_rows cl) (a_rows x)) cs ND). fold f in GET.
    assert (FR : frows f = a_rows x) by (unfold f, frame_of; cbn [frows]; lia).
    assert (INC : forall p, In p (named cn cl) -> In (fst p, pad (a_rows cl) (snd p)) cs).
    { intros p Hp. unfold cs. apply in_or_app. left. unfold pad_columns. apply in_map_iff. now exists p. }
    assert (INA : forall p, In p (array_columns x y d z t v) -> In (fst p, pad (a_rows x) (snd p)) cs).
    { intros p Hp. unfold cs. apply in_or_app. right. unfold pad_columns. apply in_map_iff. now exists p. }
    (* the columns of the plain object are unchanged *)
    assert (SAME : forall c, In c (fcols f0) -> forall i, (i < frows f)%nat -> fcell f c i = fcell f0 c i).
    { intros c Hc i Hi. rewrite Hf0 in Hc. cbn [frame_of fcols] in Hc. apply in_map_iff in Hc as [[k w] [<- Hc]].
      cbn [fst]. rewrite (GET k _ (INA _ Hc) i Hi). cbn [snd]. unfold pad. rewrite (proj2 (Nat.ltb_lt _ _)) by lia.
      rewrite Hf0. cbn. now rewrite (col_get_in k w _ (array_names_nodup x y d z t v) Hc). }
    assert (CLN : forall c, In c cn -> number_column f c).
    { intros c Hc i Hi. apply In_nth_error in Hc as [j Hj].
      rewrite (GET c _ (INC _ (named_in cn cl j c Hj)) i Hi). cbn [snd]. unfold pad.
      rewrite (proj2 (Nat.ltb_lt _ _)) by lia. apply B3; [lia|].
      assert (nth_error cn j <> None) by congruence. apply nth_error_Some in H. unfold cn in H. rewrite names_length in H. exact H. }
    assert (RC : role_columns r = role_columns (dd_roles s0) ++ cn).
    { unfold role_columns, r. cbn [set_rcl r_y r_d r_x r_z r_t r_s r_cl optl]. rewrite R7. cbn [optl].
      rewrite app_nil_r, !app_assoc. reflexivity. }
    assert (NUM0 := numbers f0 s0 (R_new _ _ K0)). destruct NUM0 as [NUM0 ALW0].
    destruct (arrays_reachable f0 s0 (R_new _ _ K0)) as [U1 [U2 [U3 [U4 [U5 U6]]]]].
    rewrite U1, U2, U3, U4, U5 in NUM0.
    (* all treatments are numeric *)
    assert (ND' : forall c, In c (r_d (dd_roles s0)) -> number_column f0 c).
    { destruct P0 as [_ [_ [P3 _]]]. destruct F as [_ [_ [_ [_ [[D1 [D2 D3]] _]]]]].
      intros c Hc i Hi. exact (proj1 (columns_number f0 _ d number P3 ltac:(congruence)) D3 c Hc i Hi). }
    assert (NX : forall c, In c (r_x (dd_roles s0)) -> allowed_column fo f0 c).
    { destruct P0 as [P1 _]. destruct F as [_ [_ [X3 _]]].
      intros c Hc i Hi. exact (proj1 (columns_number f0 _ x (allowed fo) P1 FR0) X3 c Hc i Hi). }
    assert (ROLE : forall c, In c (role_columns (dd_roles s0)) -> In c (fcols f0)) by (intros c; apply PM0).
    assert (USE : usable f r fo).
    { split; [exact ND|]. split.
      - split.
        + rewrite RC. apply nodup_app. split; [exact ND0|]. split; [apply names_nodup|].
          intros c Hc Gc. apply PM0 in Hc. rewrite Hf0 in Hc. cbn [frame_of fcols] in Hc.
          assert (CN := cluster_names_nodup x y d cl z t v).
          rewrite map_app, !map_fst_pad, map_fst_named in CN. apply nodup_app in CN as [_ [_ CN]].
          exact (CN c Gc Hc).
        + rewrite RC. intros c Hc. unfold f, cs, frame_of; cbn [fcols].
          rewrite map_app, !map_fst_pad, map_fst_named. apply in_or_app.
          apply in_app_or in Hc as [Hc|Hc]; [right|now left].
          apply PM0 in Hc. rewrite Hf0 in Hc. exact Hc.
      - split; [unfold r; cbn [set_rcl r_d]; intros G; rewrite G in U6; exact U6|]. split.
        + intros c Hc. unfold r in Hc. cbn [set_rcl r_y r_d r_x r_z r_t r_s r_cl optl] in Hc.
          rewrite !in_app_iff in Hc.
          assert (Q : In c cn \/ (In c (role_columns (dd_roles s0)) /\ number_column f0 c)).
          { destruct Hc as [Hc|[Hc|[Hc|[Hc|[Hc|Hc]]]]]; [right|right|right|right|right|now left].
            - split; [unfold role_columns; rewrite !in_app_iff; tauto|]. apply NUM0. destruct Hc as [<-|[]]. now left.
            - split; [unfold role_columns; rewrite !in_app_iff; tauto|]. now apply ND'.
            - split; [unfold role_columns; rewrite !in_app_iff; tauto|]. apply NUM0. right. right. rewrite !in_app_iff. tauto.
            - split; [unfold role_columns; rewrite !in_app_iff; tauto|]. apply NUM0. right. right. rewrite !in_app_iff. tauto.
            - split; [unfold role_columns; rewrite !in_app_iff; tauto|]. apply NUM0. right. right. rewrite !in_app_iff. tauto. }
          destruct Q as [Q|[Q1 Q2]]; [now apply CLN|].
          intros i Hi. rewrite (SAME c (ROLE c Q1) i Hi). apply Q2. lia.
        + intros c Hc i Hi. unfold r in Hc; cbn [set_rcl r_x] in Hc.
          rewrite (SAME c); [apply NX; [exact Hc|lia]| |exact Hi].
          apply ROLE. unfold role_columns. rewrite !in_app_iff. tauto. }
    destruct (construct_ok f r other fo USE) as [s [K _]].
    exists f, s. unfold cluster_from_arrays. rewrite A. cbn [bind snd].
    rewrite (proj2 (check_array_iff Strict cl)) by (rewrite E; split; [exact X1|split; [exact B2|exact B3]]).
    cbn [require]. cbv zeta. fold cn. fold cs. fold f.
    rewrite <- CO, <- CF. unfold r in K. cbn [set_rcl r_y r_d r_x r_z r_t r_s r_cl option_map] in K.
    change (match fo with Strict => FBool true | Loose => FBool false | AllowNan => FStr "allow-nan" end) with (farg_of fo).
    rewrite K. reflexivity.
Qed.

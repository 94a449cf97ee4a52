(** Lemmas about the data containers. *)
From Verif Require Import Base M_Data S_Data.
Open Scope string_scope.
Open Scope list_scope.

(** ** Lists of names *)
Lemma mem_iff c l : mem c l = true <-> In c l.
Proof.
  unfold mem. rewrite existsb_exists. split.
  - intros [x [H E]]. apply String.eqb_eq in E. now subst.
  - intros H. exists c. split; [exact H|apply String.eqb_refl].
Qed.
Lemma mem_false c l : mem c l = false <-> ~ In c l.
Proof. rewrite <- mem_iff. destruct (mem c l); split; congruence. Qed.
Lemma distinct_iff l : distinct l = true <-> NoDup l.
Proof.
  induction l as [|x r IH]; cbn; [split; [constructor|reflexivity]|].
  rewrite andb_true_iff, negb_true_iff, mem_false, IH. split.
  - intros [A B]. now constructor.
  - intros H. now inversion H.
Qed.
Lemma subset_iff a b : subset a b = true <-> incl a b.
Proof.
  unfold subset, incl. rewrite forallb_forall.
  split; intros H c Hc; apply mem_iff, H, Hc.
Qed.
Lemma disjoint_iff a b : disjoint a b = true <-> (forall c, In c a -> ~ In c b).
Proof.
  unfold disjoint. rewrite forallb_forall. split; intros H c Hc.
  - apply mem_false. specialize (H c Hc). now apply negb_true_iff in H.
  - apply negb_true_iff, mem_false, H, Hc.
Qed.
Lemma nodup_app (a b : list string) :
  NoDup (a ++ b) <-> NoDup a /\ NoDup b /\ (forall c, In c a -> ~ In c b).
Proof.
  induction a as [|x r IH]; cbn.
  - split; [intros H; repeat split; [constructor|exact H|tauto]|tauto].
  - rewrite !NoDup_cons_iff, IH, in_app_iff. split.
    + intros [A [B [C D]]]. repeat split; try tauto.
      intros c [->|H]; [tauto|now apply D].
    + intros [[A B] [C D]]. repeat split; try tauto.
      * intros [H|H]; [tauto|]. exact (D x (or_introl eq_refl) H).
      * intros c H. apply D. tauto.
Qed.
Lemma nodup_one (c : string) : NoDup [c].
Proof. constructor; [intros []|constructor]. Qed.

Lemma disj_one c l : disjoint [c] l = true <-> ~ In c l.
Proof.
  rewrite disjoint_iff. split; [intros H; apply H; now left|].
  intros H c' [<-|[]]. exact H.
Qed.

(** ** Roles *)
Lemma each_role_parts f r :
  each_role f r <->
  ((NoDup (r_d r) /\ NoDup (r_x r) /\ NoDup (optl (r_z r)) /\ NoDup (optl (r_cl r))) /\
   In (r_y r) (fcols f) /\ incl (r_d r) (fcols f) /\ incl (r_x r) (fcols f) /\
   incl (optl (r_z r)) (fcols f) /\ incl (opt1 (r_t r)) (fcols f) /\
   incl (opt1 (r_s r)) (fcols f) /\ incl (optl (r_cl r)) (fcols f)).
Proof.
  unfold each_role. split.
  - intros H.
    assert (G := fun l Hl => proj1 (H l Hl)). assert (I := fun l Hl => proj2 (H l Hl)).
    repeat split; try (apply G; cbn; tauto); try (apply I; cbn; tauto).
    apply (I [r_y r]); cbn; tauto.
  - intros [[A [B [C D]]] [E [F [G [H [I [J K]]]]]]] l Hl.
    cbn in Hl. destruct Hl as [<-|[<-|[<-|[<-|[<-|[<-|[<-|[]]]]]]]].
    + split; [apply nodup_one|intros c [<-|[]]; exact E].
    + now split.
    + now split.
    + now split.
    + split; [destruct (r_t r); [apply nodup_one|constructor]|exact I].
    + split; [destruct (r_s r); [apply nodup_one|constructor]|exact J].
    + now split.
Qed.

Lemma in_opt1 c o : In c (opt1 o) <-> o = Some c.
Proof. destruct o; cbn; [split; [intros [->|[]]; reflexivity|intros [= ->]; now left]|split; [tauto|discriminate]]. Qed.

Lemma disjoint_base_iff r :
  disjoint_base r = true <->
  ((~ In (r_y r) (r_x r)) /\ (~ In (r_y r) (r_d r)) /\ (forall c, In c (r_d r) -> ~ In c (r_x r)) /\
   (~ In (r_y r) (optl (r_z r)) /\ (forall c, In c (r_d r) -> ~ In c (optl (r_z r))) /\
    (forall c, In c (r_x r) -> ~ In c (optl (r_z r)))) /\
   (forall t, r_t r = Some t -> ~ In t (r_x r) /\ ~ In t (r_d r) /\ t <> r_y r /\ ~ In t (optl (r_z r))) /\
   (forall v, r_s r = Some v -> ~ In v (r_x r) /\ ~ In v (r_d r) /\ v <> r_y r /\ ~ In v (optl (r_z r)) /\
       r_t r <> Some v)).
Proof.
  unfold disjoint_base.
  destruct r as [y d x z t v cl]; cbn [r_y r_d r_x r_z r_t r_s r_cl].
  rewrite !andb_true_iff, !disj_one, !disjoint_iff.
  assert (Z : (match z with Some z => disjoint [y] z && disjoint d z && disjoint x z | None => true end) = true <->
    (~ In y (optl z) /\ (forall c, In c d -> ~ In c (optl z)) /\ (forall c, In c x -> ~ In c (optl z)))).
  { destruct z as [z|]; cbn [optl]; [rewrite !andb_true_iff, disj_one, !disjoint_iff; tauto|].
    split; [intros _; repeat split; auto|reflexivity]. }
  rewrite Z. clear Z.
  assert (T : (match t with
      | None => true
      | Some t => disjoint [t] x && disjoint [t] d && disjoint [t] [y]
                  && match z with None => true | Some z => disjoint [t] z end
      end) = true <->
    (forall t', t = Some t' -> ~ In t' x /\ ~ In t' d /\ t' <> y /\ ~ In t' (optl z))).
  { destruct t as [t|]; [|split; [discriminate|reflexivity]].
    rewrite !andb_true_iff, !disj_one. cbn [In].
    assert (Z : (match z with None => true | Some z => disjoint [t] z end) = true <-> ~ In t (optl z)).
    { destruct z; cbn [optl]; [apply disj_one|cbn; tauto]. }
    rewrite Z. split.
    - intros H t' [= <-]. intuition.
    - intros H. specialize (H t eq_refl). intuition. }
  rewrite T. clear T.
  assert (V : (match v with
      | None => true
      | Some v => disjoint [v] x && disjoint [v] d && disjoint [v] [y]
                  && match z with None => true | Some z => disjoint [v] z end
                  && match t with None => true | Some t => disjoint [v] [t] end
      end) = true <->
    (forall v', v = Some v' -> ~ In v' x /\ ~ In v' d /\ v' <> y /\ ~ In v' (optl z) /\ t <> Some v')).
  { destruct v as [v|]; [|split; [discriminate|reflexivity]].
    rewrite !andb_true_iff, !disj_one. cbn [In].
    assert (Z : (match z with None => true | Some z => disjoint [v] z end) = true <-> ~ In v (optl z)).
    { destruct z; cbn [optl]; [apply disj_one|cbn; tauto]. }
    rewrite Z.
    assert (T : (match t with None => true | Some t => disjoint [v] [t] end) = true <-> t <> Some v).
    { destruct t as [t|]; [rewrite disj_one; cbn [In]|split; [discriminate|reflexivity]].
      split; [intros A [= B]; tauto|intros A [->|[]]; tauto]. }
    rewrite T. split.
    - intros H t' [= <-]. intuition.
    - intros H. specialize (H v eq_refl). intuition. }
  rewrite V. tauto.
Qed.

Lemma disjoint_cluster_iff r :
  disjoint_cluster r = true <->
  (forall c, In c (optl (r_cl r)) ->
     c <> r_y r /\ ~ In c (r_d r) /\ ~ In c (r_x r) /\ ~ In c (optl (r_z r)) /\
     r_t r <> Some c /\ r_s r <> Some c).
Proof.
  unfold disjoint_cluster.
  destruct r as [y d x z t v cl]; cbn [r_y r_d r_x r_z r_t r_s r_cl].
  destruct cl as [cl|]; cbn [optl]; [|split; [intros _ c []|reflexivity]].
  rewrite !andb_true_iff, !disj_one, !disjoint_iff.
  assert (Z : (match z with None => true | Some z => disjoint z cl end) = true <-> (forall c, In c (optl z) -> ~ In c cl)).
  { destruct z; cbn [optl]; [apply disjoint_iff|split; [intros _ c []|reflexivity]]. }
  assert (T : forall t, (match t with None => true | Some t => disjoint [t] cl end) = true <-> (forall c, t = Some c -> ~ In c cl)).
  { intros [u|]; [rewrite disj_one|split; [discriminate|reflexivity]].
    split; [intros H c [= <-]; exact H|intros H; now apply H]. }
  rewrite Z, !T. split.
  - intros [[[[[A B] C] D] E] F] c Hc.
    repeat split; [intros ->; tauto| | | | |]; intros G; [apply (B c)|apply (C c)|apply (D c)|apply (E c)|apply (F c)]; auto.
  - intros H. repeat split.
    + intros G. destruct (H _ G); tauto.
    + intros c G G'. destruct (H _ G') as [_ [K _]]. tauto.
    + intros c G G'. destruct (H _ G') as [_ [_ [K _]]]. tauto.
    + intros c G G'. destruct (H _ G') as [_ [_ [_ [K _]]]]. tauto.
    + intros c G G'. destruct (H _ G') as [_ [_ [_ [_ [K _]]]]]. tauto.
    + intros c G G'. destruct (H _ G') as [_ [_ [_ [_ [_ K]]]]]. tauto.
Qed.

Lemma well_formed_iff f r :
  well_formed f r <-> each_role f r /\ disjoint_roles r = true.
Proof.
  unfold well_formed, role_columns, disjoint_roles.
  rewrite each_role_parts, andb_true_iff, disjoint_base_iff, disjoint_cluster_iff.
  rewrite !nodup_app.
  assert (I : incl ([r_y r] ++ r_d r ++ r_x r ++ optl (r_z r) ++ opt1 (r_t r) ++ opt1 (r_s r) ++ optl (r_cl r)) (fcols f)
    <-> In (r_y r) (fcols f) /\ incl (r_d r) (fcols f) /\ incl (r_x r) (fcols f) /\
   incl (optl (r_z r)) (fcols f) /\ incl (opt1 (r_t r)) (fcols f) /\
   incl (opt1 (r_s r)) (fcols f) /\ incl (optl (r_cl r)) (fcols f)).
  { unfold incl. split.
    - intros H. repeat split; [apply H; now left|..]; intros c Hc; apply H; rewrite !in_app_iff; tauto.
    - intros [A [B [C [D [E [F G]]]]]] c. rewrite !in_app_iff. cbn [In].
      intros [[<-|[]]|[H|[H|[H|[H|[H|H]]]]]]; auto. }
  rewrite I. clear I.
  destruct r as [y d x z t v cl]; cbn [r_y r_d r_x r_z r_t r_s r_cl].
  assert (O : forall o : option string, NoDup (opt1 o)) by (intros [o|]; [apply nodup_one|constructor]).
  assert (N := nodup_one y). assert (O1 := O t). assert (O2 := O v).
  split.
  - intros [[_ [[A1 [[A2 [[A3 [[_ [[_ [A4 D6]] D5]] D4]] D3]] D2]] D1]] K].
    assert (D1' := D1 y (or_introl eq_refl)). rewrite !in_app_iff, !in_opt1 in D1'.
    assert (Q : forall c, In c d -> ~ In c x /\ ~ In c (optl z) /\ t <> Some c /\ v <> Some c /\ ~ In c (optl cl)).
    { intros c Hc. specialize (D2 c Hc). rewrite !in_app_iff, !in_opt1 in D2. tauto. }
    assert (Q3 : forall c, In c x -> ~ In c (optl z) /\ t <> Some c /\ v <> Some c /\ ~ In c (optl cl)).
    { intros c Hc. specialize (D3 c Hc). rewrite !in_app_iff, !in_opt1 in D3. tauto. }
    assert (Q4 : forall c, In c (optl z) -> t <> Some c /\ v <> Some c /\ ~ In c (optl cl)).
    { intros c Hc. specialize (D4 c Hc). rewrite !in_app_iff, !in_opt1 in D4. tauto. }
    assert (Q5 : forall c, t = Some c -> v <> Some c /\ ~ In c (optl cl)).
    { intros c Hc. apply in_opt1 in Hc. specialize (D5 c Hc). rewrite !in_app_iff, !in_opt1 in D5. tauto. }
    assert (Q6 : forall c, v = Some c -> ~ In c (optl cl)).
    { intros c Hc. apply in_opt1 in Hc. exact (D6 c Hc). }
    split; [tauto|]. split.
    + split; [tauto|]. split; [tauto|]. split; [intros c Hc; apply (Q c Hc)|].
      split; [split; [tauto|split; intros c Hc; [apply (Q c Hc)|apply (Q3 c Hc)]]|].
      split.
      * intros u Hu. repeat split; intros G.
        -- assert (X := Q3 u G); tauto.
        -- assert (X := Q u G); tauto.
        -- subst u. tauto.
        -- assert (X := Q4 u G); tauto.
      * intros u Hu. repeat split; intros G.
        -- assert (X := Q3 u G); tauto.
        -- assert (X := Q u G); tauto.
        -- subst u. tauto.
        -- assert (X := Q4 u G); tauto.
        -- assert (X := Q5 u G); tauto.
    + intros c Hc. repeat split; intros G.
      * subst c. tauto.
      * assert (X := Q c G); tauto.
      * assert (X := Q3 c G); tauto.
      * assert (X := Q4 c G); tauto.
      * assert (X := Q5 c G); tauto.
      * assert (X := Q6 c G); tauto.
  - intros [[[A1 [A2 [A3 A4]]] K] [[B1 [B2 [B3 [[B4 [B5 B6]] [B7 B8]]]]] C]].
    split; [|exact K].
    split; [exact N|]. split.
    { split; [exact A1|]. split.
      { split; [exact A2|]. split.
        { split; [exact A3|]. split.
          { split; [exact O1|]. split.
            { split; [exact O2|]. split; [exact A4|].
              intros c Hc G. apply in_opt1 in Hc. destruct (C c G) as [_ [_ [_ [_ [_ X]]]]]. tauto. }
            intros c Hc. apply in_opt1 in Hc. rewrite in_app_iff, in_opt1. intros [G|G].
            - destruct (B8 c G) as [_ [_ [_ [_ X]]]]. tauto.
            - destruct (C c G) as [_ [_ [_ [_ [X _]]]]]. tauto. }
          intros c Hc. rewrite !in_app_iff, !in_opt1. intros [G|[G|G]].
          - destruct (B7 c G) as [_ [_ [_ X]]]. tauto.
          - destruct (B8 c G) as [_ [_ [_ [X _]]]]. tauto.
          - destruct (C c G) as [_ [_ [_ [X _]]]]. tauto. }
        intros c Hc. rewrite !in_app_iff, !in_opt1. intros [G|[G|[G|G]]].
        - exact (B6 c Hc G).
        - destruct (B7 c G) as [X _]. tauto.
        - destruct (B8 c G) as [X _]. tauto.
        - destruct (C c G) as [_ [_ [X _]]]. tauto. }
      intros c Hc. rewrite !in_app_iff, !in_opt1. intros [G|[G|[G|[G|G]]]].
      - exact (B3 c Hc G).
      - exact (B5 c Hc G).
      - destruct (B7 c G) as [_ [X _]]. tauto.
      - destruct (B8 c G) as [_ [X _]]. tauto.
      - destruct (C c G) as [_ [X _]]. tauto. }
    intros c [<-|[]]. rewrite !in_app_iff, !in_opt1. intros [G|[G|[G|[G|[G|G]]]]]; try tauto.
    + destruct (B7 _ G) as [_ [_ [X _]]]. tauto.
    + destruct (B8 _ G) as [_ [_ [X _]]]. tauto.
    + destruct (C _ G) as [X _]. tauto.
Qed.

(** An empty list of treatments. *)
From Verif Require Import Base M_Data S_Data L_Data L_DataOps L_DataProps.
From Coq Require Import List String Lia Bool.
Import ListNotations.
Local Open Scope string_scope.

Lemma no_treatments_disjoint r : disjoint_roles r = true -> disjoint_roles (set_rd r []) = true.
Proof.
  unfold disjoint_roles. rewrite !andb_true_iff, !disjoint_base_iff, !disjoint_cluster_iff. cbn. intros [(A & B & C & (D1 & D2 & D3) & T & V) G].
  split.
  - split; [exact A|]. split; [intros []|]. split; [intros c []|]. split; [split; [exact D1|split; [intros c []|exact D3]]|].
    split; [intros t Ht; destruct (T t Ht) as (? & _ & ? & ?); auto|intros v Hv; destruct (V v Hv) as (? & _ & ? & ? & ?); auto].
  - intros c Hc. destruct (G c Hc) as (? & _ & ? & ? & ? & ?). auto 7.
Qed.
Lemma empty_treatments f s : reachable f s -> exists s', assign f s (SetD (CList [])) = (s', Some IndexError) /\ r_d (dd_roles s') = [] /\ s' <> s /\ c_d s' = c_d s /\
  (forall b, snd (assign f s' (SetOther (FBool b))) = Some IndexError) /\ (forall l, snd (assign f s' (SetX (CList l))) <> None).
Proof.
  intro Re. pose proof (reachable_inv _ _ Re) as I. pose proof (proj2 (proj1 (well_formed_iff _ _) (i_wf _ _ I))) as D.
  exists (with_roles s (set_rd (dd_roles s) [])). cbn [assign]. unfold list_arg at 1. cbn [distinct subset forallb require arg]. unfold check_disjoint, assert_. cbn [dd_roles with_roles].
  rewrite (no_treatments_disjoint _ D). cbn [next set_xd0 dd_roles with_roles set_rd r_d].
  split; [reflexivity|]. split; [reflexivity|]. split.
  { intro G. apply (f_equal (fun s => r_d (dd_roles s))) in G. cbn in G. pose proof (arrays_reachable _ _ Re) as (U & _). destruct (features_reachable _ _ Re) as [_ Q]. rewrite <- G in Q. destruct Q. }
  split; [reflexivity|]. split; [intro b; reflexivity|].
  intros l. unfold x_arg. destruct (list_arg f (CList l)) as [l0|e]; cbn [arg]; [|cbn; intro Q; discriminate Q]. cbn [dd_roles with_roles]. destruct (disjoint_roles (set_rx (set_rd (dd_roles s) []) l0)); cbn; intro Q; discriminate Q.
Qed.

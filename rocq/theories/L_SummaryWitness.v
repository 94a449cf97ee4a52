(** Concrete cases for the summary tables. *)
From Verif Require Export L_Summary L_ModelWitness.
From Coq Require Import Lia Lra Ascii.
Local Open Scope R_scope.
Local Open Scope string_scope.

(** Numbers printed in unary. *)
Fixpoint tally (n : nat) : string := match n with O => "" | S k => String "1" (tally k) end.
Definition tally_z (z : Z) : string := if Z.ltb z 0 then String "-" (tally (Z.abs_nat z)) else tally (Z.abs_nat z).
Lemma tally_inj : forall a b, tally a = tally b -> a = b.
Proof. induction a as [|a IH]; intros [|b] H; try discriminate; [reflexivity|]. injection H as H. now rewrite (IH b H). Qed.
Lemma tally_ascii n c : In c (list_ascii_of_string (tally n)) -> c = "1"%char.
Proof. induction n as [|n IH]; cbn; [tauto|]. intros [<-|H]; auto. Qed.
Lemma tally_readable : readable tally_z.
Proof.
  split.
  - intros a b H. unfold tally_z in H. destruct (Z.ltb_spec a 0), (Z.ltb_spec b 0); [injection H as H; apply tally_inj in H; lia| | |apply tally_inj in H; lia].
    + destruct (Z.abs_nat b); discriminate.
    + destruct (Z.abs_nat a); discriminate.
  - intros a H. unfold tally_z in H. destruct (Z.ltb a 0).
    + destruct H as [H|H]; [discriminate|]. apply tally_ascii in H. discriminate.
    + apply tally_ascii in H. discriminate.
Qed.
Definition three_levels : list (R * R * R) := [(1, 1, 2); (3, 2, 1); (7, 1, 1)].
(** Contrasts of three levels, their table. *)
Lemma three_contrasts ppf cdf : exists h tab, causal_contrast tally_z [0; 1; 2]%Z (Some (fst (lvl 1 1 2))) (map Some (lvls three_levels)) (RefList [2; 0]%Z) = Ok h /\ fw_wf h /\ fw_n_thetas h = 3%nat /\
  fw_summary ppf cdf h = Ok tab /\ map fst tab = map Named [" vs 11"; "1 vs 11"; "1 vs "].
Proof.
  assert (Nn : forall m, In m (lvls three_levels) -> nonneg_sens 1 (snd m)) by (apply lvls_nonneg; intros p [<-|[<-|[<-|[]]]]; cbn; lra).
  assert (N3 : NoDup [0; 1; 2]%Z) by (repeat constructor; cbn; intuition discriminate). assert (N2 : NoDup [2; 0]%Z) by (repeat constructor; cbn; intuition discriminate).
  destruct (contrast_full 2 1 tally_z [0; 1; 2]%Z (lvls three_levels) (fst (lvl 1 1 2)) [2; 0]%Z N3 eq_refl ltac:(cbn; lia) (lvl_models three_levels) Nn N2 ltac:(discriminate) ltac:(cbn; intuition subst; auto) (RefList [2; 0]%Z) eq_refl) as (h & E & W & (Nt & Nm & _) & _).
  change (level_pairs _ _) with [(0, 2); (1, 2); (1, 0)]%Z in Nt, Nm. cbn [length] in Nt.
  destruct (framework_summary ppf cdf h W) as (tab & Et & Lt & Vt).
  { intros l El. rewrite Nm in El. apply (f_equal (fun o => match o with Some x => x | None => [] end)) in El. cbn beta iota in El. rewrite <- El. apply contrast_names_distinct; [exact tally_readable|]. repeat constructor; cbn; intuition discriminate. }
  exists h, tab. split; [exact E|]. split; [exact W|]. split; [exact Nt|]. split; [exact Et|]. rewrite Nt in Lt. unfold fw_labels in Vt. rewrite Nm in Vt.
  pose proof (Vt 0%nat _ eq_refl) as V0. pose proof (Vt 1%nat _ eq_refl) as V1. pose proof (Vt 2%nat _ eq_refl) as V2.
  destruct tab as [|t0 [|t1 [|t2 [|]]]]; try discriminate Lt. cbn [nth_error] in V0, V1, V2. injection V0 as ->. injection V1 as ->. injection V2 as ->. reflexivity.
Qed.
(** A fitted model with two treatments. *)
Definition table_case : Prop := exists w w', reachable two_ctx w /\ fit two_ctx PNone (PBool true) ExtNone (PBool false) w = (w', Ok tt) /\ NoDup (c_dcols two_ctx) /\ length (c_dcols two_ctx) = 2%nat /\
  forall ppf cdf, exists w2 r1 r2, obj_table two_ctx ppf cdf w' = (w2, Ok [("d1", r1); ("d2", r2)]).
Lemma two_rows : table_case.
Proof.
  destruct (built_new two_ctx (PInt 2) (PInt 1) (PBool true) g_id no_perm (Some split_a) 1 2 2) as (w0 & A & B & D & E & _); [vm_compute; reflexivity|].
  assert (F : exists w', fit two_ctx PNone (PBool true) ExtNone (PBool false) w0 = (w', Ok tt)).
  { apply fit_complete; [cbn; lia|apply reachable_wf; exact B|reflexivity| |discriminate].
    intros r t Hr Ht. rewrite E in Hr. assert (r = 0%nat) as -> by lia. eexists. unfold step_fun, nuis_call, smpls_rep. rewrite D. cbn [set_external bind nth_error]. reflexivity. }
  destruct F as (w' & F). assert (N : NoDup (c_dcols two_ctx)) by (repeat constructor; cbn; intuition discriminate).
  exists w0, w'. split; [exact B|]. split; [exact F|]. split; [exact N|]. split; [reflexivity|]. intros ppf cdf.
  destruct (model_summary two_ctx ppf cdf w0 _ _ _ _ w' ltac:(discriminate) N B F) as (f & tab & w2 & _ & Et & Lt & _ & _ & _ & V).
  pose proof (V 0%nat _ eq_refl) as V0. pose proof (V 1%nat _ eq_refl) as V1. destruct tab as [|t0 [|t1 [|]]]; try discriminate Lt. cbn [nth_error] in V0, V1. injection V0 as ->. injection V1 as ->. eexists _, _, _. exact Et.
Qed.
(** The framework of three contrasts renamed with a repeated name. *)
Lemma five_rows ppf cdf : exists f f' tab, fw_wf f /\ set_names f ["b"; "a"; "b"] = Ok f' /\ fw_summary ppf cdf f' = Ok tab /\ length tab = 5%nat.
Proof.
  destruct (three_contrasts ppf cdf) as (h & _ & _ & W & Nt & _). exists h. unfold set_names, check_names. cbn [map M_Framework.all_some length]. replace (Nat.eqb 3 (fw_n_thetas h)) with true by now rewrite Nt. cbn [require bind].
  eexists. destruct (ci_of ppf h) as (ci & Ec & _). eexists. split; [exact W|]. split; [reflexivity|]. unfold fw_summary, labelled_summary.
  match goal with |- context [confint ppf ?g _ _] => change (confint ppf g (PBool false) (PFloat (95 / 100))) with (confint ppf h (PBool false) (PFloat (95 / 100))) end. rewrite Ec. cbn [bind].
  unfold generate_summary, fw_rows, ci_rows, fw_labels. cbn [fw_names fw_n_thetas]. rewrite Nt. split; reflexivity.
Qed.

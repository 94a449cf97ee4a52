(** External predictions: what each class requires, and classes that ignore
    what is supplied. *)
From Verif Require Export L_ExternalNeed.
From Coq Require Import Lia Lra.
Local Open Scope R_scope.
Local Open Scope res_scope.
Local Open Scope string_scope.

Section Needs.
Context {E P : Type}.
Variable L : learner E row P.
Variable mc : machinery E P.
Hypothesis U : untrainable L.

Lemma plr_requires n dcols iv bin x y d : dcols <> [] -> requires (plr_ctx L mc n dcols iv bin x y d) (if iv then ["ml_m"; "ml_g"] else ["ml_l"; "ml_m"]).
Proof.
  intros Hd w nj store ext smod w' Hw Sf H. eapply (needs_fit _ _ w nj store ext smod w'); [exact Hd|exact Hw|exact Sf| | |exact H].
  - intros l Hl. destruct iv; cbn in *; tauto.
  - intros r t fs prm e out Hfs Nu. exact (plr_needs L U _ _ _ _ _ _ _ _ Hfs Nu).
Qed.
Lemma pliv_requires n dcols iv x y d z : dcols <> [] -> requires (pliv_ctx L mc n dcols iv x y d z) (if iv then ["ml_l"; "ml_m"; "ml_r"; "ml_g"] else ["ml_l"; "ml_m"; "ml_r"]).
Proof.
  intros Hd w nj store ext smod w' Hw Sf H. eapply (needs_fit _ _ w nj store ext smod w'); [exact Hd|exact Hw|exact Sf|apply incl_refl| |exact H].
  intros r t fs prm e out Hfs Nu. exact (pliv_needs L U _ _ _ _ _ _ _ _ Hfs Nu).
Qed.
Lemma several_requires proj n dcols x y d zs : dcols <> [] -> requires (pliv_several_ctx L mc n proj dcols x y d zs) ("ml_l" :: "ml_r" :: map (fun p => "ml_m_" ++ fst p)%string zs)%list.
Proof.
  intros Hd w nj store ext smod w' Hw Sf H. eapply (needs_fit _ _ w nj store ext smod w'); [exact Hd|exact Hw|exact Sf|apply incl_refl| |exact H].
  intros r t fs prm e out Hfs Nu. exact (several_needs L U _ _ _ _ _ _ _ _ Hfs Nu).
Qed.
Lemma irm_requires n dcol atte norm bo tr thr w_ x y d strata : requires (irm_ctx L mc n dcol atte norm bo tr thr w_ x y d strata) ["ml_g0"; "ml_g1"; "ml_m"].
Proof.
  intros w nj store ext smod w' Hw Sf H. eapply (needs_fit _ _ w nj store ext smod w'); [discriminate|exact Hw|exact Sf|apply incl_refl| |exact H].
  intros r t fs prm e out Hfs Nu. exact (irm_needs L U _ _ _ _ _ _ _ _ _ _ _ _ Hfs Nu).
Qed.
Lemma apo_requires n dcol norm bo tr thr w_ x y d lvl strata : requires (apo_ctx L mc n dcol norm bo tr thr w_ x y d lvl strata) ["ml_g_d_lvl0"; "ml_g_d_lvl1"; "ml_m"].
Proof.
  intros w nj store ext smod w' Hw Sf H. eapply (needs_fit _ _ w nj store ext smod w'); [discriminate|exact Hw|exact Sf|apply incl_refl| |exact H].
  intros r t fs prm e out Hfs Nu. exact (apo_needs L U _ _ _ _ _ _ _ _ _ _ _ _ Hfs Nu).
Qed.
Lemma iivm_requires n dcol norm bo at1 nt1 tr thr x y z d strata :
  requires (iivm_ctx L mc n dcol norm bo at1 nt1 tr thr x y z d strata) (["ml_g0"; "ml_g1"; "ml_m"] ++ (if at1 then ["ml_r0"] else []) ++ (if nt1 then ["ml_r1"] else []))%list.
Proof.
  intros w nj store ext smod w' Hw Sf H. eapply (needs_fit _ _ w nj store ext smod w'); [discriminate|exact Hw|exact Sf| | |exact H].
  - intros l Hl. destruct at1, nt1; cbn in *; tauto.
  - intros r t fs prm e out Hfs Nu. exact (iivm_needs L U _ _ _ _ _ _ _ _ _ _ _ _ _ Hfs Nu).
Qed.
Lemma did_requires n dcol obs norm tr thr x y d strata : requires (did_ctx L mc n dcol obs norm tr thr x y d strata) (if obs then ["ml_g0"; "ml_g1"; "ml_m"] else ["ml_g0"; "ml_g1"]).
Proof.
  intros w nj store ext smod w' Hw Sf H. eapply (needs_fit _ _ w nj store ext smod w'); [discriminate|exact Hw|exact Sf|apply incl_refl| |exact H].
  intros r t fs prm e out Hfs Nu. exact (did_needs L U _ _ _ _ _ _ _ _ _ _ Hfs Nu).
Qed.
Lemma cs_requires n dcol obs norm tr thr x y d t_ strata :
  requires (cs_ctx L mc n dcol obs norm tr thr x y d t_ strata) (["ml_g_d0_t0"; "ml_g_d0_t1"; "ml_g_d1_t0"; "ml_g_d1_t1"] ++ if obs then ["ml_m"] else [])%list.
Proof.
  intros w nj store ext smod w' Hw Sf H. eapply (needs_fit _ _ w nj store ext smod w'); [discriminate|exact Hw|exact Sf|apply incl_refl| |exact H].
  intros r t fs prm e out Hfs Nu. exact (cs_needs L U _ _ _ _ _ _ _ _ _ _ _ Hfs Nu).
Qed.
End Needs.

Lemma ignoring {P} (C : ctx P) : c_dcols C <> [] -> (forall r t fs prm e e', c_nuis C r t fs prm e = c_nuis C r t fs prm e') -> ignores_predictions C.
Proof.
  intros Hd Ig w nj nj' store store' ext ext' smod smod' w1 w2 Hw H1 H2.
  destruct (fit_reports C w nj store ext smod w1 Hd Hw H1) as (o1 & F1 & (sm1 & Es1 & Ls1 & Nr1) & Cf1 & Rp1 & _).
  destruct (fit_reports C w nj' store' ext' smod' w2 Hd Hw H2) as (o2 & F2 & (sm2 & Es2 & Ls2 & Nr2) & Cf2 & Rp2 & _).
  rewrite Es1 in Es2. injection Es2 as <-. exists F1, F2. split; [exact Cf1|]. split; [exact Cf2|].
  assert (En : fw_n_rep F1 = fw_n_rep F2) by (rewrite (rp_n_rep _ _ _ _ Rp1), (rp_n_rep _ _ _ _ Rp2); reflexivity). assert (Ek : fw_n_thetas F1 = fw_n_thetas F2) by (rewrite (rp_n_thetas _ _ _ _ Rp1), (rp_n_thetas _ _ _ _ Rp2); reflexivity).
  split; [exact En|]. split; [exact Ek|]. intros t r Ht Hr.
  assert (Eo : o1 r t = o2 r t).
  { pose proof Hr as Hr'. pose proof Ht as Ht'. rewrite (rp_n_rep _ _ _ _ Rp1) in Hr'. rewrite (rp_n_thetas _ _ _ _ Rp1) in Ht'. destruct (nth_error (c_dcols C) t) as [col|] eqn:Ec; [|apply nth_error_None in Ec; lia].
    destruct (Nr1 r t col Hr' Ec) as (e1 & _ & N1). destruct (Nr2 r t col Hr' Ec) as (e2 & _ & N2). rewrite (Ig _ _ _ _ e1 e2) in N1. rewrite N1 in N2. injection N2 as N2. exact N2. }
  split.
  - rewrite (rp_theta _ _ _ _ Rp1 r t Hr Ht), (rp_theta _ _ _ _ Rp2 r t) by lia. rewrite Eo. reflexivity.
  - destruct (rp_se _ _ _ _ Rp1 r t Hr Ht) as (s1 & V1 & ->). destruct (rp_se _ _ _ _ Rp2 r t) as (s2 & V2 & ->); [lia|lia|]. rewrite Eo in V1. rewrite V1 in V2. injection V2 as <- _. reflexivity.
Qed.
Lemma pliv_z_unused {E P} (L : learner E row P) mc n dcols x zrow y d : dcols <> [] -> ignores_predictions (pliv_z_ctx L mc n dcols x zrow y d).
Proof. intro Hd. apply ignoring; [exact Hd|]. intros. reflexivity. Qed.
Lemma pliv_xz_unused {E P} (L : learner E row P) mc n dcols x zrow y d : dcols <> [] -> ignores_predictions (pliv_xz_ctx L mc n dcols x zrow y d).
Proof. intro Hd. apply ignoring; [exact Hd|]. intros. reflexivity. Qed.

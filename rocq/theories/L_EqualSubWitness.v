(** The difference of the two fitted potential-outcome objects: a concrete case. *)
From Verif Require Export L_EqualSub L_EqualWitness.
From Coq Require Import Lia Lra.
Local Open Scope R_scope.
Local Open Scope string_scope.

Definition difference_case : Prop := exists s w0 w w1 F w01 wa1 w1' F1 w00 wa0 w0' F0 h,
  h_data (i_roles ["d"] None None None None) s /\ h_fit (h_irm s) w0 w w1 F /\ h_fit (h_apo 1 s) w01 wa1 w1' F1 /\ h_fit (h_apo 0 s) w00 wa0 w0' F0 /\ fw_sub F1 (OpFw F0) = Ok h /\ signed F h 0 0 1 /\ at_ (fw_thetas h) [0%nat] = at_ (fw_thetas F) [0%nat] /\ at_ (fw_ses h) [0%nat] = at_ (fw_ses F) [0%nat].
Lemma difference_holds : difference_case.
Proof.
  destruct (h_exists (i_roles ["d"] None None None None)) as (s & D); [cbn; tauto|].
  destruct (h_irm_runs "d" s) as (C & w0 & w & w1 & E & Lt & K & Np & Ff); [auto|exact D|]. destruct (h_apo_runs 1 s) as (C1 & w01 & wa1 & w1' & E1 & Lt1 & K1 & Np1 & Ff1); [auto|exact D|]. destruct (h_apo_runs 0 s) as (C0 & w00 & wa0 & w0' & E0 & Lt0 & K0 & Np0 & Ff0); [auto|exact D|].
  pose proof D as (Con & Ro & Ot).
  destruct (apo_difference r_memo unit h_learner q_predict h_proba i_rd i_rd i_rd h_frame s "d" reg cls (PStr "APO") (PStr "APO") WNone false (PInt 2) (PInt 2) (PInt 2) (PInt 1) (PInt 1) (PInt 1) (PBool false) (PBool false) (PBool false) (PStr "truncate") (PStr "truncate") (PStr "truncate") (1 / 100) C C1 C0 w0 w01 w00 w wa1 wa0 PNone PNone PNone (PBool true) (PBool true) (PBool true) ExtNone ExtNone ExtNone (PBool false) (PBool false) (PBool false) w1 w1' w0') as (mc & F & F1 & F0 & sm & h & R2 & Dn & Dn1 & Dn0 & Eh & H & Ag); try assumption; try exact i_sound.
  - exact (S_Data.R_new _ _ Con).
  - unfold unclustered; rewrite Ro; reflexivity.
  - cbn. lia.
  - apply h_reliable, K.
  - apply h_reliable, K1.
  - apply h_reliable, K0.
  - apply h_problem; rewrite ?Ro; auto.
  - apply h_problem; rewrite ?Ro; auto.
  - rewrite Ro. reflexivity.
  - exact h_both.
  - intro Q. discriminate Q.
  - intro Q. discriminate Q.
  - exact (h_seen w K).
  - exists s, w0, w, w1, F, w01, wa1, w1', F1, w00, wa0, w0', F0, h. split; [exact D|]. split; [exists C; split; [exact E|]; split; [exact Lt|]; split; [exact Ff|apply Dn]|]. split; [exists C1; split; [exact E1|]; split; [exact Lt1|]; split; [exact Ff1|apply Dn1]|]. split; [exists C0; split; [exact E0|]; split; [exact Lt0|]; split; [exact Ff0|apply Dn0]|].
    assert (sm = [h_smpls]) as -> by (destruct K as (K & _); destruct Dn as (_ & _ & _ & Es & _); congruence).
    destruct (H 0%nat h_smpls eq_refl Np Np1 Np0) as (m0 & m & U & Cp & Q); [apply h_matched; assumption|apply h_matched; assumption|apply h_matched; assumption|apply h_mirrored; assumption|].
    assert (Z : signed F h 0 0 1) by (apply Q; exact (h_bounds mc w _ _ _ m0 m "d" R2 U Cp _)).
    split; [exact Eh|]. split; [exact Z|]. apply Ag. intros r Hr. cbn in Hr. replace r with 0%nat by lia. exact Z.
Qed.

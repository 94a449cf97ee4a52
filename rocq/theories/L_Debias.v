(** Sensitivity elements against their specification. *)
From Verif Require Export S_Debias L_ScoresSens L_ScoresWitness.
From Verif Require Import L_Gain.
From Coq Require Import Lra.
Local Open Scope R_scope.

Lemma reqb_refl x : reqb x x = true.
Proof. apply reqb_iff. reflexivity. Qed.
Lemma reqb01 : reqb 0 1 = false.
Proof. apply reqb_false. lra. Qed.
Lemma centred_debiased n el el2 rr fit y d M al :
  (forall i, (i < n)%nat -> el i = (y i - fit i) ^ 2) -> (forall i, (i < n)%nat -> el2 i = 2 * M al i - (al (d i) i) ^ 2) ->
  sigma2_of n (centred n el el2 rr) fit y /\ debiased_nu2 n (centred n el el2 rr) d M al.
Proof.
  intros A B. split; split; cbn.
  - apply meanf_ext, A.
  - intros i Hi. rewrite A by exact Hi. reflexivity.
  - apply meanf_ext, B.
  - intros i Hi. rewrite B by exact Hi. reflexivity.
Qed.
Lemma centred_debiased2 n el el2 rr fit y d t M al :
  (forall i, (i < n)%nat -> el i = (y i - fit i) ^ 2) -> (forall i, (i < n)%nat -> el2 i = 2 * M al i - (al (d i) (t i) i) ^ 2) ->
  sigma2_of n (centred n el el2 rr) fit y /\ debiased_nu2_2 n (centred n el el2 rr) d t M al.
Proof.
  intros A B. split; split; cbn.
  - apply meanf_ext, A.
  - intros i Hi. rewrite A by exact Hi. reflexivity.
  - apply meanf_ext, B.
  - intros i Hi. rewrite B by exact Hi. reflexivity.
Qed.
Lemma irm_debiased n atte norm w y d g0 g1 m : binary n d ->
  let ma := ps_adjust n m d norm in let ws := irm_weights n atte w d ma in let s := irm_sens n atte norm w y d g0 g1 m in
  sigma2_of n s (observed_fit d g0 g1) y /\ debiased_nu2 n s d (effect (fst ws)) (ipw (snd ws) ma).
Proof.
  intros B ma ws s. apply centred_debiased.
  - intros i Hi. unfold observed_fit. destruct (B i Hi) as [E|E]; rewrite E, ?reqb_refl, ?reqb01; ring.
  - intros i Hi. fold ma. fold ws. unfold effect, ipw. f_equal. unfold Rdiv. ring.
Qed.
Lemma apo_debiased n norm w y tr g0 g1 m : binary n tr ->
  let ma := ps_adjust n m tr norm in let ws := apo_weights w in let s := apo_sens n norm w y tr g0 g1 m in
  sigma2_of n s (observed_fit tr g0 g1) y /\ debiased_nu2 n s tr (level1 (fst ws)) (ipw_level (snd ws) ma).
Proof.
  intros B ma ws s. apply centred_debiased.
  - intros i Hi. unfold observed_fit. destruct (B i Hi) as [E|E]; rewrite E, ?reqb_refl, ?reqb01; ring.
  - intros i Hi. reflexivity.
Qed.
Lemma did_debiased n (obs norm : bool) y d g0 g1 m : binary n d ->
  let p := meanf n d in let odds := fun i => if obs then m i / (1 - m i) else 1 in let s := did_sens n obs norm y d g0 g1 m in
  sigma2_of n s (observed_fit d g0 g1) y /\
  debiased_nu2 n s d (effect (fun i => if obs then d i / p else 1)) (did_alpha p (did_q0 n obs norm d odds) odds).
Proof.
  intros B p odds s. unfold s, did_sens. fold p. apply centred_debiased.
  - intros i Hi. unfold observed_fit. destruct (B i Hi) as [E|E]; rewrite E, ?reqb_refl, ?reqb01; ring.
  - intros i Hi. unfold effect, did_alpha, did_q0, odds. destruct obs; [destruct norm|]; cbn [fst snd]; fold p.
    + unfold Rdiv. ring.
    + f_equal; [|unfold Rdiv; ring]. unfold Rdiv. cbn [pow]. rewrite Rmult_1_r, Rinv_mult. ring.
    + f_equal; unfold Rdiv; ring.
Qed.
Lemma cs_debiased n (obs norm : bool) y d t g00 g01 g10 g11 m : binary n d -> binary n t ->
  let p := meanf n d in let lam := meanf n t in
  let odds := fun i => if obs then m i / (1 - m i) else 1 in let s := cs_sens n obs norm y d t g00 g01 g10 g11 m in
  sigma2_of n s (observed_fit4 d t g00 g01 g10 g11) y /\
  debiased_nu2_2 n s d t (double_diff (fun i => if obs then d i / p else 1))
    (if norm then cs_alpha (meanf n (both d t)) (meanf n (both d (compl t))) (meanf n (fun i => both (compl d) t i * odds i)) (meanf n (fun i => both (compl d) (compl t) i * odds i)) odds
     else let q := if obs then p else 1 - p in cs_alpha (p * lam) (p * (1 - lam)) (q * lam) (q * (1 - lam)) odds).
Proof.
  intros B T p lam odds s. unfold s, cs_sens. fold p. fold lam. cbv zeta. apply centred_debiased2.
  - intros i Hi. unfold observed_fit4. destruct (B i Hi) as [E|E], (T i Hi) as [F|F]; rewrite E, F, ?reqb_refl, ?reqb01; ring.
  - intros i Hi. unfold double_diff, cs_alpha, odds, both, compl. destruct obs, norm; cbn [fst snd].
    + f_equal; unfold Rdiv; ring.
    + f_equal.
      * unfold Rdiv. cbn [pow]. rewrite Rmult_1_r, !Rinv_mult. ring.
      * destruct (B i Hi) as [E|E], (T i Hi) as [F|F]; rewrite E, F; unfold Rdiv; ring.
    + rewrite (meanf_ext n (fun i => (1 - d i) * t i * 1) (fun i => (1 - d i) * t i)) by (intros; ring).
      rewrite (meanf_ext n (fun i => (1 - d i) * (1 - t i) * 1) (fun i => (1 - d i) * (1 - t i))) by (intros; ring). f_equal; unfold Rdiv; ring.
    + f_equal; unfold Rdiv; ring.
Qed.
(** Maximal bias. *)
Lemma affine_derivative a b x : derivable_pt_lim (fun t => a + t * b) x b.
Proof.
  assert (D : derivable_pt_lim (fun t => a + t * b) x (0 + (1 * b + id x * 0))).
  { apply (derivable_pt_lim_plus (fun _ => a) (fun t => t * b)); [apply derivable_pt_lim_const|]. apply (derivable_pt_lim_mult id (fun _ => b)); [apply derivable_pt_lim_id|apply derivable_pt_lim_const]. }
  assert (E : 0 + (1 * b + id x * 0) = b) by ring. rewrite E in D. exact D.
Qed.
Lemma sqrt_prod_derivative s2 n2 ps2 pn2 : 0 < s2 * n2 -> bias_derivative s2 n2 ps2 pn2 ((s2 * pn2 + n2 * ps2) / (2 * sqrt (s2 * n2))).
Proof.
  intro H. unfold bias_derivative.
  replace ((s2 * pn2 + n2 * ps2) / (2 * sqrt (s2 * n2))) with (/ (2 * sqrt ((s2 + 0 * ps2) * (n2 + 0 * pn2))) * (ps2 * (n2 + 0 * pn2) + (s2 + 0 * ps2) * pn2)).
  2:{ rewrite !Rmult_0_l, !Rplus_0_r. unfold Rdiv. ring. }
  apply (derivable_pt_lim_comp (fun t => (s2 + t * ps2) * (n2 + t * pn2)) sqrt).
  - apply (derivable_pt_lim_mult (fun t => s2 + t * ps2) (fun t => n2 + t * pn2)).
    + apply affine_derivative.
    + apply affine_derivative.
  - apply derivable_pt_lim_sqrt. lra.
Qed.
Lemma bias_influence s : 0 < sl_sigma2 s * sl_nu2 s -> 0 <= fst (sens_bias s) /\ (fst (sens_bias s)) ^ 2 = sl_sigma2 s * sl_nu2 s /\
  forall i, bias_derivative (sl_sigma2 s) (sl_nu2 s) (sl_psi_sigma2 s i) (sl_psi_nu2 s i) (snd (sens_bias s) i).
Proof.
  intro H. cbn. split; [apply sqrt_pos|]. split; [rewrite Rmult_1_r; apply sqrt_sqrt; lra|]. intro i. apply sqrt_prod_derivative, H.
Qed.
(** Second moment of the partially linear representer: 1 / mean v^2. *)
Lemma plr_nu2_influence n iv y d l m g theta i : let q := meanf n (fun i => (d i - m i) ^ 2) in q <> 0 -> let s := plr_sens n iv y d l m g theta in
  sl_nu2 s = / q /\ derivable_pt_lim (fun t => / (q + t * ((d i - m i) ^ 2 - q))) 0 (sl_psi_nu2 s i) /\
  sl_psi_sigma2 s i = (if iv then y i - g i - theta * d i else y i - l i - theta * (d i - m i)) ^ 2 - sl_sigma2 s.
Proof.
  intros q Hq s. unfold s, plr_sens. cbn [sl_nu2 sl_psi_nu2 sl_psi_sigma2 sl_sigma2]. fold q. split; [unfold Rdiv; ring|]. split; [|destruct iv; reflexivity].
  set (v := (d i - m i) ^ 2).
  assert (D : derivable_pt_lim (div_fct (fct_cte 1) (fun t => q + t * (v - q))) 0 ((0 * (q + 0 * (v - q)) - (v - q) * fct_cte 1 0) / Rsqr (q + 0 * (v - q)))).
  { apply (derivable_pt_lim_div (fct_cte 1) (fun t => q + t * (v - q)) 0 0 (v - q)); [apply derivable_pt_lim_const|apply affine_derivative|]. rewrite Rmult_0_l, Rplus_0_r. exact Hq. }
  replace ((0 * (q + 0 * (v - q)) - (v - q) * fct_cte 1 0) / Rsqr (q + 0 * (v - q))) with (1 / q - v * (1 / q) ^ 2) in D.
  2:{ unfold Rsqr, fct_cte. rewrite !Rmult_0_l, Rplus_0_r. field. exact Hq. }
  intros eps He. destruct (D eps He) as (dl & Dl). exists dl. intros h H0 Hh. specialize (Dl h H0 Hh). unfold div_fct, fct_cte, Rdiv in Dl. rewrite !Rmult_1_l in Dl. unfold Rdiv. rewrite !Rmult_1_l. exact Dl.
Qed.
(** Fold-wise shares. *)
Lemma fold_share_none smpls d i x : (forall f, In f smpls -> ~ In i (snd f)) -> fold_share smpls d i x = x.
Proof.
  revert x. induction smpls as [|f r IH]; intros x H; [reflexivity|]. cbn. destruct (existsb (Nat.eqb i) (snd f)) eqn:E.
  - apply existsb_exists in E as (j & J1 & J2). apply Nat.eqb_eq in J2. subst. exfalso. apply (H f (or_introl eq_refl)), J1.
  - apply IH. intros; apply H; right; assumption.
Qed.
Lemma fold_share_spec smpls d i x k f : nth_error smpls k = Some f -> In i (snd f) -> (forall j g, nth_error smpls j = Some g -> j <> k -> ~ In i (snd g)) ->
  fold_share smpls d i x = training_share f d.
Proof.
  revert x k. induction smpls as [|g r IH]; intros x k Hk Hi Hu; [destruct k; discriminate|]. cbn. destruct k as [|k].
  - cbn in Hk. injection Hk as ->. assert (E : existsb (Nat.eqb i) (snd f) = true) by (apply existsb_exists; exists i; split; [exact Hi|apply Nat.eqb_refl]). rewrite E. apply fold_share_none.
    intros g Hg. apply In_nth_error in Hg as (j & Hj). apply (Hu (S j) g Hj). lia.
  - apply (IH _ k); [exact Hk|exact Hi|]. intros j h Hj Hne. apply (Hu (S j) h Hj). lia.
Qed.

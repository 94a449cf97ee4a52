(** Clustered estimates of every class, from the constructor to the fitted object. *)
From Verif Require Export L_ClassClusterAll L_InitFit.
From Coq Require Import Lia Lra.
Local Open Scope R_scope.
Local Open Scope res_scope.
Local Open Scope string_scope.

Lemma clustered_asserting {P} cv b (C : ctx P) : clustered cv (asserting b C) = asserting b (clustered cv C).
Proof. reflexivity. Qed.

Lemma plr_iv_cl_end : forall (E P : Type) (L : learner E row P) f g rd fr s cl ml_l ml_m ml_g nf nr draw C w0 w nj store ext smod w',
  S_Data.reachable fr s -> M_Data.r_cl (M_Data.dd_roles s) = Some cl -> cl <> [] -> sound_randomness rd -> (0 < M_Data.frows fr)%nat ->
  plr_init L rd fr s ml_l ml_m ml_g nf nr (PStr "IV-type") draw = Ok (C, w0) -> later C w0 w ->
  exists mc, mc_order mc = rd_order rd /\ runs_on mc "ml_l" ml_l false /\ runs_on mc "ml_m" ml_m (ly_classifier ml_m) /\ mc_learner mc "ml_g" = match ml_g with Some l => ly_obj l | None => ln_clone L (ly_obj ml_l) end /\
  let n := M_Data.frows fr in let dcols := M_Data.r_d (M_Data.dd_roles s) in let y := outcome fr s in let cv := map (fun c => value_codes (col fr c)) cl in
  (sound_learning L f g mc w ->
  labels_everywhere L g mc w n "ml_l" y everyone -> (forall c, In c dcols -> labels_everywhere L g mc w n "ml_m" (col fr c) everyone) ->
  fit C nj store ext smod w = (w', Ok tt) ->
  exists F sm, fit_done w w' F sm (length dcols) /\
    forall r t fs c, nth_error sm r = Some fs -> nth_error dcols t = Some c -> let x := covariates fr s c in let d := col fr c in exists m gg,
      used_prediction L f g mc w n ext r t c "ml_m" "ml_m" x d whole_train fs m /\
      (exists v, used_prediction L f g mc w n ext r t c "ml_g" "ml_g" x v whole_train fs gg /\
         ((forall e, ~ supplied ext c "ml_g" r e) -> exists l th, used_prediction L f g mc w n ext r t c "ml_l" "ml_l" x y whole_train fs l /\ v = (fun i => y i - th * d i) /\
           (sumf n (fun i => (d i - m i) ^ 2) <> 0 -> th = sumf n (fun i => (d i - m i) * (y i - l i)) / sumf n (fun i => (d i - m i) ^ 2)))) /\
      exists ca, clusters_of w cv r fs ca /\ (moment n (Some ca) (fun i => (d i - m i) * d i) <> 0 -> clustered_estimate_is F n t r ca (fun i => (d i - m i) * d i) (fun i => (d i - m i) * (y i - gg i)))).
Proof.
  intros until w'. intros Re Ecl Ncl Rd Hn H La. destruct (plr_made L rd fr s Re Rd _ _ _ _ _ _ _ _ _ H) as (mc & bin & Ec & Sr & O & R1 & R2 & R3). destruct (R3 eq_refl) as (Rp & Rl). subst C. rewrite (clustered_ctx fr s Re _ cl Ecl) in *. pose proof (reached_later _ _ _ Sr La) as Sw. exists mc. split; [exact O|]. split; [exact R1|]. split; [exact R2|]. split; [exact Rl|].
  intros n dcols y cv Sl Hl Hm Hf. assert (Nc : cv <> []) by (unfold cv; destruct cl; [contradiction|discriminate]).
  destruct (clustered_plr_iv_fit L f g mc cv n dcols bin (x_of fr s) y (d_of fr s) w nj store ext smod w' Hn Nc (some_treatment fr s Re) Sw Sl Hl (labels_all L g mc w n fr s Re _ Hm) Rp Hf) as (F & sm & Q). exists F, sm. repeat match type of Q with _ /\ _ => let q := fresh in destruct Q as (q & Q); split; [exact q|] end.
  intros r t fs c Hr Ht. cbv zeta. destruct (x_of_at fr s Re t c Ht) as (<- & <-). exact (Q r t fs c Hr Ht).
Qed.

Lemma pliv_iv_cl_end : forall (E P : Type) (L : learner E row P) f g rd fr s cl zc proj ml_l ml_m ml_r ml_g nf nr draw C w0 w nj store ext smod w',
  S_Data.reachable fr s -> M_Data.r_cl (M_Data.dd_roles s) = Some cl -> cl <> [] -> sound_randomness rd -> (0 < M_Data.frows fr)%nat ->
  M_Data.r_z (M_Data.dd_roles s) = Some [zc] ->
  pliv_init L rd fr s proj ml_l ml_m ml_r ml_g nf nr (PStr "IV-type") draw = Ok (C, w0) -> later C w0 w ->
  exists mc, mc_order mc = rd_order rd /\ runs_on mc "ml_l" ml_l false /\ runs_on mc "ml_m" ml_m false /\ runs_on mc "ml_r" ml_r false /\ (exists l, ml_g = Some l /\ runs_on mc "ml_g" l false) /\
  let n := M_Data.frows fr in let dcols := M_Data.r_d (M_Data.dd_roles s) in let y := outcome fr s in let z := col fr zc in let cv := map (fun c => value_codes (col fr c)) cl in
  (sound_learning L f g mc w ->
  labels_everywhere L g mc w n "ml_l" y everyone -> labels_everywhere L g mc w n "ml_m" z everyone -> (forall c, In c dcols -> labels_everywhere L g mc w n "ml_r" (col fr c) everyone) ->
  fit C nj store ext smod w = (w', Ok tt) ->
  exists F sm, fit_done w w' F sm (length dcols) /\
    forall r t fs c, nth_error sm r = Some fs -> nth_error dcols t = Some c -> let x := covariates fr s c in let d := col fr c in exists l m q gg th,
      used_prediction L f g mc w n ext r t c "ml_l" "ml_l" x y whole_train fs l /\ used_prediction L f g mc w n ext r t c "ml_m" "ml_m" x z whole_train fs m /\
      used_prediction L f g mc w n ext r t c "ml_r" "ml_r" x d whole_train fs q /\ used_prediction L f g mc w n ext r t c "ml_g" "ml_g" x (fun i => y i - th * d i) whole_train fs gg /\
      (sumf n (fun i => (z i - m i) * (d i - q i)) <> 0 -> th = sumf n (fun i => (z i - m i) * (y i - l i)) / sumf n (fun i => (z i - m i) * (d i - q i))) /\
      exists ca, clusters_of w cv r fs ca /\ (moment n (Some ca) (fun i => (z i - m i) * d i) <> 0 -> clustered_estimate_is F n t r ca (fun i => (z i - m i) * d i) (fun i => (z i - m i) * (y i - gg i)))).
Proof.
  intros until w'. intros Re Ecl Ncl Rd Hn Hz H La. destruct (pliv_made L rd fr s Re Rd _ _ _ _ _ _ _ _ _ _ _ H) as (z0 & more & mc & Ez & Nm & Ec & Sr & O & R1 & R2 & R3 & R4). rewrite Hz in Ez. injection Ez as <- <-. destruct (R4 eq_refl) as (lg & Eg & Rg). subst C. rewrite (clustered_ctx fr s Re _ cl Ecl) in *. pose proof (reached_later _ _ _ Sr La) as Sw. exists mc. split; [exact O|]. split; [exact R1|]. split; [exact R2|]. split; [exact R3|]. split; [exists lg; auto|].
  intros n dcols y z cv Sl Hl Hm Hr_ Hf. assert (Nc : cv <> []) by (unfold cv; destruct cl; [contradiction|discriminate]).
  destruct (clustered_pliv_iv_fit L f g mc cv n dcols (x_of fr s) y (d_of fr s) z w nj store ext smod w' Hn Nc (some_treatment fr s Re) Sw Sl Hl Hm (labels_all L g mc w n fr s Re _ Hr_) (proj2 Rg) Hf) as (F & sm & Q). exists F, sm. repeat match type of Q with _ /\ _ => let q := fresh in destruct Q as (q & Q); split; [exact q|] end.
  intros r t fs c Hr Ht. cbv zeta. destruct (x_of_at fr s Re t c Ht) as (<- & <-). exact (Q r t fs c Hr Ht).
Qed.

Lemma pliv_several_cl_end : forall (E P : Type) (L : learner E row P) f g rd fr s cl zcs proj ml_l ml_m ml_r ml_g nf nr draw C w0 w nj store ext smod w',
  S_Data.reachable fr s -> M_Data.r_cl (M_Data.dd_roles s) = Some cl -> cl <> [] -> sound_randomness rd -> (0 < M_Data.frows fr)%nat ->
  M_Data.r_z (M_Data.dd_roles s) = Some zcs -> (2 <= length zcs)%nat ->
  pliv_init L rd fr s proj ml_l ml_m ml_r ml_g nf nr (PStr "partialling out") draw = Ok (C, w0) -> later C w0 w ->
  exists mc, mc_order mc = rd_order rd /\ runs_on mc "ml_l" ml_l false /\ runs_on mc "ml_m" ml_m false /\ runs_on mc "ml_r" ml_r false /\
  let n := M_Data.frows fr in let dcols := M_Data.r_d (M_Data.dd_roles s) in let y := outcome fr s in let zs := map (fun c => (c, col fr c)) zcs in let cv := map (fun c => value_codes (col fr c)) cl in
  (sound_learning L f g mc w ->
  labels_everywhere L g mc w n "ml_l" y everyone -> (forall name z, In (name, z) zs -> labels_everywhere L g mc w n "ml_m" z everyone) -> (forall c, In c dcols -> labels_everywhere L g mc w n "ml_r" (col fr c) everyone) ->
  fit C nj store ext smod w = (w', Ok tt) ->
  exists F sm, fit_done w w' F sm (length dcols) /\
    forall r t fs c, nth_error sm r = Some fs -> nth_error dcols t = Some c -> let x := covariates fr s c in let d := col fr c in exists l q (mf : string -> vec),
      used_prediction L f g mc w n ext r t c "ml_l" "ml_l" x y whole_train fs l /\ used_prediction L f g mc w n ext r t c "ml_r" "ml_r" x d whole_train fs q /\
      (forall name z, In (name, z) zs -> used_prediction L f g mc w n ext r t c ("ml_m_" ++ name)%string "ml_m" x z whole_train fs (mf name)) /\
      let v := fun i => map (fun p : string * vec => snd p i - mf (fst p) i) zs in
      let hat := fun i => proj (map (fun j => (v j, d j - q j)) (seq 0 n)) (v i) in
      exists ca, clusters_of w cv r fs ca /\ (moment n (Some ca) (fun i => hat i * (d i - q i)) <> 0 -> clustered_estimate_is F n t r ca (fun i => hat i * (d i - q i)) (fun i => hat i * (y i - l i)))).
Proof.
  intros until w'. intros Re Ecl Ncl Rd Hn Hz Hz2 H La. destruct (pliv_made L rd fr s Re Rd _ _ _ _ _ _ _ _ _ _ _ H) as (z0 & more & mc & Ez & Nm & Ec & Sr & O & R1 & R2 & R3 & R4). rewrite Hz in Ez. injection Ez as ->. destruct more as [|z1 more]; [cbn in Hz2; lia|]. subst C. rewrite (clustered_ctx fr s Re _ cl Ecl) in *. pose proof (reached_later _ _ _ Sr La) as Sw. exists mc. split; [exact O|]. split; [exact R1|]. split; [exact R2|]. split; [exact R3|].
  intros n dcols y zs cv Sl Hl Hm Hr_ Hf. assert (Nc : cv <> []) by (unfold cv; destruct cl; [contradiction|discriminate]). rewrite clustered_asserting in Sw, Hf. destruct (one_key _ _); [rewrite asserting_true in *|exfalso; eapply asserting_fails; [|exact Sw|exact Hf]; exact (some_treatment fr s Re)].
  assert (Nd : NoDup (map fst zs)). { unfold zs. rewrite map_map, map_id. exact (instruments_distinct fr s Re _ Hz). }
  destruct (clustered_pliv_several_fit L f g mc cv proj n dcols (x_of fr s) y (d_of fr s) zs w nj store ext smod w' Hn Nc (some_treatment fr s Re) Nd Sw Sl Hl Hm (labels_all L g mc w n fr s Re _ Hr_) Hf) as (F & sm & Q). exists F, sm. repeat match type of Q with _ /\ _ => let q := fresh in destruct Q as (q & Q); split; [exact q|] end.
  intros r t fs c Hr Ht. cbv zeta. destruct (x_of_at fr s Re t c Ht) as (<- & <-). exact (Q r t fs c Hr Ht).
Qed.

Lemma pliv_z_cl_end : forall (E P : Type) (L : learner E row P) f g rd fr s cl proj dummy ml_r nf nr score draw C w0 w nj store ext smod w',
  S_Data.reachable fr s -> M_Data.r_cl (M_Data.dd_roles s) = Some cl -> cl <> [] -> sound_randomness rd -> (0 < M_Data.frows fr)%nat ->
  pliv_partial_z L rd fr s proj dummy ml_r nf nr score draw = Ok (C, w0) -> later C w0 w ->
  exists mc, mc_order mc = rd_order rd /\ runs_on mc "ml_r" ml_r false /\
  let n := M_Data.frows fr in let dcols := M_Data.r_d (M_Data.dd_roles s) in let y := outcome fr s in let zrow := feats fr (M_Data.optl (M_Data.r_z (M_Data.dd_roles s))) in let cv := map (fun c => value_codes (col fr c)) cl in
  (sound_learning L f g mc w -> (forall c, In c dcols -> labels_everywhere L g mc w n "ml_r" (col fr c) everyone) ->
  fit C nj store ext smod w = (w', Ok tt) ->
  exists F sm, fit_done w w' F sm (length dcols) /\
    forall r t fs c, nth_error sm r = Some fs -> nth_error dcols t = Some c -> let x := covariates fr s c in let d := col fr c in exists q,
      cross_fitted L f g (setup_of mc n r t (fun l => nth r (m_params (w_obj w) l c) None) (fun _ => None)) "ml_r" "ml_r" (fun i => x i ++ zrow i)%list d whole_train fs q /\
      exists ca, clusters_of w cv r fs ca /\ (moment n (Some ca) (fun i => q i * d i) <> 0 -> clustered_estimate_is F n t r ca (fun i => q i * d i) (fun i => q i * y i))).
Proof.
  intros until w'. intros Re Ecl Ncl Rd Hn H La. destruct (pliv_z_made L rd fr s Re Rd _ _ _ _ _ _ _ _ _ H) as (mc & Ec & Sr & O & R1). subst C. rewrite (clustered_ctx fr s Re _ cl Ecl) in *. pose proof (reached_later _ _ _ Sr La) as Sw. exists mc. split; [exact O|]. split; [exact R1|].
  intros n dcols y zrow cv Sl Hr_ Hf. assert (Nc : cv <> []) by (unfold cv; destruct cl; [contradiction|discriminate]).
  destruct (clustered_pliv_z_fit L f g mc cv n dcols (x_of fr s) zrow y (d_of fr s) w nj store ext smod w' Hn Nc (some_treatment fr s Re) Sw Sl (labels_all L g mc w n fr s Re _ Hr_) Hf) as (F & sm & Q). exists F, sm. repeat match type of Q with _ /\ _ => let q := fresh in destruct Q as (q & Q); split; [exact q|] end.
  intros r t fs c Hr Ht. cbv zeta. destruct (x_of_at fr s Re t c Ht) as (<- & <-). exact (Q r t fs c Hr Ht).
Qed.

Lemma pliv_xz_cl_end : forall (E P : Type) (L : learner E row P) f g rd fr s cl proj ml_l ml_m ml_r nf nr score draw C w0 w nj store ext smod w',
  S_Data.reachable fr s -> M_Data.r_cl (M_Data.dd_roles s) = Some cl -> cl <> [] -> sound_randomness rd -> (0 < M_Data.frows fr)%nat ->
  pliv_partial_xz L rd fr s proj ml_l ml_m ml_r nf nr score draw = Ok (C, w0) -> later C w0 w ->
  exists mc, mc_order mc = rd_order rd /\ runs_on mc "ml_l" ml_l false /\ runs_on mc "ml_m" ml_m false /\ runs_on mc "ml_r" ml_r false /\
  let n := M_Data.frows fr in let dcols := M_Data.r_d (M_Data.dd_roles s) in let y := outcome fr s in let zrow := feats fr (M_Data.optl (M_Data.r_z (M_Data.dd_roles s))) in let cv := map (fun c => value_codes (col fr c)) cl in
  (sound_learning L f g mc w -> labels_everywhere L g mc w n "ml_l" y everyone ->
  fit C nj store ext smod w = (w', Ok tt) ->
  exists F sm, fit_done w w' F sm (length dcols) /\
    forall r t fs c, nth_error sm r = Some fs -> nth_error dcols t = Some c -> let x := covariates fr s c in let d := col fr c in exists l m mt,
      cross_fitted L f g (setup_of mc n r t (fun l => nth r (m_params (w_obj w) l c) None) (fun _ => None)) "ml_l" "ml_l" x y whole_train fs l /\
      projected L f (setup_of mc n r t (fun l => nth r (m_params (w_obj w) l c) None) (fun _ => None)) x (fun i => x i ++ zrow i)%list d fs m mt /\
      exists ca, clusters_of w cv r fs ca /\ (moment n (Some ca) (fun i => (m i - mt i) * (d i - mt i)) <> 0 -> clustered_estimate_is F n t r ca (fun i => (m i - mt i) * (d i - mt i)) (fun i => (m i - mt i) * (y i - l i)))).
Proof.
  intros until w'. intros Re Ecl Ncl Rd Hn H La. destruct (pliv_xz_made L rd fr s Re Rd _ _ _ _ _ _ _ _ _ _ H) as (mc & Ec & Sr & O & R1 & R2 & R3). subst C. rewrite (clustered_ctx fr s Re _ cl Ecl) in *. pose proof (reached_later _ _ _ Sr La) as Sw. exists mc. split; [exact O|]. split; [exact R1|]. split; [exact R2|]. split; [exact R3|].
  intros n dcols y zrow cv Sl Hl Hf. assert (Nc : cv <> []) by (unfold cv; destruct cl; [contradiction|discriminate]).
  destruct (clustered_pliv_xz_fit L f g mc cv n dcols (x_of fr s) zrow y (d_of fr s) w nj store ext smod w' Hn Nc (some_treatment fr s Re) Sw Sl Hl Hf) as (F & sm & Q). exists F, sm. repeat match type of Q with _ /\ _ => let q := fresh in destruct Q as (q & Q); split; [exact q|] end.
  intros r t fs c Hr Ht. cbv zeta. destruct (x_of_at fr s Re t c Ht) as (<- & <-). exact (Q r t fs c Hr Ht).
Qed.

Lemma irm_cl_end : forall (E P : Type) (L : learner E row P) f g rd fr s cl ml_g ml_m nf nr wa nm rule thr draw C w0 w nj store ext smod w',
  S_Data.reachable fr s -> M_Data.r_cl (M_Data.dd_roles s) = Some cl -> cl <> [] -> sound_randomness rd -> (0 < M_Data.frows fr)%nat ->
  irm_init L rd fr s ml_g ml_m nf nr (PStr "ATE") wa (PBool nm) rule (PFloat thr) draw = Ok (C, w0) -> later C w0 w ->
  exists dcol mc, binary_treatment fr s dcol /\ mc_order mc = rd_order rd /\ runs_on mc "ml_g" ml_g (ly_classifier ml_g) /\ runs_on mc "ml_m" ml_m true /\
  let n := M_Data.frows fr in let x := covariates fr s dcol in let y := outcome fr s in let d := col fr dcol in let cv := map (fun c => value_codes (col fr c)) cl in
  (sound_learning L f g mc w ->
  labels_everywhere L g mc w n "ml_g" y (fun j => d j = 0) -> labels_everywhere L g mc w n "ml_g" y (fun j => d j = 1) -> labels_everywhere L g mc w n "ml_m" d everyone ->
  fit C nj store ext smod w = (w', Ok tt) ->
  exists F sm, fit_done w w' F sm 1 /\ forall r fs, nth_error sm r = Some fs -> (r < m_n_rep (w_obj w0))%nat -> exists g0 g1 m0 m,
      used_prediction L f g mc w n ext r 0 dcol "ml_g0" "ml_g" x y (group_rows n (fun j => d j = 0)) fs g0 /\
      used_prediction L f g mc w n ext r 0 dcol "ml_g1" "ml_g" x y (group_rows n (fun j => d j = 1)) fs g1 /\
      used_prediction L f g mc w n ext r 0 dcol "ml_m" "ml_m" x d whole_train fs m0 /\ clipped n true thr m0 m /\
      let W := weights_of wa r in
      let ma := ps_adjust n m d nm in
      let s := fun i => wg W i * (g1 i - g0 i) + resid_weights W i * (d i * (y i - g1 i) / ma i - (1 - d i) * (y i - g0 i) / (1 - ma i)) in
      (off_bounds n ma -> exists ca, clusters_of w cv r fs ca /\ (moment n (Some ca) (fun i => wg W i / meanf n (wg W)) <> 0 -> clustered_estimate_is F n 0 r ca (fun i => wg W i / meanf n (wg W)) (s)))).
Proof.
  intros until w'. intros Re Ecl Ncl Rd Hn H La. destruct (irm_made L rd fr s Re Rd _ _ _ _ _ _ _ _ _ _ _ _ H) as (c & mc & nm0 & th0 & bo & st & Bt & Ec & Sr & O & R1 & R2 & Q1 & Q2 & T & W). injection Q1 as <-. injection Q2 as <-. subst C. rewrite (clustered_ctx fr s Re _ cl Ecl) in *. pose proof (reached_later _ _ _ Sr La) as Sw. exists c, mc. split; [exact Bt|]. split; [exact O|]. split; [exact R1|]. split; [exact R2|].
  intros n x y d cv Sl H0 H1 Hm Hf. assert (Nc : cv <> []) by (unfold cv; destruct cl; [contradiction|discriminate]). exact (clustered_irm_ate_fit L f g mc cv n c nm bo true thr wa (m_n_rep (w_obj w0)) x y d st w nj store ext smod w' Hn Nc W Sw Sl H0 H1 Hm Hf).
Qed.

Lemma atte_cl_end : forall (E P : Type) (L : learner E row P) f g rd fr s cl ml_g ml_m nf nr wa nm rule thr draw C w0 w nj store ext smod w',
  S_Data.reachable fr s -> M_Data.r_cl (M_Data.dd_roles s) = Some cl -> cl <> [] -> sound_randomness rd -> (0 < M_Data.frows fr)%nat ->
  irm_init L rd fr s ml_g ml_m nf nr (PStr "ATTE") wa (PBool nm) rule (PFloat thr) draw = Ok (C, w0) -> later C w0 w ->
  exists dcol mc, binary_treatment fr s dcol /\ mc_order mc = rd_order rd /\ runs_on mc "ml_g" ml_g (ly_classifier ml_g) /\ runs_on mc "ml_m" ml_m true /\
  let n := M_Data.frows fr in let x := covariates fr s dcol in let y := outcome fr s in let d := col fr dcol in let cv := map (fun c => value_codes (col fr c)) cl in
  (sound_learning L f g mc w ->
  labels_everywhere L g mc w n "ml_g" y (fun j => d j = 0) -> labels_everywhere L g mc w n "ml_g" y (fun j => d j = 1) -> labels_everywhere L g mc w n "ml_m" d everyone ->
  fit C nj store ext smod w = (w', Ok tt) ->
  exists F sm, fit_done w w' F sm 1 /\ forall r fs, nth_error sm r = Some fs -> exists g0 g1 m0 m,
      used_prediction L f g mc w n ext r 0 dcol "ml_g0" "ml_g" x y (group_rows n (fun j => d j = 0)) fs g0 /\
      used_prediction L f g mc w n ext r 0 dcol "ml_g1" "ml_g" x y (group_rows n (fun j => d j = 1)) fs g1 /\
      used_prediction L f g mc w n ext r 0 dcol "ml_m" "ml_m" x d whole_train fs m0 /\ clipped n true thr m0 m /\
      let ma := ps_adjust n m d nm in
      let W := wg (weights_of wa r) in
      let s := fun i => W i * (d i * (y i - g0 i) - (1 - d i) * (ma i / (1 - ma i)) * (y i - g0 i)) in
      let p := meanf n (fun i => W i * d i) in
      (p <> 0 -> off_bounds n ma -> exists ca, clusters_of w cv r fs ca /\ (moment n (Some ca) (fun i => W i * d i / p) <> 0 -> clustered_estimate_is F n 0 r ca (fun i => W i * d i / p) (fun i => s i / p)))).
Proof.
  intros until w'. intros Re Ecl Ncl Rd Hn H La. destruct (irm_made L rd fr s Re Rd _ _ _ _ _ _ _ _ _ _ _ _ H) as (c & mc & nm0 & th0 & bo & st & Bt & Ec & Sr & O & R1 & R2 & Q1 & Q2 & T & W). injection Q1 as <-. injection Q2 as <-. subst C. rewrite (clustered_ctx fr s Re _ cl Ecl) in *. pose proof (reached_later _ _ _ Sr La) as Sw. exists c, mc. split; [exact Bt|]. split; [exact O|]. split; [exact R1|]. split; [exact R2|].
  intros n x y d cv Sl H0 H1 Hm Hf. assert (Nc : cv <> []) by (unfold cv; destruct cl; [contradiction|discriminate]). exact (clustered_irm_atte_fit L f g mc cv n c nm bo true thr (weights_of wa) x y d st w nj store ext smod w' Hn Nc (zero_one_col_binary fr c (proj2 Bt)) Sw Sl H0 H1 Hm Hf).
Qed.

Lemma apo_cl_end : forall (E P : Type) (L : learner E row P) f g rd fr s cl ml_g ml_m level nf nr score wa nm rule thr draw C w0 w nj store ext smod w',
  S_Data.reachable fr s -> M_Data.r_cl (M_Data.dd_roles s) = Some cl -> cl <> [] -> sound_randomness rd -> (0 < M_Data.frows fr)%nat ->
  apo_init L rd fr s ml_g ml_m level nf nr score wa (PBool nm) rule (PFloat thr) draw = Ok (C, w0) -> later C w0 w ->
  exists dcol mc, M_Data.r_d (M_Data.dd_roles s) = [dcol] /\ mc_order mc = rd_order rd /\ runs_on mc "ml_g" ml_g (ly_classifier ml_g) /\ runs_on mc "ml_m" ml_m true /\
  let n := M_Data.frows fr in let x := covariates fr s dcol in let y := outcome fr s in let lvl := at_level level (col fr dcol) in let cv := map (fun c => value_codes (col fr c)) cl in
  (sound_learning L f g mc w ->
  labels_everywhere L g mc w n "ml_g" y (fun j => lvl j = 0) -> labels_everywhere L g mc w n "ml_g" y (fun j => lvl j = 1) -> labels_everywhere L g mc w n "ml_m" lvl everyone ->
  fit C nj store ext smod w = (w', Ok tt) ->
  exists F sm, fit_done w w' F sm 1 /\ forall r fs, nth_error sm r = Some fs -> (r < m_n_rep (w_obj w0))%nat -> exists g1 m0 m,
      used_prediction L f g mc w n ext r 0 dcol "ml_g_d_lvl1" "ml_g" x y (group_rows n (fun j => lvl j = 1)) fs g1 /\
      used_prediction L f g mc w n ext r 0 dcol "ml_m" "ml_m" x lvl whole_train fs m0 /\ clipped n true thr m0 m /\
      let W := weights_of wa r in
      let s := fun i => wg W i * g1 i + resid_weights W i * (lvl i * (y i - g1 i) / ps_adjust n m lvl nm i) in
      ((forall i, (i < n)%nat -> ps_adjust n m lvl nm i <> 0) -> exists ca, clusters_of w cv r fs ca /\ (moment n (Some ca) (fun i => wg W i / meanf n (wg W)) <> 0 -> clustered_estimate_is F n 0 r ca (fun i => wg W i / meanf n (wg W)) (s)))).
Proof.
  intros until w'. intros Re Ecl Ncl Rd Hn H La. destruct (apo_made L rd fr s Re Rd _ _ _ _ _ _ _ _ _ _ _ _ _ H) as (c & mc & nm0 & th0 & bo & st & Bt & Ec & Sr & Ed & O & R1 & R2 & Q1 & Q2 & T & W). injection Q1 as <-. injection Q2 as <-. subst C. rewrite (clustered_ctx fr s Re _ cl Ecl) in *. pose proof (reached_later _ _ _ Sr La) as Sw. exists c, mc. split; [exact Bt|]. split; [exact O|]. split; [exact R1|]. split; [exact R2|].
  intros n x y lvl cv Sl H0 H1 Hm Hf. assert (Nc : cv <> []) by (unfold cv; destruct cl; [contradiction|discriminate]). assert (El : lvl = treated_at fr s level) by (unfold lvl, at_level, treated_at; rewrite Ed; reflexivity). rewrite El in *.
  exact (clustered_apo_fit L f g mc cv n c nm bo true thr wa (m_n_rep (w_obj w0)) x y (col fr c) _ st w nj store ext smod w' Hn Nc W Sw Sl H0 H1 Hm Hf).
Qed.

Lemma iivm_cl_end : forall (E P : Type) (L : learner E row P) f g rd fr s cl ml_g ml_m ml_r nf nr score sg nm rule thr draw C w0 w nj store ext smod w',
  S_Data.reachable fr s -> M_Data.r_cl (M_Data.dd_roles s) = Some cl -> cl <> [] -> sound_randomness rd -> (0 < M_Data.frows fr)%nat ->
  iivm_init L rd fr s ml_g ml_m ml_r nf nr score sg (PBool nm) rule (PFloat thr) draw = Ok (C, w0) -> later C w0 w ->
  exists dcol zc mc at1 nt1, binary_treatment fr s dcol /\ M_Data.r_z (M_Data.dd_roles s) = Some [zc] /\ S_Data.zero_one_column fr zc /\ mc_order mc = rd_order rd /\ runs_on mc "ml_g" ml_g (ly_classifier ml_g) /\ runs_on mc "ml_m" ml_m true /\ runs_on mc "ml_r" ml_r true /\ subgroups_are sg at1 nt1 /\
  let n := M_Data.frows fr in let x := covariates fr s dcol in let y := outcome fr s in let d := col fr dcol in let z := col fr zc in let cv := map (fun c => value_codes (col fr c)) cl in
  (sound_learning L f g mc w ->
  (forall v, v = 0 \/ v = 1 -> labels_everywhere L g mc w n "ml_g" y (fun j => z j = v)) -> labels_everywhere L g mc w n "ml_m" z everyone -> (forall v, v = 0 /\ at1 = true \/ v = 1 /\ nt1 = true -> labels_everywhere L g mc w n "ml_r" d (fun j => z j = v)) ->
  fit C nj store ext smod w = (w', Ok tt) ->
  exists F sm, fit_done w w' F sm 1 /\ forall r fs, nth_error sm r = Some fs -> exists g0 g1 m0 m r0 r1,
      used_prediction L f g mc w n ext r 0 dcol "ml_g0" "ml_g" x y (group_rows n (fun j => z j = 0)) fs g0 /\
      used_prediction L f g mc w n ext r 0 dcol "ml_g1" "ml_g" x y (group_rows n (fun j => z j = 1)) fs g1 /\
      used_prediction L f g mc w n ext r 0 dcol "ml_m" "ml_m" x z whole_train fs m0 /\ clipped n true thr m0 m /\
      (if at1 then used_prediction L f g mc w n ext r 0 dcol "ml_r0" "ml_r" x d (group_rows n (fun j => z j = 0)) fs r0 else forall i, (i < n)%nat -> r0 i = 0) /\
      (if nt1 then used_prediction L f g mc w n ext r 0 dcol "ml_r1" "ml_r" x d (group_rows n (fun j => z j = 1)) fs r1 else forall i, (i < n)%nat -> r1 i = 1) /\
      let ma := iivm_adjust n nm d m in
      let sy := dr_signal y z g0 g1 ma in
      let sd := dr_signal d z r0 r1 ma in
      (off_bounds n ma -> exists ca, clusters_of w cv r fs ca /\ (moment n (Some ca) (sd) <> 0 -> clustered_estimate_is F n 0 r ca (sd) (sy)))).
Proof.
  intros until w'. intros Re Ecl Ncl Rd Hn H La. destruct (iivm_made L rd fr s Re Rd _ _ _ _ _ _ _ _ _ _ _ _ _ H) as (c & z0 & mc & nm0 & th0 & bo & a1 & a2 & st & Bt & Ez & Zb & Ec & Sr & O & R1 & R2 & R3 & Q1 & Q2 & T & W). injection Q1 as <-. injection Q2 as <-. subst C. rewrite (clustered_ctx fr s Re _ cl Ecl) in *. pose proof (reached_later _ _ _ Sr La) as Sw. exists c, z0, mc, a1, a2. split; [exact Bt|]. split; [exact Ez|]. split; [exact Zb|]. split; [exact O|]. split; [exact R1|]. split; [exact R2|]. split; [exact R3|]. split; [exact (subgroups_value _ _ _ W)|].
  intros n x y d z cv Sl H0 Hm H1 Hf. assert (Nc : cv <> []) by (unfold cv; destruct cl; [contradiction|discriminate]). exact (clustered_iivm_fit L f g mc cv n c nm bo a1 a2 true thr x y z d st w nj store ext smod w' Hn Nc Sw Sl H0 Hm H1 Hf).
Qed.

Lemma did_obs_cl_end : forall (E P : Type) (L : learner E row P) f g rd fr s cl ml_g ml_m nf nr nm rule thr draw C w0 w nj store ext smod w',
  S_Data.reachable fr s -> M_Data.r_cl (M_Data.dd_roles s) = Some cl -> cl <> [] -> sound_randomness rd -> (0 < M_Data.frows fr)%nat ->
  did_init L rd fr s ml_g ml_m nf nr (PStr "observational") (PBool nm) rule (PFloat thr) draw = Ok (C, w0) -> later C w0 w ->
  exists dcol mc, binary_treatment fr s dcol /\ mc_order mc = rd_order rd /\ runs_on mc "ml_g" ml_g (ly_classifier ml_g) /\ (exists l, ml_m = Some l /\ runs_on mc "ml_m" l true) /\
  let n := M_Data.frows fr in let x := covariates fr s dcol in let y := outcome fr s in let d := col fr dcol in let cv := map (fun c => value_codes (col fr c)) cl in
  (sound_learning L f g mc w ->
  labels_everywhere L g mc w n "ml_g" y (fun j => d j = 0) -> labels_everywhere L g mc w n "ml_g" y (fun j => d j = 1) -> labels_everywhere L g mc w n "ml_m" d everyone ->
  fit C nj store ext smod w = (w', Ok tt) ->
  exists F sm, fit_done w w' F sm 1 /\ forall r fs, nth_error sm r = Some fs -> exists g0 m0 m p,
      used_prediction L f g mc w n ext r 0 dcol "ml_g0" "ml_g" x y (group_rows n (fun j => d j = 0)) fs g0 /\
      used_prediction L f g mc w n ext r 0 dcol "ml_m" "ml_m" x d whole_train fs m0 /\ clipped n true thr m0 m /\ share_of fs d p /\
      let odds := fun i => (1 - d i) * (m i / (1 - m i)) in
      let a := share_weight n nm d p in
      let s := fun i => (a i - share_weight n nm odds p i) * (y i - g0 i) in
      (share_ok n nm d p -> share_ok n nm odds p -> exists ca, clusters_of w cv r fs ca /\ (moment n (Some ca) (a) <> 0 -> clustered_estimate_is F n 0 r ca (a) (s)))).
Proof.
  intros until w'. intros Re Ecl Ncl Rd Hn H La. destruct (did_made L rd fr s Re Rd _ _ _ _ _ _ _ _ _ _ _ H) as (c & mc & nm0 & th0 & st & Bt & Ec & Sr & O & R1 & R2 & Q1 & Q2 & T). injection Q1 as <-. injection Q2 as <-. subst C. rewrite (clustered_ctx fr s Re _ cl Ecl) in *. pose proof (reached_later _ _ _ Sr La) as Sw. exists c, mc. split; [exact Bt|]. split; [exact O|]. split; [exact R1|]. split; [exact (R2 eq_refl)|].
  intros n x y d cv Sl H0 H1 Hm Hf. assert (Nc : cv <> []) by (unfold cv; destruct cl; [contradiction|discriminate]). exact (clustered_did_obs_fit L f g mc cv n c nm true thr x y d st w nj store ext smod w' Hn Nc T Sw Sl H0 H1 Hm Hf).
Qed.

Lemma did_exp_cl_end : forall (E P : Type) (L : learner E row P) f g rd fr s cl ml_g ml_m nf nr nm rule thr draw C w0 w nj store ext smod w',
  S_Data.reachable fr s -> M_Data.r_cl (M_Data.dd_roles s) = Some cl -> cl <> [] -> sound_randomness rd -> (0 < M_Data.frows fr)%nat ->
  did_init L rd fr s ml_g ml_m nf nr (PStr "experimental") (PBool nm) rule (PFloat thr) draw = Ok (C, w0) -> later C w0 w ->
  exists dcol mc, binary_treatment fr s dcol /\ mc_order mc = rd_order rd /\ runs_on mc "ml_g" ml_g (ly_classifier ml_g) /\
  let n := M_Data.frows fr in let x := covariates fr s dcol in let y := outcome fr s in let d := col fr dcol in let cv := map (fun c => value_codes (col fr c)) cl in
  (sound_learning L f g mc w ->
  labels_everywhere L g mc w n "ml_g" y (fun j => d j = 0) -> labels_everywhere L g mc w n "ml_g" y (fun j => d j = 1) ->
  fit C nj store ext smod w = (w', Ok tt) ->
  exists F sm, fit_done w w' F sm 1 /\ forall r fs, nth_error sm r = Some fs -> exists g0 g1 p,
      used_prediction L f g mc w n ext r 0 dcol "ml_g0" "ml_g" x y (group_rows n (fun j => d j = 0)) fs g0 /\
      used_prediction L f g mc w n ext r 0 dcol "ml_g1" "ml_g" x y (group_rows n (fun j => d j = 1)) fs g1 /\ share_of fs d p /\
      let a := share_weight n nm d p in
      let s := fun i => g1 i - g0 i + a i * (y i - g1 i) - share_weight n nm (compl d) (compl p) i * (y i - g0 i) in
      (share_ok n nm d p -> share_ok n nm (compl d) (compl p) -> exists ca, clusters_of w cv r fs ca /\ (moment n (Some ca) (fun _ : nat => 1) <> 0 -> clustered_estimate_is F n 0 r ca (fun _ : nat => 1) (s)))).
Proof.
  intros until w'. intros Re Ecl Ncl Rd Hn H La. destruct (did_made L rd fr s Re Rd _ _ _ _ _ _ _ _ _ _ _ H) as (c & mc & nm0 & th0 & st & Bt & Ec & Sr & O & R1 & R2 & Q1 & Q2 & T). injection Q1 as <-. injection Q2 as <-. subst C. rewrite (clustered_ctx fr s Re _ cl Ecl) in *. pose proof (reached_later _ _ _ Sr La) as Sw. exists c, mc. split; [exact Bt|]. split; [exact O|]. split; [exact R1|].
  intros n x y d cv Sl H0 H1 Hf. assert (Nc : cv <> []) by (unfold cv; destruct cl; [contradiction|discriminate]). exact (clustered_did_exp_fit L f g mc cv n c nm true thr x y d st w nj store ext smod w' Hn Nc Sw Sl H0 H1 Hf).
Qed.

Lemma cs_obs_cl_end : forall (E P : Type) (L : learner E row P) f g rd fr s cl ml_g ml_m nf nr nm rule thr draw C w0 w nj store ext smod w',
  S_Data.reachable fr s -> M_Data.r_cl (M_Data.dd_roles s) = Some cl -> cl <> [] -> sound_randomness rd -> (0 < M_Data.frows fr)%nat ->
  cs_init L rd fr s ml_g ml_m nf nr (PStr "observational") (PBool nm) rule (PFloat thr) draw = Ok (C, w0) -> later C w0 w ->
  exists dcol tcol mc, binary_treatment fr s dcol /\ M_Data.r_t (M_Data.dd_roles s) = Some tcol /\ S_Data.zero_one_column fr tcol /\ mc_order mc = rd_order rd /\ runs_on mc "ml_g" ml_g (ly_classifier ml_g) /\ (exists l, ml_m = Some l /\ runs_on mc "ml_m" l true) /\
  let n := M_Data.frows fr in let x := covariates fr s dcol in let y := outcome fr s in let d := col fr dcol in let t := col fr tcol in let cv := map (fun c => value_codes (col fr c)) cl in
  (sound_learning L f g mc w ->
  (forall a b, (a = 0 \/ a = 1) -> (b = 0 \/ b = 1) -> labels_everywhere L g mc w n "ml_g" y (fun j => d j = a /\ t j = b)) -> labels_everywhere L g mc w n "ml_m" d everyone ->
  fit C nj store ext smod w = (w', Ok tt) ->
  exists F sm, fit_done w w' F sm 1 /\ forall r fs, nth_error sm r = Some fs -> exists g00 g01 g10 g11 m0 m p lam,
      used_prediction L f g mc w n ext r 0 dcol "ml_g_d0_t0" "ml_g" x y (group_rows n (fun j => d j = 0 /\ t j = 0)) fs g00 /\
      used_prediction L f g mc w n ext r 0 dcol "ml_g_d0_t1" "ml_g" x y (group_rows n (fun j => d j = 0 /\ t j = 1)) fs g01 /\
      used_prediction L f g mc w n ext r 0 dcol "ml_g_d1_t0" "ml_g" x y (group_rows n (fun j => d j = 1 /\ t j = 0)) fs g10 /\
      used_prediction L f g mc w n ext r 0 dcol "ml_g_d1_t1" "ml_g" x y (group_rows n (fun j => d j = 1 /\ t j = 1)) fs g11 /\
      used_prediction L f g mc w n ext r 0 dcol "ml_m" "ml_m" x d whole_train fs m0 /\ clipped n true thr m0 m /\ share_of fs d p /\ share_of fs t lam /\
      let odds := fun i => m i / (1 - m i) in
      let d0t1 := fun i => (1 - d i) * t i * odds i in
      let d0t0 := fun i => (1 - d i) * (1 - t i) * odds i in
      let q1 := fun i => p i * lam i in let q0 := fun i => p i * (1 - lam i) in
      let a := share_weight n nm d p in
      let s := fun i => a i * (g11 i - g10 i - (g01 i - g00 i)) +
        share_weight n nm (both d t) q1 i * (y i - g11 i) - share_weight n nm (both d (compl t)) q0 i * (y i - g10 i) -
        (share_weight n nm d0t1 q1 i * (y i - g01 i) - share_weight n nm d0t0 q0 i * (y i - g00 i)) in
      (share_ok n nm d p -> share_ok n nm (both d t) q1 -> share_ok n nm (both d (compl t)) q0 -> share_ok n nm d0t1 q1 -> share_ok n nm d0t0 q0 -> exists ca, clusters_of w cv r fs ca /\ (moment n (Some ca) (a) <> 0 -> clustered_estimate_is F n 0 r ca (a) (s)))).
Proof.
  intros until w'. intros Re Ecl Ncl Rd Hn H La. destruct (cs_made L rd fr s Re Rd _ _ _ _ _ _ _ _ _ _ _ H) as (c & tc & mc & nm0 & th0 & st & Bt & Et & Zt & Ec & Sr & O & R1 & R2 & Q1 & Q2 & T). injection Q1 as <-. injection Q2 as <-. subst C. rewrite (clustered_ctx fr s Re _ cl Ecl) in *. pose proof (reached_later _ _ _ Sr La) as Sw. exists c, tc, mc. split; [exact Bt|]. split; [exact Et|]. split; [exact Zt|]. split; [exact O|]. split; [exact R1|]. split; [exact (R2 eq_refl)|].
  intros n x y d t cv Sl H0 Hm Hf. assert (Nc : cv <> []) by (unfold cv; destruct cl; [contradiction|discriminate]). exact (clustered_cs_obs_fit L f g mc cv n c nm true thr x y d t st w nj store ext smod w' Hn Nc T Sw Sl H0 Hm Hf).
Qed.

Lemma cs_exp_cl_end : forall (E P : Type) (L : learner E row P) f g rd fr s cl ml_g ml_m nf nr nm rule thr draw C w0 w nj store ext smod w',
  S_Data.reachable fr s -> M_Data.r_cl (M_Data.dd_roles s) = Some cl -> cl <> [] -> sound_randomness rd -> (0 < M_Data.frows fr)%nat ->
  cs_init L rd fr s ml_g ml_m nf nr (PStr "experimental") (PBool nm) rule (PFloat thr) draw = Ok (C, w0) -> later C w0 w ->
  exists dcol tcol mc, binary_treatment fr s dcol /\ M_Data.r_t (M_Data.dd_roles s) = Some tcol /\ S_Data.zero_one_column fr tcol /\ mc_order mc = rd_order rd /\ runs_on mc "ml_g" ml_g (ly_classifier ml_g) /\
  let n := M_Data.frows fr in let x := covariates fr s dcol in let y := outcome fr s in let d := col fr dcol in let t := col fr tcol in let cv := map (fun c => value_codes (col fr c)) cl in
  (sound_learning L f g mc w ->
  (forall a b, (a = 0 \/ a = 1) -> (b = 0 \/ b = 1) -> labels_everywhere L g mc w n "ml_g" y (fun j => d j = a /\ t j = b)) ->
  fit C nj store ext smod w = (w', Ok tt) ->
  exists F sm, fit_done w w' F sm 1 /\ forall r fs, nth_error sm r = Some fs -> exists g00 g01 g10 g11 p lam,
      used_prediction L f g mc w n ext r 0 dcol "ml_g_d0_t0" "ml_g" x y (group_rows n (fun j => d j = 0 /\ t j = 0)) fs g00 /\
      used_prediction L f g mc w n ext r 0 dcol "ml_g_d0_t1" "ml_g" x y (group_rows n (fun j => d j = 0 /\ t j = 1)) fs g01 /\
      used_prediction L f g mc w n ext r 0 dcol "ml_g_d1_t0" "ml_g" x y (group_rows n (fun j => d j = 1 /\ t j = 0)) fs g10 /\
      used_prediction L f g mc w n ext r 0 dcol "ml_g_d1_t1" "ml_g" x y (group_rows n (fun j => d j = 1 /\ t j = 1)) fs g11 /\
      share_of fs d p /\ share_of fs t lam /\
      let q11 := fun i => p i * lam i in let q10 := fun i => p i * (1 - lam i) in
      let q01 := fun i => (1 - p i) * lam i in let q00 := fun i => (1 - p i) * (1 - lam i) in
      let s := fun i => g11 i - g10 i - (g01 i - g00 i) +
        share_weight n nm (both d t) q11 i * (y i - g11 i) - share_weight n nm (both d (compl t)) q10 i * (y i - g10 i) -
        (share_weight n nm (both (compl d) t) q01 i * (y i - g01 i) - share_weight n nm (both (compl d) (compl t)) q00 i * (y i - g00 i)) in
      (share_ok n nm (both d t) q11 -> share_ok n nm (both d (compl t)) q10 -> share_ok n nm (both (compl d) t) q01 -> share_ok n nm (both (compl d) (compl t)) q00 ->
       exists ca, clusters_of w cv r fs ca /\ (moment n (Some ca) (fun _ : nat => 1) <> 0 -> clustered_estimate_is F n 0 r ca (fun _ : nat => 1) (s)))).
Proof.
  intros until w'. intros Re Ecl Ncl Rd Hn H La. destruct (cs_made L rd fr s Re Rd _ _ _ _ _ _ _ _ _ _ _ H) as (c & tc & mc & nm0 & th0 & st & Bt & Et & Zt & Ec & Sr & O & R1 & R2 & Q1 & Q2 & T). injection Q1 as <-. injection Q2 as <-. subst C. rewrite (clustered_ctx fr s Re _ cl Ecl) in *. pose proof (reached_later _ _ _ Sr La) as Sw. exists c, tc, mc. split; [exact Bt|]. split; [exact Et|]. split; [exact Zt|]. split; [exact O|]. split; [exact R1|].
  intros n x y d t cv Sl H0 Hf. assert (Nc : cv <> []) by (unfold cv; destruct cl; [contradiction|discriminate]). exact (clustered_cs_exp_fit L f g mc cv n c nm true thr x y d t st w nj store ext smod w' Hn Nc Sw Sl H0 Hf).
Qed.

Lemma ssm_cl_end : forall (E P : Type) (L : learner E row P) f g rd fr s cl tts ml_g ml_pi ml_m nf nr nm rule thr draw C w0 w nj store ext smod w',
  S_Data.reachable fr s -> M_Data.r_cl (M_Data.dd_roles s) = Some cl -> cl <> [] -> sound_randomness rd -> (0 < M_Data.frows fr)%nat ->
  ssm_init L rd fr s tts ml_g ml_pi ml_m nf nr (PStr "missing-at-random") (PBool nm) rule (PFloat thr) draw = Ok (C, w0) -> later C w0 w ->
  exists scol mc, M_Data.r_s (M_Data.dd_roles s) = Some scol /\ mc_order mc = rd_order rd /\ clone_of L mc "ml_g" ml_g (ly_classifier ml_g) /\ clone_of L mc "ml_pi" ml_pi true /\ clone_of L mc "ml_m" ml_m true /\
  let n := M_Data.frows fr in let dcols := M_Data.r_d (M_Data.dd_roles s) in let y := outcome fr s in let sel := col fr scol in let cv := map (fun c => value_codes (col fr c)) cl in
  (sound_learning L f g mc w ->
  labels_everywhere L g mc w n "ml_pi" sel everyone -> (forall c, In c dcols -> labels_everywhere L g mc w n "ml_m" (col fr c) everyone) -> (forall c v, In c dcols -> v = 0 \/ v = 1 -> labels_everywhere L g mc w n "ml_g" y (fun j => col fr c j = v /\ sel j = 1)) ->
  fit C nj store ext smod w = (w', Ok tt) ->
  exists F sm, fit_done w w' F sm (length dcols) /\ forall r t fs c, nth_error sm r = Some fs -> nth_error dcols t = Some c -> let x := covariates fr s c in let d := col fr c in exists pi m0 m g1 g0,
      cross_fitted L f g (setup_of mc n r t (fun l => nth r (m_params (w_obj w) l c) None) (fun _ => None)) "ml_pi" "ml_pi" (fun i => x i ++ [d i])%list sel whole_train fs pi /\
      cross_fitted L f g (setup_of mc n r t (fun l => nth r (m_params (w_obj w) l c) None) (fun _ => None)) "ml_m" "ml_m" x d whole_train fs m0 /\ clipped n true thr m0 m /\
      cross_fitted L f g (setup_of mc n r t (fun l => nth r (m_params (w_obj w) l c) None) (fun _ => None)) "ml_g_d1" "ml_g" x y (group_rows n (fun j => d j = 1 /\ sel j = 1)) fs g1 /\
      cross_fitted L f g (setup_of mc n r t (fun l => nth r (m_params (w_obj w) l c) None) (fun _ => None)) "ml_g_d0" "ml_g" x y (group_rows n (fun j => d j = 0 /\ sel j = 1)) fs g0 /\
      (binary n d -> off_bounds n m -> (forall i, (i < n)%nat -> pi i <> 0) ->
       let w1 := if nm then sumf n d / sumf n (fun i => d i * sel i / (pi i * m i)) else 1 in
       let w0 := if nm then sumf n (compl d) / sumf n (fun i => (1 - d i) * sel i / (pi i * (1 - m i))) else 1 in
       let v := fun i => g1 i + w1 * (d i * sel i * (y i - g1 i) / (m i * pi i)) - (g0 i + w0 * ((1 - d i) * sel i * (y i - g0 i) / ((1 - m i) * pi i))) in
       (nm = true -> sumf n (fun i => d i * sel i / (pi i * m i)) <> 0 /\ sumf n (fun i => (1 - d i) * sel i / (pi i * (1 - m i))) <> 0) ->
       exists ca, clusters_of w cv r fs ca /\ (moment n (Some ca) (fun _ : nat => 1) <> 0 -> clustered_estimate_is F n t r ca (fun _ : nat => 1) (v)))).
Proof.
  intros until w'. intros Re Ecl Ncl Rd Hn H La. destruct (ssm_made L rd fr s Re Rd _ _ _ _ _ _ _ _ _ _ _ _ _ H) as (se & mc & nm0 & th0 & st & Es & Ec & Sr & O & R1 & R2 & R3 & Q1 & Q2 & T). injection Q1 as <-. injection Q2 as <-. cbn [String.eqb Ascii.eqb Bool.eqb] in Ec. subst C. rewrite (clustered_ctx fr s Re _ cl Ecl) in *. pose proof (reached_later _ _ _ Sr La) as Sw. exists se, mc. split; [exact Es|]. split; [exact O|]. split; [exact R1|]. split; [exact R2|]. split; [exact R3|].
  intros n dcols y sel cv Sl Hp Hm Hg Hf. assert (Nc : cv <> []) by (unfold cv; destruct cl; [contradiction|discriminate]).
  destruct (clustered_ssm_fit L f g mc cv n dcols nm true thr (x_of fr s) y (d_of fr s) sel st w nj store ext smod w' Hn Nc (some_treatment fr s Re) Sw Sl Hp (labels_all L g mc w n fr s Re _ Hm) (fun t v => d_of_all fr s Re (fun d => v = 0 \/ v = 1 -> labels_everywhere L g mc w n "ml_g" y (fun j => d j = v /\ sel j = 1)) (fun c Hc => Hg c v Hc) t) Hf) as (F & sm & Q). exists F, sm. repeat match type of Q with _ /\ _ => let q := fresh in destruct Q as (q & Q); split; [exact q|] end.
  intros r t fs c Hr Ht. cbv zeta. destruct (x_of_at fr s Re t c Ht) as (<- & <-). exact (Q r t fs c Hr Ht).
Qed.

Lemma ssm_non_cl_end : forall (E P : Type) (L : learner E row P) f g rd fr s cl tts ml_g ml_pi ml_m nf nr nm rule thr draw C w0 w nj store ext smod w',
  S_Data.reachable fr s -> M_Data.r_cl (M_Data.dd_roles s) = Some cl -> cl <> [] -> sound_randomness rd -> (0 < M_Data.frows fr)%nat ->
  ssm_init L rd fr s tts ml_g ml_pi ml_m nf nr (PStr "nonignorable") (PBool nm) rule (PFloat thr) draw = Ok (C, w0) -> later C w0 w ->
  exists scol mc, M_Data.r_s (M_Data.dd_roles s) = Some scol /\ mc_order mc = rd_order rd /\ clone_of L mc "ml_g" ml_g (ly_classifier ml_g) /\ clone_of L mc "ml_pi" ml_pi true /\ clone_of L mc "ml_m" ml_m true /\
  let n := M_Data.frows fr in let dcols := M_Data.r_d (M_Data.dd_roles s) in let y := outcome fr s in let zrow := feats fr (M_Data.optl (M_Data.r_z (M_Data.dd_roles s))) in let sel := col fr scol in let cv := map (fun c => value_codes (col fr c)) cl in
  (sound_learning L f g mc w -> classifier_ok L g ->
  fit C nj store ext smod w = (w', Ok tt) ->
  exists F sm, fit_done w w' F sm (length dcols) /\ forall r t fs c, nth_error sm r = Some fs -> nth_error dcols t = Some c -> let x := covariates fr s c in let d := col fr c in exists pi m0 m g1 g0,
      nested_selection L f g (setup_of mc n r t (fun l => nth r (m_params (w_obj w) l c) None) (fun _ => None)) (tts r t) x zrow y d sel fs pi m0 g1 g0 /\ clipped n true thr m0 m /\
      (binary n d -> off_bounds n m -> (forall i, (i < n)%nat -> pi i <> 0) ->
       let w1 := if nm then sumf n d / sumf n (fun i => d i * sel i / (pi i * m i)) else 1 in
       let w0 := if nm then sumf n (compl d) / sumf n (fun i => (1 - d i) * sel i / (pi i * (1 - m i))) else 1 in
       let v := fun i => g1 i + w1 * (d i * sel i * (y i - g1 i) / (m i * pi i)) - (g0 i + w0 * ((1 - d i) * sel i * (y i - g0 i) / ((1 - m i) * pi i))) in
       (nm = true -> sumf n (fun i => d i * sel i / (pi i * m i)) <> 0 /\ sumf n (fun i => (1 - d i) * sel i / (pi i * (1 - m i))) <> 0) ->
       exists ca, clusters_of w cv r fs ca /\ (moment n (Some ca) (fun _ : nat => 1) <> 0 -> clustered_estimate_is F n t r ca (fun _ : nat => 1) (v)))).
Proof.
  intros until w'. intros Re Ecl Ncl Rd Hn H La. destruct (ssm_made L rd fr s Re Rd _ _ _ _ _ _ _ _ _ _ _ _ _ H) as (se & mc & nm0 & th0 & st & Es & Ec & Sr & O & R1 & R2 & R3 & Q1 & Q2 & T). injection Q1 as <-. injection Q2 as <-. cbn [String.eqb Ascii.eqb Bool.eqb] in Ec. subst C. rewrite (clustered_ctx fr s Re _ cl Ecl) in *. pose proof (reached_later _ _ _ Sr La) as Sw. exists se, mc. split; [exact Es|]. split; [exact O|]. split; [exact R1|]. split; [exact R2|]. split; [exact R3|].
  intros n dcols y zrow sel cv Sl Hp Hf. assert (Nc : cv <> []) by (unfold cv; destruct cl; [contradiction|discriminate]).
  destruct (clustered_ssm_non_fit L f g mc cv tts n dcols nm true thr (x_of fr s) zrow y (d_of fr s) sel st w nj store ext smod w' Hn Nc (some_treatment fr s Re) Sw Sl Hp Hf) as (F & sm & Q). exists F, sm. repeat match type of Q with _ /\ _ => let q := fresh in destruct Q as (q & Q); split; [exact q|] end.
  intros r t fs c Hr Ht. cbv zeta. destruct (x_of_at fr s Re t c Ht) as (<- & <-). exact (Q r t fs c Hr Ht).
Qed.


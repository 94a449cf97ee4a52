(** Nuisance estimation of the model classes. *)
From Verif Require Import L_NuisCases L_NuisGuard.
From Coq Require Import Lia Lra.
Local Open Scope R_scope.
Local Open Scope string_scope.

(** ** C72: every nuisance function is cross-fitted on its documented target,
    features and subsample, and the score uses these predictions *)
Theorem C72_partially_linear : forall (E P : Type) (L : learner E row P) f g (su : setup E P) bt x y d smpls out,
  setting L f g su smpls -> fit_ok L g su "ml_l" "ml_l" y everyone smpls -> fit_ok L g su "ml_m" "ml_m" d everyone smpls ->
  plr_nuis L su false bt x y d smpls = Ok out ->
  exists l m, nuisance L f g su "ml_l" "ml_l" x y whole_train smpls l /\ nuisance L f g su "ml_m" "ml_m" x d whole_train smpls m /\ reported su out "ml_l" l /\ reported su out "ml_m" m /\
    score_is su out (fun i => - (d i - m i) ^ 2) (fun i => (d i - m i) * (y i - l i)).
Proof. exact @plr_partialling_out. Qed.
Print Assumptions C72_partially_linear.
Example C72_case_partially_linear : setting r_learner r_predict r_proba (r_setup 8 true) w_smpls /\ fit_ok r_learner r_proba (r_setup 8 true) "ml_l" "ml_l" w_y everyone w_smpls /\ fit_ok r_learner r_proba (r_setup 8 true) "ml_m" "ml_m" w_d everyone w_smpls /\ exists out, plr_nuis r_learner (r_setup 8 true) false false w_x w_y w_d w_smpls = Ok out.
Proof. split; [apply w_setting|]. split; [intros _; apply no_labels; discriminate|]. split; [intros _; apply w_all_labels, w_d_both|]. apply w_plr, w_d_both. Qed.

Theorem C72_partially_linear_iv_type : forall (E P : Type) (L : learner E row P) f g (su : setup E P) bt x y d smpls out,
  setting L f g su smpls -> fit_ok L g su "ml_l" "ml_l" y everyone smpls -> fit_ok L g su "ml_m" "ml_m" d everyone smpls ->
  (forall v, fit_ok L g su "ml_g" "ml_g" v everyone smpls) -> plr_nuis L su true bt x y d smpls = Ok out ->
  exists m gg, nuisance L f g su "ml_m" "ml_m" x d whole_train smpls m /\ reported su out "ml_m" m /\ reported su out "ml_g" gg /\
    match su_ext su "ml_g" with
    | Some e => forall i, gg i = e i
    | None => exists l theta, nuisance L f g su "ml_l" "ml_l" x y whole_train smpls l /\ reported su out "ml_l" l /\ slope_of su y d d l m m theta /\
        cross_fitted L f g su "ml_g" "ml_g" x (fun i => y i - theta * d i) whole_train smpls gg
    end /\ score_is su out (fun i => - ((d i - m i) * d i)) (fun i => (d i - m i) * (y i - gg i)).
Proof. exact @plr_iv_type. Qed.
Print Assumptions C72_partially_linear_iv_type.
Example C72_case_partially_linear_iv_type : setting r_learner r_predict r_proba (r_setup 8 true) w_smpls /\ (forall v, fit_ok r_learner r_proba (r_setup 8 true) "ml_g" "ml_g" v everyone w_smpls) /\ exists out, plr_nuis r_learner (r_setup 8 true) true false w_x w_y w_d w_smpls = Ok out.
Proof. split; [apply w_setting|]. split; [intros v _; apply no_labels; discriminate|]. apply w_plr, w_d_both. Qed.

Theorem C72_interactive : forall (E P : Type) (L : learner E row P) f g (su : setup E P) atte norm bo tr thr w x y d smpls out,
  setting L f g su smpls -> fit_ok L g su "ml_g0" "ml_g" y (fun j => d j = 0) smpls -> fit_ok L g su "ml_g1" "ml_g" y (fun j => d j = 1) smpls ->
  fit_ok L g su "ml_m" "ml_m" d everyone smpls -> irm_nuis L su atte norm bo tr thr w x y d smpls = Ok out ->
  exists g0 g1 m0 m, nuisance L f g su "ml_g0" "ml_g" x y (group_rows (su_n su) (fun j => d j = 0)) smpls g0 /\ nuisance L f g su "ml_g1" "ml_g" x y (group_rows (su_n su) (fun j => d j = 1)) smpls g1 /\
    nuisance L f g su "ml_m" "ml_m" x d whole_train smpls m0 /\ trimmed su tr thr m0 m /\
    reported su out "ml_g0" g0 /\ reported su out "ml_g1" g1 /\ reported su out "ml_m" m /\ scored out (irm_score (su_n su) atte norm w y d g0 g1 m).
Proof. exact @irm_spec. Qed.
Print Assumptions C72_interactive.
Example C72_case_interactive : setting r_learner r_predict r_proba (r_setup 8 true) w_smpls /\ fit_ok r_learner r_proba (r_setup 8 true) "ml_g0" "ml_g" w_y (fun j => w_d j = 0) w_smpls /\ fit_ok r_learner r_proba (r_setup 8 true) "ml_g1" "ml_g" w_y (fun j => w_d j = 1) w_smpls /\ fit_ok r_learner r_proba (r_setup 8 true) "ml_m" "ml_m" w_d everyone w_smpls /\ exists out, irm_nuis r_learner (r_setup 8 true) false true false true (1 / 10) unit_weights w_x w_y w_d w_smpls = Ok out.
Proof. split; [apply w_setting|]. split; [intros _; apply no_labels; discriminate|]. split; [intros _; apply no_labels; discriminate|]. split; [intros _; apply w_all_labels, w_d_both|]. apply w_irm. Qed.

Theorem C72_potential_outcome : forall (E P : Type) (L : learner E row P) f g (su : setup E P) norm bo tr thr w x y d lvl smpls out,
  setting L f g su smpls -> fit_ok L g su "ml_g_d_lvl0" "ml_g" y (fun j => lvl j = 0) smpls -> fit_ok L g su "ml_g_d_lvl1" "ml_g" y (fun j => lvl j = 1) smpls ->
  fit_ok L g su "ml_m" "ml_m" lvl everyone smpls -> apo_nuis L su norm bo tr thr w x y d lvl smpls = Ok out ->
  exists g0 g1 m0 m, nuisance L f g su "ml_g_d_lvl0" "ml_g" (fun i => d i :: x i) y (group_rows (su_n su) (fun j => lvl j = 0)) smpls g0 /\ nuisance L f g su "ml_g_d_lvl1" "ml_g" x y (group_rows (su_n su) (fun j => lvl j = 1)) smpls g1 /\
    nuisance L f g su "ml_m" "ml_m" x lvl whole_train smpls m0 /\ trimmed su tr thr m0 m /\
    reported su out "ml_g_d_lvl0" g0 /\ reported su out "ml_g_d_lvl1" g1 /\ reported su out "ml_m" m /\ scored out (apo_score (su_n su) norm w y lvl g1 m).
Proof. exact @apo_spec. Qed.
Print Assumptions C72_potential_outcome.
Example C72_case_potential_outcome : setting r_learner r_predict r_proba (r_setup 8 true) w_smpls /\ fit_ok r_learner r_proba (r_setup 8 true) "ml_g_d_lvl0" "ml_g" w_y (fun j => w_d j = 0) w_smpls /\ fit_ok r_learner r_proba (r_setup 8 true) "ml_g_d_lvl1" "ml_g" w_y (fun j => w_d j = 1) w_smpls /\ fit_ok r_learner r_proba (r_setup 8 true) "ml_m" "ml_m" w_d everyone w_smpls /\ exists out, apo_nuis r_learner (r_setup 8 true) true false true (1 / 10) unit_weights w_x w_y w_d w_d w_smpls = Ok out.
Proof. split; [apply w_setting|]. split; [intros _; apply no_labels; discriminate|]. split; [intros _; apply no_labels; discriminate|]. split; [intros _; apply w_all_labels, w_d_both|]. apply w_apo. Qed.

Theorem C72_local_effect : forall (E P : Type) (L : learner E row P) f g (su : setup E P) norm bo at_ nt tr thr x y z d smpls out,
  setting L f g su smpls -> fit_ok L g su "ml_g0" "ml_g" y (fun j => z j = 0) smpls -> fit_ok L g su "ml_g1" "ml_g" y (fun j => z j = 1) smpls ->
  fit_ok L g su "ml_m" "ml_m" z everyone smpls -> (at_ = true -> fit_ok L g su "ml_r0" "ml_r" d (fun j => z j = 0) smpls) -> (nt = true -> fit_ok L g su "ml_r1" "ml_r" d (fun j => z j = 1) smpls) ->
  iivm_nuis L su norm bo at_ nt tr thr x y z d smpls = Ok out ->
  exists g0 g1 m0 m r0 r1, nuisance L f g su "ml_g0" "ml_g" x y (group_rows (su_n su) (fun j => z j = 0)) smpls g0 /\ nuisance L f g su "ml_g1" "ml_g" x y (group_rows (su_n su) (fun j => z j = 1)) smpls g1 /\
    nuisance L f g su "ml_m" "ml_m" x z whole_train smpls m0 /\ trimmed su tr thr m0 m /\
    taker_fn L f g su at_ "ml_r0" x d (fun j => z j = 0) 0 smpls r0 /\ taker_fn L f g su nt "ml_r1" x d (fun j => z j = 1) 1 smpls r1 /\
    reported su out "ml_g0" g0 /\ reported su out "ml_g1" g1 /\ reported su out "ml_m" m /\ reported su out "ml_r0" r0 /\ reported su out "ml_r1" r1 /\
    scored out (iivm_score (su_n su) norm y z d g0 g1 m r0 r1).
Proof. exact @iivm_spec. Qed.
Print Assumptions C72_local_effect.
Example C72_case_local_effect : setting r_learner r_predict r_proba (r_setup 8 true) w_smpls /\ fit_ok r_learner r_proba (r_setup 8 true) "ml_g0" "ml_g" w_y (fun j => w_t j = 0) w_smpls /\ fit_ok r_learner r_proba (r_setup 8 true) "ml_g1" "ml_g" w_y (fun j => w_t j = 1) w_smpls /\ fit_ok r_learner r_proba (r_setup 8 true) "ml_m" "ml_m" w_t everyone w_smpls /\ fit_ok r_learner r_proba (r_setup 8 true) "ml_r0" "ml_r" w_d (fun j => w_t j = 0) w_smpls /\ exists out, iivm_nuis r_learner (r_setup 8 true) true false true false true (1 / 10) w_x w_y w_t w_d w_smpls = Ok out.
Proof. split; [apply w_setting|]. split; [intros _; apply no_labels; discriminate|]. split; [intros _; apply no_labels; discriminate|]. split; [intros _; apply w_all_labels, w_t_both|]. split; [intros _; apply no_labels; discriminate|]. apply w_iivm. Qed.

Theorem C72_did : forall (E P : Type) (L : learner E row P) f g (su : setup E P) norm tr thr x y d smpls out,
  setting L f g su smpls -> fit_ok L g su "ml_g0" "ml_g" y (fun j => d j = 0) smpls -> fit_ok L g su "ml_g1" "ml_g" y (fun j => d j = 1) smpls ->
  fit_ok L g su "ml_m" "ml_m" d everyone smpls -> did_nuis L su true norm tr thr x y d smpls = Ok out ->
  exists g0 g1 m0 m p, nuisance L f g su "ml_g0" "ml_g" x y (group_rows (su_n su) (fun j => d j = 0)) smpls g0 /\ nuisance L f g su "ml_g1" "ml_g" x y (group_rows (su_n su) (fun j => d j = 1)) smpls g1 /\
    nuisance L f g su "ml_m" "ml_m" x d whole_train smpls m0 /\ trimmed su tr thr m0 m /\ share_of smpls d p /\
    reported su out "ml_g0" g0 /\ reported su out "ml_g1" g1 /\ reported su out "ml_m" m /\ scored out (did_score (su_n su) true norm y d g0 g1 m p).
Proof. exact @did_obs. Qed.
Print Assumptions C72_did.
Theorem C72_did_experimental : forall (E P : Type) (L : learner E row P) f g (su : setup E P) norm tr thr x y d smpls out,
  setting L f g su smpls -> fit_ok L g su "ml_g0" "ml_g" y (fun j => d j = 0) smpls -> fit_ok L g su "ml_g1" "ml_g" y (fun j => d j = 1) smpls ->
  did_nuis L su false norm tr thr x y d smpls = Ok out ->
  exists g0 g1 p, nuisance L f g su "ml_g0" "ml_g" x y (group_rows (su_n su) (fun j => d j = 0)) smpls g0 /\ nuisance L f g su "ml_g1" "ml_g" x y (group_rows (su_n su) (fun j => d j = 1)) smpls g1 /\ share_of smpls d p /\
    reported su out "ml_g0" g0 /\ reported su out "ml_g1" g1 /\ forall m, scored out (did_score (su_n su) false norm y d g0 g1 m p).
Proof. exact @did_exp. Qed.
Print Assumptions C72_did_experimental.
Example C72_case_did : setting r_learner r_predict r_proba (r_setup 8 true) w_smpls /\ fit_ok r_learner r_proba (r_setup 8 true) "ml_g0" "ml_g" w_y (fun j => w_d j = 0) w_smpls /\ fit_ok r_learner r_proba (r_setup 8 true) "ml_g1" "ml_g" w_y (fun j => w_d j = 1) w_smpls /\ fit_ok r_learner r_proba (r_setup 8 true) "ml_m" "ml_m" w_d everyone w_smpls /\ exists out, did_nuis r_learner (r_setup 8 true) true true true (1 / 10) w_x w_y w_d w_smpls = Ok out.
Proof. split; [apply w_setting|]. split; [intros _; apply no_labels; discriminate|]. split; [intros _; apply no_labels; discriminate|]. split; [intros _; apply w_all_labels, w_d_both|]. apply w_did. Qed.

Example C72_case_did_experimental : exists out, did_nuis r_learner (r_setup 8 true) false true true (1 / 10) w_x w_y w_d w_smpls = Ok out.
Proof. apply w_did. Qed.

Theorem C72_did_cross_sections : forall (E P : Type) (L : learner E row P) f g (su : setup E P) norm tr thr x y d t smpls out,
  setting L f g su smpls ->
  (forall a b name, In (name, a, b) [("ml_g_d0_t0", 0, 0); ("ml_g_d0_t1", 0, 1); ("ml_g_d1_t0", 1, 0); ("ml_g_d1_t1", 1, 1)] -> fit_ok L g su name "ml_g" y (fun j => d j = a /\ t j = b) smpls) ->
  fit_ok L g su "ml_m" "ml_m" d everyone smpls -> cs_nuis L su true norm tr thr x y d t smpls = Ok out ->
  exists g00 g01 g10 g11 m0 m p lam, (forall a b name v, In (name, a, b, v) [("ml_g_d0_t0", 0, 0, g00); ("ml_g_d0_t1", 0, 1, g01); ("ml_g_d1_t0", 1, 0, g10); ("ml_g_d1_t1", 1, 1, g11)] ->
      nuisance L f g su name "ml_g" x y (group_rows (su_n su) (fun j => d j = a /\ t j = b)) smpls v /\ reported su out name v) /\
    nuisance L f g su "ml_m" "ml_m" x d whole_train smpls m0 /\ trimmed su tr thr m0 m /\ reported su out "ml_m" m /\ share_of smpls d p /\ share_of smpls t lam /\
    scored out (cs_score (su_n su) true norm y d t g00 g01 g10 g11 m p lam).
Proof. exact @cs_obs. Qed.
Print Assumptions C72_did_cross_sections.
Theorem C72_did_cross_sections_experimental : forall (E P : Type) (L : learner E row P) f g (su : setup E P) norm tr thr x y d t smpls out,
  setting L f g su smpls ->
  (forall a b name, In (name, a, b) [("ml_g_d0_t0", 0, 0); ("ml_g_d0_t1", 0, 1); ("ml_g_d1_t0", 1, 0); ("ml_g_d1_t1", 1, 1)] -> fit_ok L g su name "ml_g" y (fun j => d j = a /\ t j = b) smpls) ->
  cs_nuis L su false norm tr thr x y d t smpls = Ok out ->
  exists g00 g01 g10 g11 p lam, (forall a b name v, In (name, a, b, v) [("ml_g_d0_t0", 0, 0, g00); ("ml_g_d0_t1", 0, 1, g01); ("ml_g_d1_t0", 1, 0, g10); ("ml_g_d1_t1", 1, 1, g11)] ->
      nuisance L f g su name "ml_g" x y (group_rows (su_n su) (fun j => d j = a /\ t j = b)) smpls v /\ reported su out name v) /\
    share_of smpls d p /\ share_of smpls t lam /\ forall m, scored out (cs_score (su_n su) false norm y d t g00 g01 g10 g11 m p lam).
Proof. exact @cs_exp. Qed.
Print Assumptions C72_did_cross_sections_experimental.
Example C72_case_did_cross_sections : setting r_learner r_predict r_proba (r_setup 8 true) w_smpls /\ fit_ok r_learner r_proba (r_setup 8 true) "ml_g_d0_t0" "ml_g" w_y (fun j => w_d j = 0 /\ w_t j = 0) w_smpls /\ fit_ok r_learner r_proba (r_setup 8 true) "ml_g_d0_t1" "ml_g" w_y (fun j => w_d j = 0 /\ w_t j = 1) w_smpls /\ fit_ok r_learner r_proba (r_setup 8 true) "ml_g_d1_t0" "ml_g" w_y (fun j => w_d j = 1 /\ w_t j = 0) w_smpls /\ fit_ok r_learner r_proba (r_setup 8 true) "ml_g_d1_t1" "ml_g" w_y (fun j => w_d j = 1 /\ w_t j = 1) w_smpls /\ fit_ok r_learner r_proba (r_setup 8 true) "ml_m" "ml_m" w_d everyone w_smpls /\ exists out, cs_nuis r_learner (r_setup 8 true) true true true (1 / 10) w_x w_y w_d w_t w_smpls = Ok out.
Proof. split; [apply w_setting|]. split; [intros _; apply no_labels; discriminate|]. split; [intros _; apply no_labels; discriminate|]. split; [intros _; apply no_labels; discriminate|]. split; [intros _; apply no_labels; discriminate|]. split; [intros _; apply w_all_labels, w_d_both|]. apply w_cs. Qed.

Example C72_case_did_cross_sections_experimental : exists out, cs_nuis r_learner (r_setup 8 true) false true true (1 / 10) w_x w_y w_d w_t w_smpls = Ok out.
Proof. apply w_cs. Qed.

Theorem C72_instrument : forall (E P : Type) (L : learner E row P) f g (su : setup E P) x y d z smpls out,
  setting L f g su smpls -> fit_ok L g su "ml_l" "ml_l" y everyone smpls -> fit_ok L g su "ml_m" "ml_m" z everyone smpls -> fit_ok L g su "ml_r" "ml_r" d everyone smpls ->
  pliv_x_nuis L su false x y d z smpls = Ok out ->
  exists l m r, nuisance L f g su "ml_l" "ml_l" x y whole_train smpls l /\ nuisance L f g su "ml_m" "ml_m" x z whole_train smpls m /\ nuisance L f g su "ml_r" "ml_r" x d whole_train smpls r /\
    reported su out "ml_l" l /\ reported su out "ml_m" m /\ reported su out "ml_r" r /\
    score_is su out (fun i => - ((d i - r i) * (z i - m i))) (fun i => (z i - m i) * (y i - l i)).
Proof. exact @pliv_partialling_out. Qed.
Print Assumptions C72_instrument.
Theorem C72_instrument_iv_type : forall (E P : Type) (L : learner E row P) f g (su : setup E P) x y d z smpls out,
  setting L f g su smpls -> fit_ok L g su "ml_l" "ml_l" y everyone smpls -> fit_ok L g su "ml_m" "ml_m" z everyone smpls -> fit_ok L g su "ml_r" "ml_r" d everyone smpls ->
  (forall v, fit_ok L g su "ml_g" "ml_g" v everyone smpls) -> pliv_x_nuis L su true x y d z smpls = Ok out ->
  exists l m r gg theta, nuisance L f g su "ml_l" "ml_l" x y whole_train smpls l /\ nuisance L f g su "ml_m" "ml_m" x z whole_train smpls m /\ nuisance L f g su "ml_r" "ml_r" x d whole_train smpls r /\
    slope_of su y d z l r m theta /\ nuisance L f g su "ml_g" "ml_g" x (fun i => y i - theta * d i) whole_train smpls gg /\
    reported su out "ml_l" l /\ reported su out "ml_m" m /\ reported su out "ml_r" r /\ reported su out "ml_g" gg /\
    score_is su out (fun i => - ((z i - m i) * d i)) (fun i => (z i - m i) * (y i - gg i)).
Proof. exact @pliv_iv_type. Qed.
Print Assumptions C72_instrument_iv_type.
Example C72_case_instrument : setting r_learner r_predict r_proba (r_setup 8 true) w_smpls /\ fit_ok r_learner r_proba (r_setup 8 true) "ml_l" "ml_l" w_y everyone w_smpls /\ fit_ok r_learner r_proba (r_setup 8 true) "ml_m" "ml_m" w_t everyone w_smpls /\ fit_ok r_learner r_proba (r_setup 8 true) "ml_r" "ml_r" w_d everyone w_smpls /\ exists out, pliv_x_nuis r_learner (r_setup 8 true) false w_x w_y w_d w_t w_smpls = Ok out.
Proof. split; [apply w_setting|]. split; [intros _; apply no_labels; discriminate|]. split; [intros _; apply w_all_labels, w_t_both|]. split; [intros _; apply w_all_labels, w_d_both|]. apply w_pliv. Qed.

Example C72_case_instrument_iv_type : exists out, pliv_x_nuis r_learner (r_setup 8 true) true w_x w_y w_d w_t w_smpls = Ok out.
Proof. apply w_pliv. Qed.

Theorem C72_several_instruments : forall (E P : Type) (L : learner E row P) f g (su : setup E P) proj x y d zs smpls out,
  setting L f g su smpls -> NoDup (map fst zs) -> fit_ok L g su "ml_l" "ml_l" y everyone smpls ->
  (forall name z, In (name, z) zs -> fit_ok L g su ("ml_m_" ++ name)%string "ml_m" z everyone smpls) -> fit_ok L g su "ml_r" "ml_r" d everyone smpls ->
  pliv_xs_nuis L su proj x y d zs smpls = Ok out ->
  exists l r (mf : string -> vec), nuisance L f g su "ml_l" "ml_l" x y whole_train smpls l /\ nuisance L f g su "ml_r" "ml_r" x d whole_train smpls r /\ reported su out "ml_l" l /\ reported su out "ml_r" r /\
    (forall name z, In (name, z) zs -> nuisance L f g su ("ml_m_" ++ name)%string "ml_m" x z whole_train smpls (mf name) /\ reported su out ("ml_m_" ++ name)%string (mf name)) /\
    let v := fun i => map (fun p : string * vec => snd p i - mf (fst p) i) zs in
    let fitted_values := fun i => proj (map (fun j => (v j, d j - r j)) (seq 0 (su_n su))) (v i) in
    score_is su out (fun i => - ((d i - r i) * fitted_values i)) (fun i => fitted_values i * (y i - l i)).
Proof. exact @pliv_several. Qed.
Print Assumptions C72_several_instruments.
Example C72_case_several_instruments : NoDup (map fst [("z1", w_t); ("z2", w_d)]) /\ exists out, pliv_xs_nuis r_learner (r_setup 8 true) (fun data v => Rsum v) w_x w_y w_d [("z1", w_t); ("z2", w_d)] w_smpls = Ok out.
Proof. split; [repeat constructor; cbn; intuition discriminate|]. apply w_pliv_several. Qed.

Theorem C72_instruments_partialled_into_treatment : forall (E P : Type) (L : learner E row P) f g (su : setup E P) x zrow y d smpls out,
  setting L f g su smpls -> labels_ok L g su "ml_r" d everyone smpls -> pliv_z_nuis L su x zrow y d smpls = Ok out ->
  exists r, cross_fitted L f g su "ml_r" "ml_r" (fun i => x i ++ zrow i)%list d whole_train smpls r /\ reported su out "ml_r" r /\ score_is su out (fun i => - (r i * d i)) (fun i => r i * y i).
Proof. exact @pliv_z. Qed.
Print Assumptions C72_instruments_partialled_into_treatment.
Example C72_case_instruments_partialled_into_treatment : exists out, pliv_z_nuis r_learner (r_setup 8 true) w_x (fun i => [w_t i]) w_y w_d w_smpls = Ok out.
Proof. apply w_pliv_z. Qed.

Theorem C72_projected_instruments : forall (E P : Type) (L : learner E row P) f g (su : setup E P) x zrow y d smpls out,
  setting L f g su smpls -> labels_ok L g su "ml_l" y everyone smpls -> pliv_xz_nuis L su x zrow y d smpls = Ok out ->
  exists l m mt, cross_fitted L f g su "ml_l" "ml_l" x y whole_train smpls l /\ projected L f su x (fun i => x i ++ zrow i)%list d smpls m mt /\
    reported su out "ml_l" l /\ reported su out "ml_m" m /\ reported su out "ml_r" mt /\
    score_is su out (fun i => - ((d i - mt i) * (m i - mt i))) (fun i => (m i - mt i) * (y i - l i)).
Proof. exact @pliv_xz. Qed.
Print Assumptions C72_projected_instruments.
Example C72_case_projected_instruments : exists out, pliv_xz_nuis r_learner (r_setup 8 true) w_x (fun i => [w_t i]) w_y w_d w_smpls = Ok out.
Proof. apply w_pliv_xz. Qed.

Theorem C72_sample_selection : forall (E P : Type) (L : learner E row P) f g (su : setup E P) norm tr thr x y d s smpls out,
  setting L f g su smpls -> labels_ok L g su "ml_pi" s everyone smpls -> labels_ok L g su "ml_m" d everyone smpls ->
  labels_ok L g su "ml_g" y (fun j => d j = 1 /\ s j = 1) smpls -> labels_ok L g su "ml_g" y (fun j => d j = 0 /\ s j = 1) smpls -> ssm_mar_nuis L su norm tr thr x y d s smpls = Ok out ->
  exists pi m0 m g1 g0, cross_fitted L f g su "ml_pi" "ml_pi" (fun i => x i ++ [d i])%list s whole_train smpls pi /\ cross_fitted L f g su "ml_m" "ml_m" x d whole_train smpls m0 /\ trimmed su tr thr m0 m /\
    cross_fitted L f g su "ml_g_d1" "ml_g" x y (group_rows (su_n su) (fun j => d j = 1 /\ s j = 1)) smpls g1 /\ cross_fitted L f g su "ml_g_d0" "ml_g" x y (group_rows (su_n su) (fun j => d j = 0 /\ s j = 1)) smpls g0 /\
    reported su out "ml_pi" pi /\ reported su out "ml_m" m /\ reported su out "ml_g_d1" g1 /\ reported su out "ml_g_d0" g0 /\
    scored out (ssm_score (su_n su) norm y (fun i => if Req_EM_T (d i) 1 then 1 else 0) s g1 g0 pi m).
Proof. exact @ssm_mar. Qed.
Print Assumptions C72_sample_selection.
Example C72_case_sample_selection : labels_ok r_learner r_proba (r_setup 8 true) "ml_pi" w_t everyone w_smpls /\ labels_ok r_learner r_proba (r_setup 8 true) "ml_m" w_d everyone w_smpls /\ exists out, ssm_mar_nuis r_learner (r_setup 8 true) true true (1 / 10) w_x w_y w_d w_t w_smpls = Ok out.
Proof. split; [apply w_all_labels, w_t_both|]. split; [apply w_all_labels, w_d_both|]. apply w_ssm. Qed.

Theorem C72_nested_sample_selection : forall (E P : Type) (L : learner E row P) f g (su : setup E P) tts norm tr thr x zrow y d s smpls out,
  setting L f g su smpls -> classifier_ok L g ->
  ssm_non_nuis L su tts (length smpls) norm tr thr x zrow y d s smpls = Ok out ->
  exists pi m0 m g1 g0, nested_selection L f g su tts x zrow y d s smpls pi m0 g1 g0 /\ trimmed su tr thr m0 m /\
    reported su out "ml_pi" pi /\ reported su out "ml_m" m /\ reported su out "ml_g_d1" g1 /\ reported su out "ml_g_d0" g0 /\
    scored out (ssm_score (su_n su) norm y (fun i => if Req_EM_T (d i) 1 then 1 else 0) s g1 g0 pi m).
Proof. exact @ssm_non. Qed.
Print Assumptions C72_nested_sample_selection.
Example C72_case_nested_sample_selection : classifier_ok r_learner r_proba /\ exists out, ssm_non_nuis r_learner (r_setup 8 true) w_tts (length w_smpls) true true (1 / 10) w_x (fun i => [w_t i]) w_y w_d (fun _ => 1) w_smpls = Ok out.
Proof. split; [exact r_classifier|]. apply w_ssm_non. Qed.

(** ** C73: a row's own outcome and treatment do not influence its predictions *)
Theorem C73_partially_linear : forall (E P : Type) (L : learner E row P) f g (su : setup E P) bt x y d y' d' smpls out out' i,
  setting L f g su smpls -> avoids smpls -> (i < (su_n su))%nat -> agree_off su i y y' -> agree_off su i d d' ->
  free_fit L g su "ml_l" "ml_l" y y' everyone everyone smpls -> free_fit L g su "ml_m" "ml_m" d d' everyone everyone smpls ->
  plr_nuis L su false bt x y d smpls = Ok out -> plr_nuis L su false bt x y' d' smpls = Ok out' ->
  forall l, In l ["ml_l"; "ml_m"] -> no_preds out l i = no_preds out' l i.
Proof. exact @plr_free. Qed.
Print Assumptions C73_partially_linear.

Theorem C73_interactive : forall (E P : Type) (L : learner E row P) f g (su : setup E P) atte norm bo tr thr w x y d y' d' smpls out out' i,
  setting L f g su smpls -> avoids smpls -> (i < (su_n su))%nat -> agree_off su i y y' -> agree_off su i d d' ->
  free_fit L g su "ml_g0" "ml_g" y y' (fun j => d j = 0) (fun j => d' j = 0) smpls -> free_fit L g su "ml_g1" "ml_g" y y' (fun j => d j = 1) (fun j => d' j = 1) smpls -> free_fit L g su "ml_m" "ml_m" d d' everyone everyone smpls ->
  irm_nuis L su atte norm bo tr thr w x y d smpls = Ok out -> irm_nuis L su atte norm bo tr thr w x y' d' smpls = Ok out' ->
  forall l, In l ["ml_g0"; "ml_g1"; "ml_m"] -> no_preds out l i = no_preds out' l i.
Proof. exact @irm_free. Qed.
Print Assumptions C73_interactive.

Theorem C73_potential_outcome : forall (E P : Type) (L : learner E row P) f g (su : setup E P) norm bo tr thr w x y d lvl y' lvl' smpls out out' i,
  setting L f g su smpls -> avoids smpls -> (i < (su_n su))%nat -> agree_off su i y y' -> agree_off su i lvl lvl' ->
  free_fit L g su "ml_g_d_lvl0" "ml_g" y y' (fun j => lvl j = 0) (fun j => lvl' j = 0) smpls -> free_fit L g su "ml_g_d_lvl1" "ml_g" y y' (fun j => lvl j = 1) (fun j => lvl' j = 1) smpls ->
  free_fit L g su "ml_m" "ml_m" lvl lvl' everyone everyone smpls ->
  apo_nuis L su norm bo tr thr w x y d lvl smpls = Ok out -> apo_nuis L su norm bo tr thr w x y' d lvl' smpls = Ok out' ->
  forall l, In l ["ml_g_d_lvl0"; "ml_g_d_lvl1"; "ml_m"] -> no_preds out l i = no_preds out' l i.
Proof. exact @apo_free. Qed.
Print Assumptions C73_potential_outcome.

Theorem C73_local_effect : forall (E P : Type) (L : learner E row P) f g (su : setup E P) norm bo at_ nt tr thr x y z d y' z' d' smpls out out' i,
  setting L f g su smpls -> avoids smpls -> (i < (su_n su))%nat -> agree_off su i y y' -> agree_off su i z z' -> agree_off su i d d' ->
  free_fit L g su "ml_g0" "ml_g" y y' (fun j => z j = 0) (fun j => z' j = 0) smpls -> free_fit L g su "ml_g1" "ml_g" y y' (fun j => z j = 1) (fun j => z' j = 1) smpls -> free_fit L g su "ml_m" "ml_m" z z' everyone everyone smpls ->
  free_fit L g su "ml_r0" "ml_r" d d' (fun j => z j = 0) (fun j => z' j = 0) smpls -> free_fit L g su "ml_r1" "ml_r" d d' (fun j => z j = 1) (fun j => z' j = 1) smpls ->
  iivm_nuis L su norm bo at_ nt tr thr x y z d smpls = Ok out -> iivm_nuis L su norm bo at_ nt tr thr x y' z' d' smpls = Ok out' ->
  forall l, In l ["ml_g0"; "ml_g1"; "ml_m"; "ml_r0"; "ml_r1"] -> no_preds out l i = no_preds out' l i.
Proof. exact @iivm_free. Qed.
Print Assumptions C73_local_effect.

Theorem C73_did : forall (E P : Type) (L : learner E row P) f g (su : setup E P) obs norm tr thr x y d y' d' smpls out out' i,
  setting L f g su smpls -> avoids smpls -> (i < (su_n su))%nat -> agree_off su i y y' -> agree_off su i d d' ->
  free_fit L g su "ml_g0" "ml_g" y y' (fun j => d j = 0) (fun j => d' j = 0) smpls -> free_fit L g su "ml_g1" "ml_g" y y' (fun j => d j = 1) (fun j => d' j = 1) smpls ->
  free_fit L g su "ml_m" "ml_m" d d' everyone everyone smpls -> did_nuis L su obs norm tr thr x y d smpls = Ok out -> did_nuis L su obs norm tr thr x y' d' smpls = Ok out' ->
  forall l, In l (if obs then ["ml_g0"; "ml_g1"; "ml_m"] else ["ml_g0"; "ml_g1"]) -> no_preds out l i = no_preds out' l i.
Proof. exact @did_free. Qed.
Print Assumptions C73_did.

Theorem C73_did_cross_sections : forall (E P : Type) (L : learner E row P) f g (su : setup E P) obs norm tr thr x y d t y' d' t' smpls out out' i,
  setting L f g su smpls -> avoids smpls -> (i < (su_n su))%nat -> agree_off su i y y' -> agree_off su i d d' -> agree_off su i t t' ->
  (forall a b name, In (name, a, b) [("ml_g_d0_t0", 0, 0); ("ml_g_d0_t1", 0, 1); ("ml_g_d1_t0", 1, 0); ("ml_g_d1_t1", 1, 1)] ->
    free_fit L g su name "ml_g" y y' (fun j => d j = a /\ t j = b) (fun j => d' j = a /\ t' j = b) smpls) ->
  free_fit L g su "ml_m" "ml_m" d d' everyone everyone smpls -> cs_nuis L su obs norm tr thr x y d t smpls = Ok out -> cs_nuis L su obs norm tr thr x y' d' t' smpls = Ok out' ->
  forall l, In l (if obs then ["ml_g_d0_t0"; "ml_g_d0_t1"; "ml_g_d1_t0"; "ml_g_d1_t1"; "ml_m"] else ["ml_g_d0_t0"; "ml_g_d0_t1"; "ml_g_d1_t0"; "ml_g_d1_t1"]) -> no_preds out l i = no_preds out' l i.
Proof. exact @cs_free. Qed.
Print Assumptions C73_did_cross_sections.

Theorem C73_instrument : forall (E P : Type) (L : learner E row P) f g (su : setup E P) x y d z y' d' z' smpls out out' i,
  setting L f g su smpls -> avoids smpls -> (i < (su_n su))%nat -> agree_off su i y y' -> agree_off su i d d' -> agree_off su i z z' ->
  free_fit L g su "ml_l" "ml_l" y y' everyone everyone smpls -> free_fit L g su "ml_m" "ml_m" z z' everyone everyone smpls -> free_fit L g su "ml_r" "ml_r" d d' everyone everyone smpls ->
  pliv_x_nuis L su false x y d z smpls = Ok out -> pliv_x_nuis L su false x y' d' z' smpls = Ok out' ->
  forall l, In l ["ml_l"; "ml_m"; "ml_r"] -> no_preds out l i = no_preds out' l i.
Proof. exact @pliv_free. Qed.
Print Assumptions C73_instrument.

Theorem C73_projected_instruments : forall (E P : Type) (L : learner E row P) f g (su : setup E P) x zrow y d y' d' smpls out out' i,
  setting L f g su smpls -> avoids smpls -> (i < (su_n su))%nat -> agree_off su i y y' -> agree_off su i d d' ->
  labels_ok L g su "ml_l" y everyone smpls -> labels_ok L g su "ml_l" y' everyone smpls -> (su_proba su "ml_l" = true -> same_labels (su_n su) y y') ->
  pliv_xz_nuis L su x zrow y d smpls = Ok out -> pliv_xz_nuis L su x zrow y' d' smpls = Ok out' ->
  forall l, In l ["ml_l"; "ml_m"; "ml_r"] -> no_preds out l i = no_preds out' l i.
Proof. exact @pliv_xz_free. Qed.
Print Assumptions C73_projected_instruments.

Theorem C73_sample_selection : forall (E P : Type) (L : learner E row P) f g (su : setup E P) norm tr thr x y d s y' smpls out out' i,
  setting L f g su smpls -> avoids smpls -> (i < (su_n su))%nat -> agree_off su i y y' ->
  labels_ok L g su "ml_pi" s everyone smpls -> labels_ok L g su "ml_m" d everyone smpls ->
  (forall b, b = 0 \/ b = 1 -> labels_ok L g su "ml_g" y (fun j => d j = b /\ s j = 1) smpls /\ labels_ok L g su "ml_g" y' (fun j => d j = b /\ s j = 1) smpls) -> (su_proba su "ml_g" = true -> same_labels (su_n su) y y') ->
  ssm_mar_nuis L su norm tr thr x y d s smpls = Ok out -> ssm_mar_nuis L su norm tr thr x y' d s smpls = Ok out' ->
  forall l, In l ["ml_g_d0"; "ml_g_d1"; "ml_pi"; "ml_m"] -> no_preds out l i = no_preds out' l i.
Proof. exact @ssm_mar_free. Qed.
Print Assumptions C73_sample_selection.

Theorem C73_nested_sample_selection : forall (E P : Type) (L : learner E row P) f g (su : setup E P) tts norm tr thr x zrow y d s y' smpls out out' i,
  setting L f g su smpls -> avoids smpls -> classifier_ok L g -> halving tts -> (i < (su_n su))%nat -> agree_off su i y y' ->
  ssm_non_nuis L su tts (length smpls) norm tr thr x zrow y d s smpls = Ok out -> ssm_non_nuis L su tts (length smpls) norm tr thr x zrow y' d s smpls = Ok out' ->
  forall l, In l ["ml_g_d0"; "ml_g_d1"; "ml_pi"; "ml_m"] -> no_preds out l i = no_preds out' l i.
Proof. exact @ssm_non_free. Qed.
Print Assumptions C73_nested_sample_selection.

(** The treatment of row 0 and its outcome may change. *)
Example C73_case : setting r_learner r_predict r_proba (r_setup 8 true) w_smpls /\ avoids w_smpls /\ (forall a, agree_off (r_setup 8 true) 0 w_y (fun i => match i with O => a | _ => w_y i end)) /\
  forall y, exists out, irm_nuis r_learner (r_setup 8 true) false true false true (1 / 10) unit_weights w_x y w_d w_smpls = Ok out.
Proof. split; [apply w_setting|]. split; [exact w_avoids|]. split; [intros a [|j] _ Hj; [congruence|reflexivity]|]. intro y. apply w_irm. Qed.
Example C73_case_models : forall y, (exists out, plr_nuis r_learner (r_setup 8 true) false false w_x y w_d w_smpls = Ok out) /\ (exists out, apo_nuis r_learner (r_setup 8 true) true false true (1 / 10) unit_weights w_x y w_d w_d w_smpls = Ok out) /\
  (exists out, iivm_nuis r_learner (r_setup 8 true) true false true false true (1 / 10) w_x y w_t w_d w_smpls = Ok out) /\ (exists out, did_nuis r_learner (r_setup 8 true) true true true (1 / 10) w_x y w_d w_smpls = Ok out) /\
  (exists out, cs_nuis r_learner (r_setup 8 true) true true true (1 / 10) w_x y w_d w_t w_smpls = Ok out) /\ (exists out, pliv_x_nuis r_learner (r_setup 8 true) false w_x y w_d w_t w_smpls = Ok out) /\
  (exists out, pliv_xz_nuis r_learner (r_setup 8 true) w_x (fun i => [w_t i]) y w_d w_smpls = Ok out) /\ (exists out, ssm_mar_nuis r_learner (r_setup 8 true) true true (1 / 10) w_x y w_d w_t w_smpls = Ok out) /\
  halving w_tts /\ (exists out, ssm_non_nuis r_learner (r_setup 8 true) w_tts (length w_smpls) true true (1 / 10) w_x (fun i => [w_t i]) y w_d (fun _ => 1) w_smpls = Ok out).
Proof.
  intro y. split; [apply w_plr, w_d_both|]. split; [apply w_apo|]. split; [apply w_iivm|]. split; [apply w_did|]. split; [apply w_cs|]. split; [apply w_pliv|]. split; [apply w_pliv_xz|]. split; [apply w_ssm|].
  split; [exact w_halving|apply w_ssm_non].
Qed.

(** With the IV-type scores the claim is false: the residual outcome on which
    ml_g is fitted uses an initial estimate from all rows.  Here the held-out
    prediction of row 0 is its own outcome. *)
Theorem C73_partially_linear_iv_type_refuted : exists (L : learner r_memo row unit) f g su x d smpls, setting L f g su smpls /\ avoids smpls /\ (0 < su_n su)%nat /\
  forall a, exists y out, (forall i, i <> 0%nat -> y i = 0) /\ y 0%nat = a /\ plr_nuis L su true false x y d smpls = Ok out /\ no_preds out "ml_g" 0%nat = Some a.
Proof. exact plr_leak. Qed.
Print Assumptions C73_partially_linear_iv_type_refuted.
Theorem C73_instrument_iv_type_refuted : exists (L : learner r_memo row unit) f g su x d z smpls, setting L f g su smpls /\ avoids smpls /\ (0 < su_n su)%nat /\
  forall a, exists y out, (forall i, i <> 0%nat -> y i = 0) /\ y 0%nat = a /\ pliv_x_nuis L su true x y d z smpls = Ok out /\ no_preds out "ml_g" 0%nat = Some a.
Proof. exact pliv_leak. Qed.
Print Assumptions C73_instrument_iv_type_refuted.

(** ** C74: reported targets are the outcome on the rows the function is for *)
Theorem C74_partially_linear : forall (E P : Type) (L : learner E row P) f g (su : setup E P) iv bt x y d smpls out,
  setting L f g su smpls -> fit_ok L g su "ml_l" "ml_l" y everyone smpls -> fit_ok L g su "ml_m" "ml_m" d everyone smpls ->
  plain_labels su "ml_l" y -> plain_labels su "ml_m" d -> plr_nuis L su iv bt x y d smpls = Ok out ->
  (su_ext su "ml_l" = None -> su_ext su "ml_g" = None -> target_on su out "ml_l" y everyone) /\ (su_ext su "ml_m" = None -> target_on su out "ml_m" d everyone).
Proof. exact @plr_targets. Qed.
Print Assumptions C74_partially_linear.

Theorem C74_interactive : forall (E P : Type) (L : learner E row P) f g (su : setup E P) atte norm bo tr thr w x y d smpls out,
  setting L f g su smpls -> fit_ok L g su "ml_g0" "ml_g" y (fun j => d j = 0) smpls -> fit_ok L g su "ml_g1" "ml_g" y (fun j => d j = 1) smpls ->
  fit_ok L g su "ml_m" "ml_m" d everyone smpls -> plain_labels su "ml_g" y -> plain_labels su "ml_m" d -> irm_nuis L su atte norm bo tr thr w x y d smpls = Ok out ->
  (su_ext su "ml_g0" = None -> target_on su out "ml_g0" y (fun j => d j = 0)) /\ (su_ext su "ml_g1" = None -> target_on su out "ml_g1" y (fun j => d j = 1)) /\
  (su_ext su "ml_m" = None -> target_on su out "ml_m" d everyone).
Proof. exact @irm_targets. Qed.
Print Assumptions C74_interactive.

Theorem C74_did : forall (E P : Type) (L : learner E row P) f g (su : setup E P) obs norm tr thr x y d smpls out,
  setting L f g su smpls -> fit_ok L g su "ml_g0" "ml_g" y (fun j => d j = 0) smpls -> fit_ok L g su "ml_g1" "ml_g" y (fun j => d j = 1) smpls ->
  plain_labels su "ml_g" y -> did_nuis L su obs norm tr thr x y d smpls = Ok out ->
  (su_ext su "ml_g0" = None -> target_on su out "ml_g0" y (fun j => d j = 0)) /\ (su_ext su "ml_g1" = None -> target_on su out "ml_g1" y (fun j => d j = 1)).
Proof. exact @did_targets. Qed.
Print Assumptions C74_did.

Theorem C74_potential_outcome : forall (E P : Type) (L : learner E row P) f g (su : setup E P) norm bo tr thr w x y d lvl smpls out,
  setting L f g su smpls -> fit_ok L g su "ml_g_d_lvl0" "ml_g" y (fun j => lvl j = 0) smpls -> fit_ok L g su "ml_g_d_lvl1" "ml_g" y (fun j => lvl j = 1) smpls ->
  fit_ok L g su "ml_m" "ml_m" lvl everyone smpls -> plain_labels su "ml_g" y -> plain_labels su "ml_m" lvl -> apo_nuis L su norm bo tr thr w x y d lvl smpls = Ok out ->
  target_on su out "ml_g_d_lvl0" y (fun j => lvl j = 0) /\ target_on su out "ml_g_d_lvl1" y (fun j => lvl j = 1) /\ target_on su out "ml_m" lvl everyone.
Proof. exact @apo_targets. Qed.
Print Assumptions C74_potential_outcome.

Theorem C74_sample_selection_all_rows : forall (E P : Type) (L : learner E row P) f g (su : setup E P) norm tr thr x y d s smpls out,
  setting L f g su smpls ->
  labels_ok L g su "ml_g" y (fun j => d j = 1 /\ s j = 1) smpls -> labels_ok L g su "ml_g" y (fun j => d j = 0 /\ s j = 1) smpls -> plain_labels su "ml_g" y -> ssm_mar_nuis L su norm tr thr x y d s smpls = Ok out ->
  target_on su out "ml_g_d1" y everyone /\ target_on su out "ml_g_d0" y everyone.
Proof. exact @ssm_targets. Qed.
Print Assumptions C74_sample_selection_all_rows.

(** The outcome regressions of the sample selection model are for the selected
    rows of one treatment group; their targets are reported for all rows. *)
Theorem C74_sample_selection_refuted : forall (E P : Type) (L : learner E row P) f g (su : setup E P) norm tr thr x y d s smpls out i,
  setting L f g su smpls ->
  labels_ok L g su "ml_g" y (fun j => d j = 1 /\ s j = 1) smpls -> labels_ok L g su "ml_g" y (fun j => d j = 0 /\ s j = 1) smpls -> plain_labels su "ml_g" y -> ssm_mar_nuis L su norm tr thr x y d s smpls = Ok out ->
  (i < (su_n su))%nat -> s i <> 1 -> ~ target_on su out "ml_g_d1" y (fun j => d j = 1 /\ s j = 1) /\ ~ target_on su out "ml_g_d0" y (fun j => d j = 0 /\ s j = 1).
Proof. exact @ssm_targets_wide. Qed.
Print Assumptions C74_sample_selection_refuted.
Example C74_case : (3 < 8)%nat /\ w_t 1 <> 1 /\ plain_labels (r_setup 8 true) "ml_m" w_d /\ plain_labels (r_setup 8 true) "ml_g" w_y.
Proof.
  split; [lia|]. split; [cbn; lra|]. split; [|left; reflexivity]. right. split; [|exists 0%nat; split; [cbn; lia|cbn; lra]]. intros i Hi. cbn in Hi. destruct i as [|[|[|[|[|[|[|[|i]]]]]]]]; cbn; try lra; lia.
Qed.

(** ** C43: external predictions of two further model classes *)
Theorem C43_projected_instruments_refuted : forall (E P : Type) (L : learner E row P) (su : setup E P) e x zrow y d smpls,
  pliv_z_nuis L (with_ext su e) x zrow y d smpls = pliv_z_nuis L su x zrow y d smpls /\ pliv_xz_nuis L (with_ext su e) x zrow y d smpls = pliv_xz_nuis L su x zrow y d smpls.
Proof. exact @pliv_ignores. Qed.
Print Assumptions C43_projected_instruments_refuted.
Theorem C43_takers_refuted : forall (E P : Type) (L : learner E row P) (su : setup E P) norm bo at_ nt tr thr x y z d smpls out e0 e1,
  iivm_nuis L su norm bo at_ nt tr thr x y z d smpls = Ok out -> su_ext su "ml_r0" = Some e0 -> su_ext su "ml_r1" = Some e1 ->
  (at_ = false -> forall i, no_preds out "ml_r0" i = Some 0) /\ (nt = false -> forall i, no_preds out "ml_r1" i = Some 1).
Proof. exact @takers_ignored. Qed.
Print Assumptions C43_takers_refuted.
Example C43_case_takers : exists out, iivm_nuis r_learner (with_ext (r_setup 8 true) (fun _ => Some (fun _ => 1 / 2))) false false false false false (1 / 10) w_x w_y w_t w_d w_smpls = Ok out.
Proof. unfold iivm_nuis, or_ext. cbn [with_ext su_ext bind require andb negb]. eexists. reflexivity. Qed.

(** ** C75: a complete fit *)
Theorem C75_partially_linear_fit : forall (E P : Type) (L : learner E row P) f g (mc : machinery E P) n dcols bin x y d w nj store ext smod w',
  let C := plr_ctx L mc n dcols false bin x y d in
  (0 < n)%nat -> dcols <> [] -> soundly_reached C w -> sound_learning L f g mc w ->
  labels_everywhere L g mc w n "ml_l" y everyone -> (forall t, labels_everywhere L g mc w n "ml_m" (d t) everyone) ->
  fit C nj store ext smod w = (w', Ok tt) ->
  exists F sm, current_fw w' F /\ fw_wf F /\ fw_aggregated F /\ m_smpls (w_obj w) = Some sm /\ fw_n_rep F = length sm /\ fw_n_thetas F = length dcols /\
    forall r t fs col, nth_error sm r = Some fs -> nth_error dcols t = Some col -> exists l m,
      used_prediction L f g mc w n ext r t col "ml_l" "ml_l" (x t) y whole_train fs l /\
      used_prediction L f g mc w n ext r t col "ml_m" "ml_m" (x t) (d t) whole_train fs m /\
      (sumf n (fun i => (d t i - m i) ^ 2) <> 0 ->
       let theta := sumf n (fun i => (d t i - m i) * (y i - l i)) / sumf n (fun i => (d t i - m i) ^ 2) in
       at_ (fw_all_thetas F) [t; r] = theta /\
       at_ (fw_all_ses F) [t; r] = sqrt (sumf n (fun i => ((d t i - m i) * (y i - l i - theta * (d t i - m i))) ^ 2)) / sumf n (fun i => (d t i - m i) ^ 2)).
Proof. exact @plr_fit. Qed.
Print Assumptions C75_partially_linear_fit.
Example C75_case_partially_linear : exists w w', soundly_reached w_plr_ctx w /\ sound_learning r_learner r_predict r_proba w_machine w /\
  labels_everywhere r_learner r_proba w_machine w 8 "ml_l" w_y everyone /\ (forall t, labels_everywhere r_learner r_proba w_machine w 8 "ml_m" (match t with O => w_d | _ => w_t end) everyone) /\
  fit w_plr_ctx PNone (PBool true) ExtNone (PBool false) w = (w', Ok tt).
Proof. exact w_plr_case. Qed.

Theorem C75_interactive_fit : forall (E P : Type) (L : learner E row P) f g (mc : machinery E P) n dcol norm bo tr thr w_ x y d strata w nj store ext smod w',
  let C := irm_ctx L mc n dcol false norm bo tr thr w_ x y d strata in
  (0 < n)%nat -> (forall r, w_ r = unit_weights) -> soundly_reached C w -> sound_learning L f g mc w ->
  labels_everywhere L g mc w n "ml_g" y (fun j => d j = 0) -> labels_everywhere L g mc w n "ml_g" y (fun j => d j = 1) -> labels_everywhere L g mc w n "ml_m" d everyone ->
  fit C nj store ext smod w = (w', Ok tt) ->
  exists F sm, current_fw w' F /\ fw_wf F /\ fw_aggregated F /\ m_smpls (w_obj w) = Some sm /\ fw_n_rep F = length sm /\ fw_n_thetas F = 1%nat /\
    forall r fs, nth_error sm r = Some fs -> exists g0 g1 m0 m,
      used_prediction L f g mc w n ext r 0 dcol "ml_g0" "ml_g" x y (group_rows n (fun j => d j = 0)) fs g0 /\
      used_prediction L f g mc w n ext r 0 dcol "ml_g1" "ml_g" x y (group_rows n (fun j => d j = 1)) fs g1 /\
      used_prediction L f g mc w n ext r 0 dcol "ml_m" "ml_m" x d whole_train fs m0 /\
      (forall i, (i < n)%nat -> m i = if tr then Rmin (Rmax (m0 i) thr) (1 - thr) else m0 i) /\
      let s := dr_signal y d g0 g1 (ps_adjust n m d norm) in
      (forall i, (i < n)%nat -> ps_adjust n m d norm i <> 0 /\ ps_adjust n m d norm i <> 1) ->
      at_ (fw_all_thetas F) [0%nat; r] = meanf n s /\
      at_ (fw_all_ses F) [0%nat; r] = sqrt (sumf n (fun i => (s i - meanf n s) ^ 2)) / INR n.
Proof. exact @irm_fit_defined. Qed.
Print Assumptions C75_interactive_fit.
Example C75_case_interactive : exists w w', soundly_reached w_irm_ctx w /\ sound_learning r_learner r_predict r_proba w_machine w /\
  labels_everywhere r_learner r_proba w_machine w 8 "ml_g" w_y (fun j => w_d j = 0) /\ labels_everywhere r_learner r_proba w_machine w 8 "ml_g" w_y (fun j => w_d j = 1) /\ labels_everywhere r_learner r_proba w_machine w 8 "ml_m" w_d everyone /\
  fit w_irm_ctx PNone (PBool true) ExtNone (PBool false) w = (w', Ok tt).
Proof. exact w_irm_case. Qed.


(** Quantile objects: concrete cases with sixteen rows. *)
From Verif Require L_DataWitness.
From Verif Require Import L_QScore L_ClassesWitness.
From Verif Require Export L_QSuccess L_LpqWitness L_InitWitness.
From Coq Require Import Lia Lra.
Local Open Scope R_scope.
Local Open Scope string_scope.

(** ** Data *)
Definition u_cell (c : string) (i : nat) : M_Data.cell := M_Data.Num (if String.eqb c "d" then u_d i else if String.eqb c "z" then u_z i else INR i).
Definition u_frame : M_Data.frame := M_Data.mk_frame ["y"; "d"; "x"; "z"] 16 u_cell.
Definition u_roles (z : option (list string)) : M_Data.roles := M_Data.mk_roles "y" ["d"] ["x"] z None None None.
Definition u_data (z : option (list string)) (s : M_Data.ddata) : Prop := S_Data.constructed u_frame s /\ M_Data.dd_roles s = u_roles z /\ M_Data.dd_other s = true.
Lemma u_exists z : z = None \/ z = Some ["z"] -> exists s, u_data z s.
Proof.
  intro Hz. destruct (L_DataWitness.construct_of u_frame (u_roles z) true M_Data.Strict) as (s & K & R & O & _); [|exists s; split; [exact K|auto]].
  split; [apply L_Data.distinct_iff; reflexivity|]. split; [destruct Hz as [->| ->]; i_wf|]. split; [discriminate|].
  split; intros c _; [|apply L_DataProps.number_allowed]; intros i _; cbn; eexists; reflexivity.
Qed.
Lemma u_reach z s : u_data z s -> S_Data.reachable u_frame s.
Proof. intros (K & _). now apply S_Data.R_new. Qed.
Lemma u_plain z s : u_data z s -> unclustered s.
Proof. intros (_ & R & _). unfold unclustered. rewrite R. reflexivity. Qed.
Lemma u_01 i : (u_d i = 0 \/ u_d i = 1) /\ (u_z i = 0 \/ u_z i = 1).
Proof.
  unfold u_d, u_z. assert (i mod 4 < 4)%nat by (apply Nat.mod_upper_bound; lia). assert (i mod 2 < 2)%nat by (apply Nat.mod_upper_bound; lia). split.
  - destruct (i mod 4) as [|[|[|[|]]]]; [cbn; lra|cbn; lra|cbn; lra|cbn; lra|lia].
  - destruct (i mod 2) as [|[|]]; [cbn; lra|cbn; lra|lia].
Qed.
Lemma u_binary z s : u_data z s -> binary_treatment u_frame s "d".
Proof. intros (_ & R & _). split; [rewrite R; reflexivity|]. intros i _. change (M_Data.fcell u_frame "d" i) with (M_Data.Num (u_d i)). destruct (proj1 (u_01 i)) as [->| ->]; auto. Qed.
Lemma u_instrument s : u_data (Some ["z"]) s -> binary_instrument u_frame s "z".
Proof. intros (_ & R & _). split; [rewrite R; reflexivity|]. intros i _. change (M_Data.fcell u_frame "z" i) with (M_Data.Num (u_z i)). destruct (proj2 (u_01 i)) as [->| ->]; auto. Qed.
Lemma u_arms z s : u_data z s -> both_arms u_frame s.
Proof.
  intros U c (E & _). destruct U as (_ & R & _). rewrite R in E. injection E as <-. intros a [->| ->]; [exists 0%nat|exists 1%nat]; (split; [cbn; lia|reflexivity]).
Qed.

(** ** Arguments *)
Lemma u_args v : (exists i j, (i < j < 16)%nat /\ v i = v j) -> split_args 16 (PInt 2) (PInt 1) (PBool true) (Some v).
Proof.
  intro H. split; [reflexivity|]. split; [cbn; lia|]. split; [reflexivity|]. split; [cbn; lia|]. exists true. split; [reflexivity|]. intros _. cbv zeta. change (Z.to_nat (int_val (PInt 2))) with 2%nat. split; [lia|].
  destruct H as (i & j & H & Q). exists i. split; [lia|]. eapply two_rows; eassumption.
Qed.
Lemma u_options name : quantile_options name (PStr name) (PInt 1) (PFloat (1 / 2)) (PBool false) (PStr "truncate") (PFloat (1 / 100)).
Proof.
  split; [reflexivity|]. split; [exists (1 / 2); split; [reflexivity|lra]|]. split; [exists 1; right; auto|]. split; [apply i_bool|exact i_trim].
Qed.
Definition u_kde : kde_arg := KdeFun (fun _ _ => 1).
Definition u_or (r k : nat) : q_oracles := u_o.
Definition u_cvar s := cvar_init q_learner i_rd u_frame s u_or reg cls (PInt 1) (PFloat (1 / 2)) (PInt 2) (PInt 1) (PStr "CVaR") (PBool false) (PStr "truncate") (PFloat (1 / 100)) (PBool true).
Definition u_pq {E} (L : learner E row unit) (l : pylearner E) s := pq_init L i_rd u_frame s (fun _ _ => 0) u_or l l (PInt 1) (PFloat (1 / 2)) (PInt 2) (PInt 1) (PStr "PQ") (PBool false) u_kde (PStr "truncate") (PFloat (1 / 100)) (PBool true).
Definition u_lpq {E} (L : learner E row unit) (l : pylearner E) s := lpq_init L i_rd u_frame s (fun _ _ => 0) u_or l l (PInt 1) (PFloat (1 / 2)) (PInt 2) (PInt 1) (PStr "LPQ") (PBool false) u_kde (PStr "truncate") (PFloat (1 / 100)) (PBool true).
Lemma u_cvar_ok s : u_data None s -> exists C w, u_cvar s = Ok (C, w).
Proof.
  intro U. destruct (proj2 (cvar_accepts q_learner i_rd u_frame s (proj1 U) (u_plain _ _ U) (u_arms _ _ U) u_or reg cls (PInt 1) (PFloat (1 / 2)) (PInt 2) (PInt 1) (PStr "CVaR") (PBool false) (PStr "truncate") (PFloat (1 / 100)) (PBool true))) as ((C & w) & Q).
  - split; [destruct U as (_ & R & _); unfold no_instruments; rewrite R; reflexivity|]. split; [|split; [apply u_options|split; [exact reg_values|exact cls_proba]]].
    exists "d". split; [exact (u_binary _ _ U)|]. apply u_args. exists 0%nat, 3%nat. split; [lia|reflexivity].
  - exists C, w. exact Q.
Qed.
Lemma u_pq_ok {E} (L : learner E row unit) l s : predicts_probabilities l -> u_data None s -> exists K b, u_pq L l s = Ok (K, b).
Proof.
  intros Hl U. destruct (proj2 (pq_accepts L i_rd u_frame s (proj1 U) (u_plain _ _ U) (u_arms _ _ U) (fun _ _ => 0) u_or l l (PInt 1) (PFloat (1 / 2)) (PInt 2) (PInt 1) (PStr "PQ") (PBool false) u_kde (PStr "truncate") (PFloat (1 / 100)) (PBool true))) as ((K & b) & Q).
  - split; [destruct U as (_ & R & _); unfold no_instruments; rewrite R; reflexivity|]. split; [|split; [apply u_options|split; [right; eexists; reflexivity|split; exact Hl]]].
    exists "d". split; [exact (u_binary _ _ U)|]. apply u_args. exists 0%nat, 3%nat. split; [lia|reflexivity].
  - exists K, b. exact Q.
Qed.
Lemma u_lpq_ok {E} (L : learner E row unit) l s : predicts_probabilities l -> u_data (Some ["z"]) s -> exists K b, u_lpq L l s = Ok (K, b).
Proof.
  intros Hl U. destruct (proj2 (lpq_accepts L i_rd u_frame s (proj1 U) (u_plain _ _ U) (u_arms _ _ U) (fun _ _ => 0) u_or l l (PInt 1) (PFloat (1 / 2)) (PInt 2) (PInt 1) (PStr "LPQ") (PBool false) u_kde (PStr "truncate") (PFloat (1 / 100)) (PBool true))) as ((K & b) & Q).
  - split; [|split; [apply u_options|split; [right; eexists; reflexivity|split; exact Hl]]].
    exists "d", "z". split; [exact (u_binary _ _ U)|]. split; [exact (u_instrument _ U)|]. apply u_args. exists 0%nat, 4%nat. split; [lia|reflexivity].
  - exists K, b. exact Q.
Qed.

(** ** The split of the user *)
Definition zs (l : list nat) : list Z := map Z.of_nat l.
Definition u_set : pysplit := SList [STup [IxInt (zs (seq 8 8)); IxInt (zs (seq 0 8))]; STup [IxInt (zs (seq 0 8)); IxInt (zs (seq 8 8))]].
Definition u_known (w : world unit) : Prop := m_smpls (w_obj w) = Some [u_smpls] /\ forall l t, m_params (w_obj w) l t = [None].
Lemma u_later (C : ctx unit) w0 : c_n C = 16%nat -> c_cluster C = None -> exists w, later C w0 w /\ u_known w.
Proof.
  intros Hn Hc. exists (run C [OSet u_set None] w0). split; [exists [OSet u_set None]; split; [intros o [<-|[]]; exact Logic.I|reflexivity]|].
  destruct C as [n dc cl st ls cc eo nu se]. cbn in Hn, Hc. subst n cl. split; reflexivity.
Qed.
Lemma u_nl_later sv (K : nl_class (P:=unit)) b0 : nk_n K = 16%nat -> exists b, nl_later sv K b0 b /\ u_known (ob_world b).
Proof.
  intros Hn. exists (nl_run sv K [NSet u_set] b0). split; [exists [NSet u_set]; split; [intros o [<-|[]]; exact Logic.I|reflexivity]|].
  destruct K as [n dc st ls cc bo es]. cbn in Hn. subst n. split; reflexivity.
Qed.

(** ** The learner and the inner splits *)
Lemma q_trains : trains q_learner.
Proof. split; [intros e data H; exists data; apply r_fit_ok, H|intros e []; eexists; reflexivity]. Qed.
Lemma u_pq_usable : pq_usable u_o 1 u_d u_smpls.
Proof.
  intros h Hh. destruct (u_halves h Hh) as (s & Hs & F). split; [rewrite F; discriminate|]. split.
  - split; [exact (u_pq_inner h Hh)|]. unfold first_half. rewrite F. split.
    + intros g Hg. change (In g u_inner) in Hg. destruct Hg as [<-|[<-|[]]]; discriminate.
    + exists s, (S s). split; [cbn; auto|]. split; [cbn; auto|]. destruct Hs as [->| ->]; unfold u_d; cbn; lra.
  - exists (5 + s)%nat. unfold second_half. rewrite F. split; [cbn; auto|]. destruct Hs as [->| ->]; reflexivity.
Qed.
Lemma u_lpq_usable : lpq_usable u_o u_d u_z u_smpls.
Proof.
  intros h Hh. destruct (u_halves h Hh) as (s & Hs & F). split.
  - split; [exact (v_inner h Hh)|]. unfold lfirst_half. rewrite F. split.
    + intros g Hg. change (In g u_inner) in Hg. destruct Hg as [<-|[<-|[]]]; discriminate.
    + exists s, (S s). split; [cbn; auto|]. split; [cbn; auto|]. destruct Hs as [->| ->]; unfold u_z; cbn; lra.
  - intros b Hb. unfold lfirst_half, lsecond_half. rewrite F. destruct Hb as [->| ->].
    + split; [exists s|split; [exists s|exists (4 + s)%nat]]; (split; [cbn; auto 10|destruct Hs as [->| ->]; reflexivity]).
    + split; [exists (S s)|split; [exists (S s)|exists (5 + s)%nat]]; (split; [cbn; auto 10|destruct Hs as [->| ->]; reflexivity]).
Qed.
Lemma trim_inside m i : 1 / 100 <= trimm true (1 / 100) m i <= 99 / 100.
Proof. unfold trimm, rclip. pose proof (Rmin_l (Rmax (m i) (1 / 100)) (1 - 1 / 100)). pose proof (Rmax_r (m i) (1 / 100)). unfold Rmin, Rmax in *. repeat destruct (Rle_dec _ _); lra. Qed.
Lemma u_weights d m : weights_defined 16 true false (1 / 100) d m.
Proof. intros i _. unfold pq_adjust. pose proof (trim_inside m i). lra. Qed.
Lemma u_props z m : propensities_defined 16 (lpq_adjust 16 false (1 / 100) z m).
Proof. intros i _. unfold lpq_adjust. pose proof (trim_inside m i). lra. Qed.

(** ** Fits *)
Lemma u_params w l r : u_known w -> (r < 1)%nat -> params_fit (params_at w l "d" r) 2.
Proof. intros (_ & Ep) Hr. unfold params_at. rewrite Ep. destruct r; [exact Logic.I|lia]. Qed.
Lemma u_only w sm r fs : u_known w -> m_smpls (w_obj w) = Some sm -> nth_error sm r = Some fs -> (r < 1)%nat /\ fs = u_smpls.
Proof. intros (Es & _) E Hr. rewrite Es in E. injection E as <-. destruct r as [|[|r]]; cbn in Hr; try discriminate. injection Hr as <-. split; [lia|reflexivity]. Qed.
Lemma u_cvar_end : exists s C w0 w w', u_data None s /\ u_cvar s = Ok (C, w0) /\ later C w0 w /\ m_smpls (w_obj w) = Some [u_smpls] /\
  (forall h, In h u_smpls -> inner_split u_d (first_half u_o u_d h) (qo_skf u_o (map u_d (first_half u_o u_d h))) (qo_order u_o)) /\
  (forall m, weights_defined 16 true false (1 / 100) u_d m) /\ fit C PNone (PBool true) ExtNone (PBool false) w = (w', Ok tt).
Proof.
  destruct (u_exists None) as (s & U); [auto|]. destruct (u_cvar_ok s U) as (C & w0 & Q). pose proof (u_plain _ _ U) as Un. pose proof (u_reach _ _ U) as Re.
  assert (Cc : c_n C = 16%nat /\ c_cluster C = None). { destruct (cvar_made _ _ _ _ _ _ _ _ _ _ _ _ _ _ _ _ _ _ _ _ Re i_sound Q) as (dc & mc & tr & q & nm0 & th & st0 & _ & -> & _). rewrite (plain_ctx u_frame s Re _ Un). split; reflexivity. }
  destruct (u_later C w0 (proj1 Cc) (proj2 Cc)) as (w & La & Kn).
  destruct (cvar_fit_succeeds _ _ q_learner q_predict q_proba i_rd u_frame s u_or reg cls _ _ _ _ _ _ _ _ _ C w0 w PNone true false [u_smpls] "d" 1 Re Un i_sound ltac:(cbn; lia) Q ltac:(right; auto) (u_binary _ _ U) q_row q_classifier q_clone q_trains La (proj1 Kn) ltac:(left; reflexivity)) as (w' & Hf).
  { intros r fs Hr. destruct (u_only w _ r fs Kn (proj1 Kn) Hr) as (Hr1 & ->). split; [exact u_pq_usable|]. split; apply u_params; assumption. }
  exists s, C, w0, w, w'. split; [exact U|]. split; [exact Q|]. split; [exact La|]. split; [apply Kn|]. split; [exact u_pq_inner|]. split; [exact (u_weights u_d)|exact Hf].
Qed.
Lemma u_pq_n {E} (L : learner E row unit) l s K b0 z : u_data z s -> u_pq L l s = Ok (K, b0) -> nk_n K = 16%nat.
Proof. intros U Q. destruct (pq_made _ _ _ _ _ _ _ _ _ _ _ _ _ _ _ _ _ _ _ _ _ _ (u_reach _ _ U) i_sound (u_plain _ _ U) Q) as (dc & mc & tr & q & nm0 & th & st0 & h & _ & _ & -> & _). reflexivity. Qed.
Lemma u_lpq_n {E} (L : learner E row unit) l s K b0 z : u_data z s -> u_lpq L l s = Ok (K, b0) -> nk_n K = 16%nat.
Proof. intros U Q. destruct (lpq_made _ _ _ _ _ _ _ _ _ _ _ _ _ _ _ _ _ _ _ _ _ _ (u_reach _ _ U) i_sound (u_plain _ _ U) Q) as (dc & zc & mc & tr & q & nm0 & th & st0 & h & _ & _ & _ & -> & _). reflexivity. Qed.
Definition u_sv : solvers := bs_solvers (1 / 1000).
Lemma u_sv_ok : brentq_ok u_sv /\ fmin_ok u_sv /\ brentq_near u_sv (1 / 1000).
Proof. split; [apply bs_ok|]. split; [apply bs_fmin|apply bs_near; lra]. Qed.
Lemma u_pq_end : exists s K b0 b b', u_data None s /\ u_pq q_learner cls s = Ok (K, b0) /\ nl_later u_sv K b0 b /\ m_smpls (w_obj (ob_world b)) = Some [u_smpls] /\
  (forall h, In h u_smpls -> inner_split u_d (first_half u_o u_d h) (qo_skf u_o (map u_d (first_half u_o u_d h))) (qo_order u_o)) /\
  (forall m, weights_defined 16 true false (1 / 100) u_d m) /\ nl_fit u_sv K PNone (PBool true) ExtNone (PBool true) b = (b', Ok tt).
Proof.
  destruct (u_exists None) as (s & U); [auto|]. destruct (u_pq_ok q_learner cls s cls_proba U) as (K & b0 & Q). pose proof (u_plain _ _ U) as Un. pose proof (u_reach _ _ U) as Re.
  destruct (u_nl_later u_sv K b0 (u_pq_n _ _ _ _ _ _ U Q)) as (b & La & Kn). destruct u_sv_ok as (S1 & S2 & _).
  destruct (pq_fit_succeeds _ _ q_learner q_predict q_proba i_rd u_frame s _ u_or cls cls _ _ _ _ _ _ _ _ _ _ K b0 b u_sv PNone true true [u_smpls] "d" 1 Re Un i_sound ltac:(cbn; lia) Q ltac:(right; auto) (u_binary _ _ U) q_row q_classifier q_clone q_trains (fun _ _ => u_solver) S1 S2 La (proj1 Kn) ltac:(left; reflexivity)) as (b' & Hf).
  { intros r fs Hr. destruct (u_only _ _ r fs Kn (proj1 Kn) Hr) as (Hr1 & ->). split; [exact u_pq_usable|]. split; apply u_params; assumption. }
  exists s, K, b0, b, b'. split; [exact U|]. split; [exact Q|]. split; [exact La|]. split; [apply Kn|]. split; [exact u_pq_inner|]. split; [exact (u_weights u_d)|exact Hf].
Qed.
Lemma u_lpq_end : exists s K b0 b b', u_data (Some ["z"]) s /\ u_lpq q_learner cls s = Ok (K, b0) /\ nl_later u_sv K b0 b /\ m_smpls (w_obj (ob_world b)) = Some [u_smpls] /\
  (forall h, In h u_smpls -> inner_split u_z (lfirst_half u_o u_d u_z h) (qo_skf u_o (map (cells4 u_d u_z) (lfirst_half u_o u_d u_z h))) (qo_order u_o)) /\
  (forall m, propensities_defined 16 (lpq_adjust 16 false (1 / 100) u_z m)) /\ nl_fit u_sv K PNone (PBool true) ExtNone (PBool true) b = (b', Ok tt).
Proof.
  destruct (u_exists (Some ["z"])) as (s & U); [auto|]. destruct (u_lpq_ok q_learner cls s cls_proba U) as (K & b0 & Q). pose proof (u_plain _ _ U) as Un. pose proof (u_reach _ _ U) as Re.
  destruct (u_nl_later u_sv K b0 (u_lpq_n _ _ _ _ _ _ U Q)) as (b & La & Kn). destruct u_sv_ok as (S1 & S2 & _).
  destruct (lpq_fit_succeeds _ _ q_learner q_predict q_proba i_rd u_frame s _ u_or cls cls _ _ _ _ _ _ _ _ _ _ K b0 b u_sv PNone true true [u_smpls] "d" "z" Re Un i_sound ltac:(cbn; lia) Q (u_binary _ _ U) (u_instrument _ U) q_row q_classifier q_clone q_trains (fun _ _ => u_solver) S1 S2 La (proj1 Kn) ltac:(left; reflexivity)) as (b' & Hf).
  { intros r fs Hr. destruct (u_only _ _ r fs Kn (proj1 Kn) Hr) as (Hr1 & ->). split; [exact u_lpq_usable|]. intros l _. apply u_params; assumption. }
  exists s, K, b0, b, b'. split; [exact U|]. split; [exact Q|]. split; [exact La|]. split; [apply Kn|]. split; [exact v_inner|]. split; [exact (u_props u_z)|exact Hf].
Qed.

(** ** External predictions: one array for all learners *)
Definition u_given (f : string -> vec) (names : list string) : ext_arg :=
  ExtDict [("d", InnerDict (map (fun l => (l, Val {| shape := [16; 1]%nat; at_ := fun i => f l (hd 0%nat i) |})) names))].
Lemma u_given_get f names l : In l names -> dict_get l (map (fun l => (l, Val {| shape := [16; 1]%nat; at_ := fun i => f l (hd 0%nat i) |})) names) = Some (Val {| shape := [16; 1]%nat; at_ := fun i => f l (hd 0%nat i) |}).
Proof.
  induction names as [|a names IH]; intro H; [destruct H|]. cbn [map dict_get]. destruct (String.eqb_spec l a) as [->|N]; [reflexivity|]. apply IH. destruct H as [->|H]; [contradiction|exact H].
Qed.
Lemma u_given_supplied f names l r : In l names -> supplied (u_given f names) "d" l r (f l).
Proof. intro H. do 3 eexists. split; [reflexivity|]. split; [reflexivity|]. split; [exact (u_given_get f names l H)|]. intro i. reflexivity. Qed.
Lemma u_given_wf f names : well_formed_predictions (u_given f names) ["d"] names 16 1.
Proof.
  eexists. split; [reflexivity|]. intros d inner [[= <- <-]|[]]. split; [left; reflexivity|]. eexists. split; [reflexivity|].
  intros l e H. apply in_map_iff in H as (l' & [= <- <-] & H). split; [exact H|]. eexists. split; reflexivity.
Qed.
Lemma u_given_complete f names : complete_predictions (u_given f names) ["d"] names.
Proof. intros d l r [<-|[]] H. exists (f l). apply u_given_supplied, H. Qed.
Lemma u_pq_given f : exists s K b0 b b', u_data None s /\ u_pq q_learner cls s = Ok (K, b0) /\ nl_later u_sv K b0 b /\ m_smpls (w_obj (ob_world b)) = Some [u_smpls] /\
  nl_fit u_sv K PNone (PBool true) (u_given f ["ml_g"; "ml_m"]) (PBool false) b = (b', Ok tt) /\ snd (nl_fit u_sv K PNone (PBool true) (u_given f ["ml_g"; "ml_m"]) (PBool true) b) <> Ok tt.
Proof.
  destruct (u_exists None) as (s & U); [auto|]. destruct (u_pq_ok q_learner cls s cls_proba U) as (K & b0 & Q). pose proof (u_plain _ _ U) as Un. pose proof (u_reach _ _ U) as Re.
  destruct (u_nl_later u_sv K b0 (u_pq_n _ _ _ _ _ _ U Q)) as (b & La & Kn). destruct u_sv_ok as (S1 & S2 & _).
  destruct (pq_given_succeeds _ _ q_learner i_rd u_frame s _ u_or cls cls _ _ _ _ _ _ _ _ _ _ K b0 b u_sv PNone true (u_given f ["ml_g"; "ml_m"]) [u_smpls] "d" Re Un i_sound ltac:(cbn; lia) Q (u_binary _ _ U) (fun _ _ => u_solver) S1 S2 La (proj1 Kn) ltac:(left; reflexivity) (u_given_wf f _) (u_given_complete f _)) as (b' & Hf).
  exists s, K, b0, b, b'. split; [exact U|]. split; [exact Q|]. split; [exact La|]. split; [apply Kn|]. split; [exact Hf|].
  apply (pq_store_fails _ _ q_learner i_rd u_frame s _ u_or cls cls _ _ _ _ _ _ _ _ _ _ K b0 b u_sv PNone (PBool true) (u_given f ["ml_g"; "ml_m"]) [u_smpls] "d" "ml_g" 0%nat (f "ml_g") Re Un i_sound ltac:(cbn; lia) Q (u_binary _ _ U) (fun _ _ => u_solver) S1 S2 La (proj1 Kn)); [cbn; auto|cbn; lia|apply u_given_supplied; cbn; auto].
Qed.
Lemma u_lpq_given f : exists s K b0 b b', u_data (Some ["z"]) s /\ u_lpq q_learner cls s = Ok (K, b0) /\ nl_later u_sv K b0 b /\ m_smpls (w_obj (ob_world b)) = Some [u_smpls] /\
  nl_fit u_sv K PNone (PBool true) (u_given f lpq_names) (PBool false) b = (b', Ok tt) /\ snd (nl_fit u_sv K PNone (PBool true) (u_given f lpq_names) (PBool true) b) <> Ok tt.
Proof.
  destruct (u_exists (Some ["z"])) as (s & U); [auto|]. destruct (u_lpq_ok q_learner cls s cls_proba U) as (K & b0 & Q). pose proof (u_plain _ _ U) as Un. pose proof (u_reach _ _ U) as Re.
  destruct (u_nl_later u_sv K b0 (u_lpq_n _ _ _ _ _ _ U Q)) as (b & La & Kn). destruct u_sv_ok as (S1 & S2 & _).
  destruct (lpq_given_succeeds _ _ q_learner i_rd u_frame s _ u_or cls cls _ _ _ _ _ _ _ _ _ _ K b0 b u_sv PNone true (u_given f lpq_names) [u_smpls] "d" Re Un i_sound ltac:(cbn; lia) Q (u_binary _ _ U) (fun _ _ => u_solver) S1 S2 La (proj1 Kn) ltac:(left; reflexivity) (u_given_wf f _) (u_given_complete f _)) as (b' & Hf).
  exists s, K, b0, b, b'. split; [exact U|]. split; [exact Q|]. split; [exact La|]. split; [apply Kn|]. split; [exact Hf|].
  apply (lpq_store_fails _ _ q_learner i_rd u_frame s _ u_or cls cls _ _ _ _ _ _ _ _ _ _ K b0 b u_sv PNone (PBool true) (u_given f lpq_names) [u_smpls] "d" 0%nat Re Un i_sound ltac:(cbn; lia) Q (u_binary _ _ U) (fun _ _ => u_solver) S1 S2 La (proj1 Kn)); [cbn; lia|].
  intros l Hl. exists (f l). apply u_given_supplied, Hl.
Qed.
(** Shares of compliers that are not zero. *)
Definition u_guess (l : string) (i : nat) : R := if String.eqb l "ml_m_z" then 1 / 4 else if String.eqb l "ml_m_d_z1" then 3 / 4 else 1 / 2.
Lemma u_share : meanf 16 (dr_signal u_d u_z (u_guess "ml_m_d_z0") (u_guess "ml_m_d_z1") (lpq_adjust 16 false (1 / 100) u_z (u_guess "ml_m_z"))) = - (1 / 4).
Proof.
  unfold lpq_adjust. cbv zeta iota. assert (T : forall i, trimm true (1 / 100) (u_guess "ml_m_z") i = 1 / 4). { intro i. unfold trimm, rclip, u_guess. cbn. unfold Rmin, Rmax. repeat destruct (Rle_dec _ _); lra. }
  transitivity (meanf 16 (dr_signal u_d u_z (u_guess "ml_m_d_z0") (u_guess "ml_m_d_z1") (fun _ => 1 / 4))).
  - unfold meanf. f_equal. apply sumf_ext. intros i _. unfold dr_signal, dr_level, compl. rewrite !T. reflexivity.
  - unfold meanf, sumf, dr_signal, dr_level, compl, u_guess, u_d, u_z. cbn. lra.
Qed.

(** When fold-wise tuning returns. *)
From Verif Require Export L_TuneFit L_TuneArgs.
From Coq Require Import Lia.
Local Open Scope res_scope.

Section Obj.
Context {P T : Type}.
Variable C : ctx P.
Variable names : list string.
Variable tn : nat -> option nat -> list fold -> result (tune_out P T).
Notation nt := (length (c_dcols C)).

Lemma dict_get_in {A} l (d : list (string * A)) : In l (map fst d) -> exists v, dict_get l d = Some v.
Proof. induction d as [|[k v] d IH]; cbn; [intros []|]. intros [<-|H]; [rewrite String.eqb_refl; eauto|]. destruct (String.eqb l k); eauto. Qed.

Lemma set_works l d ps w : In l (c_learners C) -> In d (c_dcols C) -> length ps = m_n_rep (w_obj w) -> (forall x, In x ps -> length x = m_n_folds (w_obj w)) ->
  exists w', set_ml_nuisance_params C l d (ParList ps) w = (w', Ok tt).
Proof.
  intros Hl Hd Hn Hf. unfold set_ml_nuisance_params. apply smem_in in Hl, Hd. rewrite andthen_unf, lift_eq, Hl. cbn [require]. rewrite andthen_unf, lift_eq, Hd. cbn [require]. rewrite andthen_unf, lift_eq.
  rewrite Hn, Nat.eqb_refl. cbn [require]. assert (Q : forallb (fun x => Nat.eqb (length x) (m_n_folds (w_obj w))) ps = true). { apply forallb_forall. intros x Hx. apply Nat.eqb_eq, Hf, Hx. }
  rewrite Q. cbn [require]. eexists. reflexivity.
Qed.

Notation body t := (fun r (st : table (tune_out P T) * list (list (string * list P))) =>
          res <- lift (fun w => let! fs := smpls_rep (m_smpls (w_obj w)) r in tn t (Some r) fs) ;;
          tb' <- lift (fun _ => table_set r t res (fst st)) ;;
          ret (P := P) (tb', snd st ++ [to_params res])).
Lemma inner_works t sm nm w K : m_smpls (w_obj w) = Some sm -> (t < nt)%nat ->
  (forall r fs, nth_error sm r = Some fs -> exists res, tn t (Some r) fs = Ok res /\ map fst (to_params res) = nm /\ per_fold K res) ->
  forall k a row ps, (a + k = length sm)%nat -> length sm = nt -> length row = nt ->
  exists row' (ress : list (tune_out P T)), for_acc (seq a k) (body t) (shared row nt, ps) w = (w, Ok (shared row' nt, ps ++ map to_params ress)) /\ length row' = nt /\ length ress = k /\
    forall res, In res ress -> map fst (to_params res) = nm /\ per_fold K res.
Proof.
  intros Es Ht Hr. induction k as [|k IH]; intros a row ps Ha Hs Hrow; cbn [seq for_acc].
  - exists row, []. cbn. rewrite app_nil_r. split; [reflexivity|]. split; [exact Hrow|]. split; [reflexivity|intros res []].
  - destruct (nth_error sm a) as [fs|] eqn:Ea; [|apply nth_error_None in Ea; lia]. destruct (Hr a fs Ea) as (res & R1 & R2 & R3).
    destruct (IH (S a) (set_nth t (Some res) row) (ps ++ [to_params res])%list) as (row' & ress & F & Q1 & Q2 & Q3); [lia|exact Hs|rewrite L_FwConcat.set_nth_length; exact Hrow|].
    exists row', (res :: ress). split; [|split; [exact Q1|split; [cbn; lia|intros q [<-|Hq]; auto]]].
    rewrite andthen_unf. rewrite andthen_unf. rewrite lift_eq. unfold smpls_rep at 1. rewrite Es, Ea. cbn [bind]. rewrite R1. rewrite andthen_unf, lift_eq. cbn [fst snd]. rewrite shared_set.
    assert (L1 : Nat.ltb a nt = true) by (apply Nat.ltb_lt; lia). assert (L2 : Nat.ltb t (length row) = true) by (apply Nat.ltb_lt; lia). rewrite L1, L2. cbn [andb]. cbv beta iota. unfold ret at 1. rewrite F. cbn [map].
    rewrite <- app_assoc. reflexivity.
Qed.
Lemma collect_works l nm (ress : list (tune_out P T)) K : In l nm -> (forall res, In res ress -> map fst (to_params res) = nm /\ per_fold K res) ->
  exists ps, collect_params l (map to_params ress) = Ok ps /\ length ps = length ress /\ forall x, In x ps -> length x = K.
Proof.
  intro Hl. induction ress as [|res ress IH]; intro H; [exists []; split; [reflexivity|]; split; [reflexivity|intros x []]|].
  destruct (H res (or_introl eq_refl)) as (A & B). rewrite <- A in Hl. destruct (dict_get_in l _ Hl) as (v & V). rewrite A in Hl. destruct IH as (ps & Q1 & Q2 & Q3); [intros; apply H; right; assumption|].
  exists (v :: ps). unfold collect_params in *. cbn [map map_res]. rewrite V. cbn [bind]. rewrite Q1. cbn [bind]. split; [reflexivity|]. split; [cbn; lia|]. intros x [<-|Hx]; [eapply B; exact V|auto].
Qed.
Lemma set_loop_works d (f : string -> result (list (list P))) : In d (c_dcols C) -> forall ls w, incl ls (c_learners C) ->
  (forall l, In l ls -> exists ps, f l = Ok ps /\ length ps = m_n_rep (w_obj w) /\ forall x, In x ps -> length x = m_n_folds (w_obj w)) ->
  exists w', for_ ls (fun l => ps <- lift (fun _ => f l) ;; set_ml_nuisance_params C l d (ParList ps)) w = (w', Ok tt).
Proof.
  intro Hd. induction ls as [|l ls IH]; intros w Hl H; cbn [for_]; [eexists; reflexivity|]. destruct (H l (or_introl eq_refl)) as (ps & F & A & B).
  destruct (set_works l d ps w) as (w1 & S1); [apply Hl; left; reflexivity|exact Hd|exact A|exact B|]. assert (O : only_params w w1). { pose proof (set_any C l d (ParList ps) w) as Q. rewrite S1 in Q. exact Q. }
  destruct (only_fields _ _ O) as (_ & F2 & F3). destruct (IH w1) as (w2 & S2); [intros k Hk; apply Hl; right; exact Hk|rewrite F2, F3; intros; apply H; right; assumption|].
  exists w2. rewrite andthen_unf. rewrite andthen_unf. rewrite lift_eq, F, S1. exact S2.
Qed.
Lemma folds_work sp t row w : tuner_returns C tn w -> (t < nt)%nat -> (exists sm, m_smpls (w_obj w) = Some sm /\ length sm = m_n_rep (w_obj w)) -> (0 < m_n_rep (w_obj w))%nat -> m_n_rep (w_obj w) = nt -> length row = nt ->
  exists w' row', tune_folds C tn sp t (shared row nt) w = (w', Ok (shared row' nt)) /\ length row' = nt.
Proof.
  intros Tr Ht (sm & Es & El) H0 Hn Hrow. destruct (Tr t sm Ht Es) as (nm & Hi & Hr).
  destruct (inner_works t sm nm w (m_n_folds (w_obj w)) Es Ht Hr (m_n_rep (w_obj w)) 0 row []) as (row' & ress & F & Q1 & Q2 & Q3); [lia|lia|exact Hrow|].
  unfold tune_folds. rewrite andthen_unf, lift_eq. rewrite andthen_unf, F. cbn [app fst snd]. rewrite andthen_unf. destruct sp.
  - destruct ress as [|p0 ress]; [cbn in Q2; lia|]. cbn [map]. destruct (Q3 p0 (or_introl eq_refl)) as (En & _). rewrite En.
    destruct (set_loop_works (treat_name C t) (fun l => collect_params l (map to_params (p0 :: ress)))) with (ls := nm) (w := w) as (w' & S1).
    + unfold treat_name. apply nth_In, Ht.
    + exact Hi.
    + intros l Hl. destruct (collect_works l nm (p0 :: ress) _ Hl Q3) as (ps & A & B & D). exists ps. split; [exact A|]. split; [rewrite B; exact Q2|exact D].
    + exists w', row'. cbn [map] in S1. rewrite S1. split; [reflexivity|exact Q1].
  - exists w, row'. split; [reflexivity|exact Q1].
Qed.
Lemma returns_only w w' : only_params w w' -> tuner_returns C tn w -> tuner_returns C tn w'.
Proof. intros O H. destruct (only_fields _ _ O) as (A & B & D). intros t sm Ht Es. rewrite A in Es. destruct (H t sm Ht Es) as (nm & Q1 & Q2). exists nm. rewrite D. auto. Qed.
Lemma outer_works sp : forall k a row w, tuner_returns C tn w -> (exists sm, m_smpls (w_obj w) = Some sm /\ length sm = m_n_rep (w_obj w)) -> (0 < m_n_rep (w_obj w))%nat -> m_n_rep (w_obj w) = nt -> length row = nt -> (a + k <= nt)%nat ->
  exists w' row', for_acc (seq a k) (tune_folds C tn sp) (shared row nt) w = (w', Ok (shared row' nt)).
Proof.
  induction k as [|k IH]; intros a row w Tr Sm H0 Hn Hrow Ha; cbn [seq for_acc]; [do 2 eexists; reflexivity|].
  destruct (folds_work sp a row w Tr ltac:(lia) Sm H0 Hn Hrow) as (w1 & row1 & F & L1). assert (O : only_params w w1) by (apply folds_ok in F; apply F).
  destruct (only_fields _ _ O) as (A & B & D). destruct (IH (S a) row1 w1) as (w2 & row2 & F2); [eapply returns_only; eassumption|rewrite A, B; exact Sm|now rewrite B|now rewrite B|exact L1|lia|].
  exists w2, row2. rewrite andthen_unf, F. exact F2.
Qed.
Lemma tune_folds_success a w : documented_call names a -> is_true (ta_on_folds a) = true -> reachable C w -> (exists sm, m_smpls (w_obj w) = Some sm) -> tuner_returns C tn w -> m_n_rep (w_obj w) = nt ->
  exists w' x, tune C names tn a w = (w', Ok x).
Proof.
  intros Hd Hf Hr (sm & Es) Tr Hn. apply reachable_wf in Hr. apply checked_iff in Hd. unfold tune. rewrite andthen_unf, lift_eq, Hd. rewrite andthen_unf, lift_eq, Hf. rewrite andthen_unf, alias_shared.
  destruct (outer_works (is_true (ta_set a)) nt 0 (repeat None (m_n_rep (w_obj w))) w) as (w' & row' & F); [exact Tr|exists sm; split; [exact Es|apply (wf_smpls _ _ Hr), Es]|apply (wf_rep _ _ Hr)|exact Hn|rewrite repeat_length; exact Hn|lia|].
  rewrite F. do 2 eexists. reflexivity.
Qed.
Lemma tune_folds_iff a w : documented_call names a -> is_true (ta_on_folds a) = true -> reachable C w -> c_dcols C <> [] -> (exists sm, m_smpls (w_obj w) = Some sm) -> tuner_returns C tn w ->
  ((exists w' x, tune C names tn a w = (w', Ok x)) <-> m_n_rep (w_obj w) = nt).
Proof.
  intros Hd Hf Hr Hne Hs Tr. split; [|intro Hn; apply tune_folds_success; assumption]. intros (w' & x & F). destruct (Nat.eq_dec (m_n_rep (w_obj w)) nt) as [Q|Q]; [exact Q|].
  exfalso. apply (unequal_fails C names tn a w Hf Hne) with (w' := w') (x := x); [apply (wf_rep _ _ (reachable_wf _ _ Hr))|exact Q|exact F].
Qed.
End Obj.

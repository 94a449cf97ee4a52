(** Specifications for the multi-level wrappers. *)
From Verif Require Export M_Multi S_Framework.
Local Open Scope R_scope.

Section W.
Context {K : Type}.
Variable fit_sub : nat -> K -> list (list fold) -> result (framework * sens4).
(** All sub-models hold split [s]. *)
Definition on_split (ms : list (@sub K)) (s : list (list fold)) : Prop := forall m, In m ms -> sb_smpls m = s.
(** The wrapper reports split [s] (attribute smpls), has one sub-model per key,
    all on that split. *)
Definition consistent_split (keys : list K) (w : @wrapper K) : Prop :=
  forall ms, wr_models w = Some ms -> map sb_key ms = keys /\ exists s, wr_smpls w = Some s /\ on_split ms s.
(** Every sub-model's result comes from a fit on split [s], and the wrapper's
    estimates are the combination of these results. *)
Definition estimated_on (combine : list framework -> result framework) (keys : list K) (w : @wrapper K) (s : list (list fold)) : Prop :=
  exists ms res h, wr_models w = Some ms /\ map sb_key ms = keys /\ map sb_res ms = map Some res /\
    Forall2 (fun k r => exists t, fit_sub t k s = Ok r) keys res /\ combine (map fst res) = Ok h /\ wr_fw w = Some h.
End W.
Definition no_draw (ops : list wop) : Prop := ~ In WDraw ops.

(** Exactly one contrast for each unordered pair of a level and another
    reference level, no self-contrast. *)
Definition one_per_pair (levels refs : list Z) (pairs : list (Z * Z)) : Prop :=
  NoDup pairs /\
  (forall a b, In (a, b) pairs -> In a levels /\ In b refs /\ a <> b) /\
  (forall a b, In a levels -> In b refs -> a <> b ->
     (In (a, b) pairs \/ In (b, a) pairs) /\ ~ (In (a, b) pairs /\ In (b, a) pairs)).
(** Fitted one-parameter models on one sample. *)
Definition level_models (n nr : nat) (fs : list framework) : Prop :=
  forall f, In f fs -> fw_wf f /\ fw_n_obs f = n /\ fw_n_rep f = nr /\ fw_n_thetas f = 1%nat /\ fw_cluster f = None /\ at_ (fw_vs f) [0%nat] = INR n.
Definition nonneg_sens (nr : nat) (s : sens4) : Prop := forall r, (r < nr)%nat -> 0 <= s4_sigma2 s r /\ 0 <= s4_nu2 s r.
(** Maximal bias of one repetition of a model, of the difference framework
    before (sum of both) and after the replacement. *)
Definition bias_of (s : sens4) (r : nat) : R := sqrt (s4_sigma2 s r * s4_nu2 s r).
Definition contrast_bias (s : sens_in) (r : nat) : R := match si_max_bias s with Val a => at_ a [0%nat; 0%nat; r] | _ => 0 end.
Definition maxbias (f : framework) (t r : nat) : R := match fw_sens f with Some s => at_ (se_max_bias s) [0%nat; t; r] | None => 0 end.
(** A model's framework carries the bias bound of its own sensitivity elements. *)
Definition carries_bias (n nr : nat) (f : framework) (s : sens4) : Prop :=
  fw_sens f <> None /\ forall r, (r < nr)%nat -> maxbias f 0 r = bias_of s r.
(** What [causal_contrast] is to report: names "a vs b" and estimates, scores and
    standard errors of the differences, in the order of [pairs]. *)
Definition reports_differences (show : Z -> string) (levels : list Z) (models : list (framework * sens4)) (pairs : list (Z * Z)) (h : framework) : Prop :=
  fw_n_thetas h = length pairs /\
  fw_names h = Some (map (fun p => (show (fst p) ++ " vs " ++ show (snd p))%string) pairs) /\
  forall k a b i j f sf g sg, nth_error pairs k = Some (a, b) ->
    nth_error levels i = Some a -> nth_error models i = Some (f, sf) ->
    nth_error levels j = Some b -> nth_error models j = Some (g, sg) ->
    (forall r, at_ (fw_all_thetas h) [k; r] = at_ (fw_all_thetas f) [0%nat; r] - at_ (fw_all_thetas g) [0%nat; r]) /\
    (forall i r, at_ (fw_scaled_psi h) [i; k; r] = at_ (fw_scaled_psi f) [i; 0%nat; r] - at_ (fw_scaled_psi g) [i; 0%nat; r]).
(** The order in which the quantile-effect model's sub-models are combined:
    control and treated of each quantile. *)
Fixpoint interleave {A} (l : list (A * A)) : list A := match l with [] => [] | (a, b) :: r => a :: b :: interleave r end.
(** Influence component of row [o] on the maximal bias. *)
Definition psi_maxbias (f : framework) (o t r : nat) : R := match fw_sens f with Some s => at_ (se_psi_max_bias s) [o; t; r] | None => 0 end.
(** Sensitivity parameters of a contrast: average residual variance, sum of the
    representers' second moments. *)
Definition contrast_sigma2 (a b : sens4) (r : nat) : R := (s4_sigma2 a r + s4_sigma2 b r) / 2.
Definition contrast_nu2 (a b : sens4) (r : nat) : R := s4_nu2 a r + s4_nu2 b r.

(** Specifications for the effect heterogeneity methods of fitted objects. *)
From Verif Require Export M_Cate S_Blp.
Local Open Scope R_scope.

(** What is assumed of the regression routine. *)
Definition least_squares_routine (ols : ols_fun) : Prop := forall n p B y, hc0 n p B y (ols n p B y).
(** Calls that may come between a fit and the methods: anything but a new fit
    and the assignment of another partition. *)
Definition keeps_results {P : Type} (o : op P) : Prop := match o with ODraw _ _ | OParams _ _ _ | OBoot _ _ _ | OSens _ _ _ _ _ _ _ => True | _ => False end.

(** Rows of a group and the mean over them. *)
Definition members (n : nat) (c : nat -> bool) : list nat := filter c (seq 0 n).
Definition mean_over (n : nat) (c : nat -> bool) (v : vec) : R := Rmean (map v (members n c)).
(** Indicator columns of a frame: no row in two groups, no empty group. *)
Definition separate_groups (n : nat) (cols : list (string * (nat -> bool))) : Prop :=
  (forall j k a b i, nth_error cols j = Some a -> nth_error cols k = Some b -> (i < n)%nat -> snd a i = true -> snd b i = true -> j = k) /\
  (forall a, In a cols -> members n (snd a) <> []).
Definition bool_frame (cols : list (string * (nat -> bool))) : list (string * gcol) := map (fun a => (fst a, GBool (snd a))) cols.

(** The result of a call is the least-squares regression of [s] on the columns
    of the basis, each multiplied by [dt], with HC0 covariance. *)
Definition regresses (n : nat) (dt s : vec) (basis : M_Blp.frame) (r : result (option blp)) : Prop :=
  exists m g, r = Ok (Some m) /\ bl_fit m = Some g /\ fr_names (bl_basis m) = fr_names basis /\
    hc0 n (fr_cols basis) (fun i j => fr_at basis i j * dt i) s g.
(** Coefficient and variance of the entry of the given name in the result. *)
Definition has_effect (r : result (option blp)) (name : string) (theta v : R) : Prop :=
  exists m g j, r = Ok (Some m) /\ bl_fit m = Some g /\ nth_error (fr_names (bl_basis m)) j = Some name /\ rg_params g j = theta /\ rg_omega g j j = v.
Definition effect_only (r : result (option blp)) (name : string) (theta : R) : Prop := exists v, has_effect r name theta v.

(** Methods [cate] and [gate] on the signal [s]. *)
Definition group_result (n : nat) (s : vec) (c : nat -> bool) (name : string) (r : result (option blp)) : Prop :=
  has_effect r name (mean_over n c s) (Rsum (map (fun i => (s i - mean_over n c s) ^ 2) (members n c)) / INR (length (members n c)) ^ 2).
Definition signal_methods (n : nat) (s : vec) (cate : M_Blp.frame -> bool -> result (option blp)) (gate : list (string * gcol) -> result (option blp)) : Prop :=
  (forall basis b, NoDup (fr_names basis) -> regresses n (fun _ => 1) s basis (cate basis b)) /\
  (forall cols, cols <> [] -> NoDup (map fst cols) -> separate_groups n cols -> forall a, In a cols -> group_result n s (snd a) (fst a) (gate (bool_frame cols))) /\
  (forall name f v, In v (map f (seq 0 n)) -> group_result n s (fun i => String.eqb (f i) v) ("Group_" ++ v) (gate [(name, GStr f)])).
(** The same for a partially linear model with residuals [dt] of the treatment
    and [yt] of the outcome. *)
Definition ratio_over (n : nat) (c : nat -> bool) (dt yt : vec) : R :=
  Rsum (map (fun i => dt i * yt i) (members n c)) / Rsum (map (fun i => dt i ^ 2) (members n c)).
Definition varies (n : nat) (c : nat -> bool) (dt : vec) : Prop := Rsum (map (fun i => dt i ^ 2) (members n c)) <> 0.
Definition residual_methods (n : nat) (dt yt : vec) (cate : M_Blp.frame -> bool -> result (option blp)) (gate : list (string * gcol) -> result (option blp)) : Prop :=
  (forall basis b, NoDup (fr_names basis) -> regresses n dt yt basis (cate basis b)) /\
  (forall cols, cols <> [] -> NoDup (map fst cols) -> separate_groups n cols -> forall a, In a cols -> varies n (snd a) dt ->
     effect_only (gate (bool_frame cols)) (fst a) (ratio_over n (snd a) dt yt)) /\
  (forall name f v, In v (map f (seq 0 n)) -> varies n (fun i => String.eqb (f i) v) dt ->
     effect_only (gate [(name, GStr f)]) ("Group_" ++ v) (ratio_over n (fun i => String.eqb (f i) v) dt yt)).

(** The policy tree: the learner gets the sign of the signal as label and its
    absolute value as weight. *)
Definition tree_input (n : nat) (s label weight : vec) : Prop :=
  forall i, (i < n)%nat -> weight i = Rabs (s i) /\ (0 < s i -> label i = 1) /\ (s i < 0 -> label i = 0).
Definition tree_method {X : Type} (n : nat) (s : vec) (learn : nat -> vec -> vec -> X -> bool) (tree : pyval -> list string -> result (X -> bool)) : Prop :=
  forall depth features, (1 <= depth)%Z -> NoDup features ->
    ((forall i, (i < n)%nat -> s i <> 0) -> exists label weight, tree_input n s label weight /\ tree (PInt depth) features = Ok (learn (Z.to_nat depth) label weight)) /\
    ((exists i, (i < n)%nat /\ s i = 0) -> tree (PInt depth) features = Err ValueError).

(** Calls that never ask for predictions to be stored. *)
Definition never_stores {P : Type} (o : op P) : Prop := match o with OFit _ store _ _ => store <> PBool true | _ => True end.

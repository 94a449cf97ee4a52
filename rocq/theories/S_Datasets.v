(** What the documentation of the data generators promises, row by row. *)
From Verif Require Export M_Datasets.
From Verif Require S_Data.
Local Open Scope R_scope.
Local Open Scope string_scope.

(** ** The returned value *)
Definition asks_arrays (ret : ret_arg) : Prop := ret = RetArray \/ exists s, ret = RetStr s /\ In s ["array"; "np.ndarray"; "np.array"].
Definition asks_frame (ret : ret_arg) : Prop := ret = RetFrame \/ exists s, ret = RetStr s /\ In s ["DataFrame"; "pd.DataFrame"].
Definition asks_data (ret : ret_arg) : Prop := ret = RetData \/ ret = RetStr "DoubleMLData".
Definition asks_cluster (ret : ret_arg) : Prop := ret = RetClusterData \/ ret = RetStr "DoubleMLClusterData".
(** A data frame with n rows and exactly the given columns, in this order, no name twice. *)
Definition holds (n : nat) (cols : list (string * vec)) (f : M_Data.frame) : Prop :=
  M_Data.frows f = n /\ M_Data.fcols f = map fst cols /\ NoDup (M_Data.fcols f) /\
  forall c v, In (c, v) cols -> forall i, (i < n)%nat -> M_Data.fcell f c i = M_Data.Num (v i).
(** The returned value has the asked type and holds the given arrays or columns; a data object is
    built over the data frame with the given roles. *)
Definition returned (ret : ret_arg) (object : ret_arg -> Prop) (n : nat) (arrays : list (option M_Data.arr))
  (cols : list (string * vec)) (r : M_Data.roles) (o : output) : Prop :=
  (asks_arrays ret -> o = OutArrays arrays) /\
  (asks_frame ret -> exists f, o = OutFrame f /\ holds n cols f) /\
  (object ret -> exists f s, o = OutData f s /\ holds n cols f /\ S_Data.constructed f s /\ M_Data.dd_roles s = r) /\
  (asks_arrays ret \/ asks_frame ret \/ object ret).
(** Columns prefix1, prefix2, … *)
Definition named (prefix : string) (k : nat) (x : mat) : list (string * vec) :=
  map (fun j => (prefix ++ decimal (S j), fun i => x i j)) (seq 0 k).
Definition names (prefix : string) (k : nat) : list string := map (fun j => prefix ++ decimal (S j)) (seq 0 k).

(** ** Documented model equations *)
Definition logistic (v : R) : R := exp v / (1 + exp v).
(** x_i' b *)
Definition inner (k : nat) (x : mat) (b : vec) (i : nat) : R := sumf k (fun j => x i j * b j).
(** v = 1{P} *)
Definition indicator (v : R) (P : Prop) : Prop := (v = 1 /\ P) \/ (v = 0 /\ ~ P).

Definition plr_model (n : nat) (alpha a0 a1 s1 b0 b1 s2 : R) (x : mat) (v zeta y d : vec) : Prop :=
  forall i, (i < n)%nat ->
    d i = a0 * x i 0%nat + a1 * logistic (x i 2%nat) + s1 * v i /\
    y i = alpha * d i + b0 * logistic (x i 0%nat) + b1 * x i 2%nat + s2 * zeta i.
Definition turrell_model (n k : nat) (theta nu gamma : R) (x : mat) (v u y d : vec) : Prop :=
  forall i, (i < n)%nat -> let xb := inner k x (fun j => / INR (S j)) i in
    d i = / (2 * PI) * (sinh gamma / (cosh gamma - cos (xb - nu))) + v i /\ y i = theta * d i + (sin xb)² + u i.
(** c_y and c_d scale the index such that its share of the variance is R2. *)
Definition irm_model (n k : nat) (theta r2_d r2_y : R) (x : mat) (v zeta y d : vec) : Prop :=
  exists cy cd : R,
    let sigma := sumf k (fun j => sumf k (fun l => / INR (S j) ^ 2 * (1 / 2) ^ (Nat.max j l - Nat.min j l) * / INR (S l) ^ 2)) in
    0 <= cy /\ 0 <= cd /\
    cy ^ 2 * sigma / (cy ^ 2 * sigma + 1) = r2_y /\ cd ^ 2 * sigma / (cd ^ 2 * sigma + PI ^ 2 / 3) = r2_d /\
    forall i, (i < n)%nat -> let xb := inner k x (fun j => / INR (S j) ^ 2) i in
      indicator (d i) (logistic (cd * xb) > v i) /\ y i = theta * d i + cy * xb * d i + zeta i.
Definition iivm_model (n k : nat) (theta alpha_x : R) (x : mat) (u v z y d : vec) : Prop :=
  forall i, (i < n)%nat ->
    indicator (d i) (alpha_x * z i + v i > 0) /\ y i = theta * d i + inner k x (fun j => / INR (S j) ^ 2) i + u i.
(** z_i = Pi x_i + xi_i with Pi = (I, 0) *)
Definition pliv_model (n k kz : nat) (alpha : R) (x z : mat) (eps u : vec) (xi : mat) (y d : vec) : Prop :=
  forall i, (i < n)%nat ->
    (forall j, (j < kz)%nat -> z i j = x i j + xi i j) /\
    d i = inner k x (fun j => / INR (S j) ^ 2) i + inner kz z (fun j => / INR (S j) ^ 2) i + u i /\
    y i = alpha * d i + inner k x (fun j => / INR (S j) ^ 2) i + eps i.
(** Row r belongs to cell (ci r, cj r): every cell has exactly one row.  Variables are weighted
    sums of a component of the row, one of its first cluster and one of its second cluster. *)
Definition cells (n m : nat) (ci cj : nat -> nat) : Prop :=
  (forall r, (r < n * m)%nat -> (ci r < n /\ cj r < m)%nat) /\
  (forall i j, (i < n)%nat -> (j < m)%nat -> exists! r, (r < n * m)%nat /\ ci r = i /\ cj r = j).
Definition blend (omega : R * R) (a : cluster_parts R) (r i j : nat) : R :=
  (1 - fst omega - snd omega) * own a r + fst omega * per_i a i + snd omega * per_j a j.
Definition multiway_model (n m k : nat) (theta pi10 : R) (zeta0 pi20 xi0 : vec) (ox oe ov oV : R * R)
  (ax : cluster_parts (nat -> R)) (aeps av aV : cluster_parts R) (ci cj : nat -> nat) (x : mat) (y d z : vec) : Prop :=
  forall r, (r < n * m)%nat ->
    (forall l, x r l = (1 - fst ox - snd ox) * own ax r l + fst ox * per_i ax (ci r) l + snd ox * per_j ax (cj r) l) /\
    z r = inner k x xi0 r + blend oV aV r (ci r) (cj r) /\
    d r = z r * pi10 + inner k x pi20 r + blend ov av r (ci r) (cj r) /\
    y r = d r * theta + inner k x zeta0 r + blend oe aeps r (ci r) (cj r).

(** Z_j is Z~_j minus its sample mean, divided by its sample standard deviation. *)
Definition raw (x : mat) (i j : nat) : R :=
  match j with
  | 0%nat => exp (x i 0%nat / 2)
  | 1%nat => 10 + x i 1%nat / (1 + exp (x i 0%nat))
  | 2%nat => (6 / 10 + x i 0%nat * x i 2%nat / 25) ^ 3
  | 3%nat => (20 + x i 1%nat + x i 3%nat) ^ 2
  | _ => x i j
  end.
Definition spread (n : nat) (v : vec) : R := sqrt (meanf n (fun i => (v i - meanf n v) ^ 2)).
Definition standardised (n : nat) (x z : mat) (j : nat) : Prop :=
  forall i, (i < n)%nat -> z i j = (raw x i j - meanf n (fun i => raw x i j)) / spread n (fun i => raw x i j).
(** The sample has at least two different values of Z~_j. *)
Definition varied (n : nat) (x : mat) (j : nat) : Prop := exists i i', (i < n)%nat /\ (i' < n)%nat /\ raw x i j <> raw x i' j.
Definition regression (w : mat) (i : nat) : R := 210 + 27.4 * w i 0%nat + 13.7 * (w i 1%nat + w i 2%nat + w i 3%nat).
Definition index4 (w : mat) (i : nat) : R := - w i 0%nat + 0.5 * w i 1%nat - 0.25 * w i 2%nat - 0.1 * w i 3%nat.
(** DGP 1 to 6: the features in the regression and in the propensity (None: an experiment). *)
Definition dgp_features (dgp : Z) (x z : mat) : option (mat * option mat) :=
  match dgp with
  | 1%Z => Some (z, Some z) | 2%Z => Some (z, Some x) | 3%Z => Some (x, Some z)
  | 4%Z => Some (x, Some x) | 5%Z => Some (z, None) | 6%Z => Some (x, None) | _ => None end.
(** Potential outcomes y1 d (of arm d in the second period) and y0 (first period), treatment d. *)
Definition did_model (n : nat) (xi : R) (w_reg : mat) (w_ps : option mat) (eps0 : vec) (eps1 : mat) (u nu d y0 : vec) (y1 : nat -> vec) : Prop :=
  forall i, (i < n)%nat ->
    indicator (d i) (match w_ps with None => 1 / 2 | Some w => logistic (xi * index4 w i) end >= u i) /\
    y0 i = regression w_reg i + (d i * regression w_reg i + nu i) + eps0 i /\
    (forall a, (a < 2)%nat -> y1 a i = 2 * regression w_reg i + (d i * regression w_reg i + nu i) + eps1 i a).
Definition arm_of (d : R) : nat := if Req_EM_T d 1 then 1%nat else 0%nat.

(** The documented equations of the sample selection model (they are refuted) and those with the
    covariates entering additively. *)
Definition ssm_selection (n k : nat) (gamma : R) (x : mat) (z v w d s : vec) : Prop :=
  forall i, (i < n)%nat -> let xb := inner k x (fun j => 0.4 / INR (S j) ^ 2) i in
    indicator (d i) (xb + w i > 0) /\ indicator (s i) (d i + gamma * z i + xb + v i > 0).
Definition ssm_documented (n k : nat) (theta : R) (x : mat) (u d s y : vec) : Prop :=
  forall i, (i < n)%nat -> s i = 1 -> y i = theta * d i + inner k x (fun j => 0.4 / INR (S j) ^ 2) i * d i + u i.
Definition ssm_additive (n k : nat) (theta : R) (x : mat) (u d s y : vec) : Prop :=
  forall i, (i < n)%nat -> y i = s i * (theta * d i + inner k x (fun j => 0.4 / INR (S j) ^ 2) i + u i).

(** y = theta_0(x) d + <x, gamma_0> + eps, d = <x, beta_0> + eta or 1{<x, beta_0> >= eta}; coefficients
    are 0 outside the support. *)
Definition sparse (support : list nat) (coefs : list R) (beta : vec) : Prop :=
  (forall k, (k < length support)%nat -> beta (nth k support 0%nat) = nth k coefs 0) /\ (forall j, ~ In j support -> beta j = 0).
Definition effect_1 (v : nat -> R) : R := exp (2 * v 0%nat) + 3 * sin (4 * v 0%nat).
Definition effect_2 (v : nat -> R) : R := exp (2 * v 0%nat) + 3 * sin (4 * v 1%nat).
Definition heterogeneous_model (n p : nat) (binary : bool) (theta0 : (nat -> R) -> R) (gamma0 beta0 : vec) (eps eta : vec) (x : mat) (y d : vec) : Prop :=
  forall i, (i < n)%nat ->
    (if binary then indicator (d i) (inner p x beta0 i >= eta i) else d i = inner p x beta0 i + eta i) /\
    y i = theta0 (x i) * d i + inner p x gamma0 i + eps i.

(** Confounded data. *)
Definition regression_c (w : mat) (i : nat) : R := 2.5 + 0.74 * w i 0%nat + 0.25 * w i 1%nat + 0.137 * (w i 2%nat + w i 3%nat).
Definition propensity_c (w : mat) (i : nat) : R := logistic (0.75 * (- w i 0%nat + 0.1 * w i 1%nat - 0.25 * w i 2%nat - 0.1 * w i 3%nat)).
(** all m(X, A) = p + gamma_a a lie within the bounds *)
Definition within (n : nat) (thr gamma_a : R) (p a : vec) : Prop := forall i, (i < n)%nat -> thr <= p i + gamma_a * a i <= 1 - thr.
Definition corr_free (n : nat) (u v : vec) : Prop := meanf n (fun i => u i * v i) = 0.

(** The treatment effect of several levels as documented and as computed. *)
Definition documented_effect (d : R) : R := 0.1 * exp d + 10 * sin (0.7 * d) + 2 * d - 0.2 * d ^ 2.
Definition computed_effect (d : R) : R := 15 / (1 + exp (- (d + 1.2 * cos d))) - 2.

(** Regression discontinuity. *)
Definition rdd_model (n k p : nat) (tau a : R) (score : vec) (x : mat) (e0 e1 y0 y1 : vec) : Prop :=
  forall i, (i < n)%nat ->
    let g_cov := if (p =? 0)%nat then 0 else sumf k (fun j => sumf (S p) (fun q => INR q * x i j ^ q)) in
    y0 i = 0.1 * score i ^ 2 + g_cov + e0 i /\
    y1 i = tau + 0.1 * score i ^ 2 - 0.5 * score i ^ 2 + a * sumf k (x i) * score i + g_cov + e1 i.

(** A sample whose moments are those of the documented distribution: the index m, the confounder a and
    the errors have mean 0 and are uncorrelated, a has variance 1/3. *)
Definition population_like (n : nat) (m a eps_d eps_y : vec) : Prop :=
  meanf n a = 0 /\ meanf n eps_d = 0 /\ meanf n (fun i => a i ^ 2) = 1 / 3 /\
  corr_free n m a /\ corr_free n m eps_d /\ corr_free n a eps_d /\ corr_free n eps_y m /\ corr_free n eps_y a /\ corr_free n eps_y eps_d.
(** Number of rows of l that satisfy p. *)
Definition count_true (p : nat -> bool) (l : list nat) : nat := length (filter p l).

(** ** Columns, roles and arrays of the returned values *)
Definition cols_xyd (k : nat) (x : mat) (y d : vec) : list (string * vec) := (named "X" k x ++ [("y", y); ("d", d)])%list.
Definition roles_xyd (k : nat) : M_Data.roles := M_Data.mk_roles "y" ["d"] (names "X" k) None None None None.
Definition cols_xydz (k : nat) (x : mat) (y d z : vec) : list (string * vec) := (named "X" k x ++ [("y", y); ("d", d); ("z", z)])%list.
Definition roles_xydz (k : nat) : M_Data.roles := M_Data.mk_roles "y" ["d"] (names "X" k) (Some ["z"]) None None None.
Definition arrays_xyd (n k : nat) (x : mat) (y d : vec) : list (option M_Data.arr) := [Some (matrix n k x); Some (column n y); Some (column n d)].
Definition cols_pliv (k kz : nat) (x z : mat) (y d : vec) : list (string * vec) := (named "X" k x ++ [("y", y); ("d", d)] ++ named "Z" kz z)%list.
Definition roles_pliv (k kz : nat) : M_Data.roles := M_Data.mk_roles "y" ["d"] (names "X" k) (Some (names "Z" kz)) None None None.
Definition cols_ssm (k : nat) (mar : bool) (x : mat) (y d z s : vec) : list (string * vec) :=
  (named "X" k x ++ [("y", y); ("d", d)] ++ (if mar then [] else [("z", z)]) ++ [("s", s)])%list.
Definition roles_ssm (k : nat) (mar : bool) : M_Data.roles := M_Data.mk_roles "y" ["d"] (names "X" k) (if mar then None else Some ["z"]) None (Some "s") None.
Definition cols_multi (k : nat) (ci cj : vec) (x : mat) (y d z : vec) : list (string * vec) :=
  ([("cluster_var_i", ci); ("cluster_var_j", cj)] ++ named "X" k x ++ [("Y", y); ("D", d); ("Z", z)])%list.
Definition roles_multi (k : nat) : M_Data.roles :=
  M_Data.mk_roles "Y" ["D"] (names "X" k) (Some ["Z"]) None None (Some ["cluster_var_i"; "cluster_var_j"]).
Definition arrays_multi (n k : nat) (x : mat) (y d : vec) (ci cj : vec) (z : vec) : list (option M_Data.arr) :=
  [Some (matrix n k x); Some (column n y); Some (column n d); Some (matrix n 2 (fun r l => match l with 0%nat => ci r | _ => cj r end)); Some (column n z)].
Definition cols_did (z : mat) (y d : vec) : list (string * vec) := (named "Z" 4 z ++ [("y", y); ("d", d)])%list.
Definition roles_did : M_Data.roles := M_Data.mk_roles "y" ["d"] (names "Z" 4) None None None None.
Definition cols_cs (z : mat) (y d t : vec) : list (string * vec) := (named "Z" 4 z ++ [("y", y); ("d", d); ("t", t)])%list.
Definition roles_cs : M_Data.roles := M_Data.mk_roles "y" ["d"] (names "Z" 4) None (Some "t") None None.
(** Panel data hold the difference of the two periods (and the array return a fourth entry None),
    cross-sectional data one of them and the time dummy. *)
Definition did_outcome (n : nat) (cross : bool) (lambda_t : option R) (ret : ret_arg) (u_t : vec) (o : output) (z : mat) (d y0 : vec) (y1 : nat -> vec) : Prop :=
  if cross then exists t y, returned ret asks_data n [Some (matrix n 4 z); Some (column n y); Some (column n d); Some (column n t)] (cols_cs z y d t) roles_cs o /\
    forall i, (i < n)%nat -> indicator (t i) (u_t i <= kw lambda_t 0.5) /\ y i = t i * y1 (arm_of (d i)) i + (1 - t i) * y0 i
  else exists y, returned ret asks_data n [Some (matrix n 4 z); Some (column n y); Some (column n d); None] (cols_did z y d) roles_did o /\
    forall i, (i < n)%nat -> y i = y1 (arm_of (d i)) i - y0 i.
(** The features: X itself for a linear model, else Z. *)
Definition features (linear : bool) (x z : mat) : mat := if linear then x else z.
(** The boundary between level l and level l + 1. *)
Definition level_bound (n : nat) (r : discrete) (k l : nat) : R := quantile (map (di_cont r) (seq 0 n)) (INR l / INR k).

(** ** Estimates on simulated data *)
(** Error of a partialling-out estimate: [v] and [u] are the true residuals of treatment (or instrument)
    and outcome, [w] the residual in the denominator, [dm], [dw], [dl] the errors of the three predictions. *)
Definition partial_error (n : nat) (alpha : R) (v w u dm dw dl : vec) : R :=
  sumf n (fun i => (v i + dm i) * (u i + dl i - alpha * dw i)) / sumf n (fun i => (v i + dm i) * (w i + dw i)).
(** True nuisance functions. *)
Definition plr_m (a0 a1 : R) (x : mat) : vec := fun i => a0 * x i 0%nat + a1 * logistic (x i 2%nat).
Definition plr_l (alpha a0 a1 b0 b1 : R) (x : mat) : vec := fun i => alpha * plr_m a0 a1 x i + (b0 * logistic (x i 0%nat) + b1 * x i 2%nat).
Definition turrell_m (k : nat) (nu gamma : R) (x : mat) : vec := fun i => / (2 * PI) * (sinh gamma / (cosh gamma - cos (inner k x (fun j => / INR (S j)) i - nu))).
Definition turrell_l (k : nat) (theta nu gamma : R) (x : mat) : vec := fun i => theta * turrell_m k nu gamma x i + (sin (inner k x (fun j => / INR (S j)) i))².
Definition minus_v (a b : vec) : vec := fun i => a i - b i.
Definition times_v (c : R) (a : vec) : vec := fun i => c * a i.
(** Error of the interactive estimate: noise, and errors e0, e1 of the outcome predictions times those of the propensities. *)
Definition interactive_error (n : nat) (d ma zeta e0 e1 : vec) : R :=
  meanf n (fun i => d i / ma i * zeta i - (1 - d i) / (1 - ma i) * zeta i) +
  meanf n (fun i => e1 i * (d i / ma i - 1) - e0 i * ((1 - d i) / (1 - ma i) - 1)).

(** The simulated data sets of doubleml/datasets.py and
    doubleml/rdd/datasets/simple_dgp.py.

    Every call of the random number generator is an argument: a matrix or a vector
    of draws, indexed by row (and column).  The order of the draws, their
    distributions and the covariance matrices handed to the generator are not
    modelled, except where a covariance matrix enters a computed value.  Entries are
    exact reals.  numpy returns NaN (and a warning) for a zero standard deviation or
    a zero variance in a denominator; the model returns a number there, so theorems
    ask for samples that vary.  fetch_401K and fetch_bonus (:18-132), which read
    files from the network, are not modelled. *)
From Verif Require Export BaseR M_Scores M_Quantile.
From Verif Require M_Data.
From Coq Require Import DecimalString.
Local Open Scope R_scope.
Local Open Scope string_scope.

Definition mat := nat -> nat -> R.
(* kwargs.get(name, default) *)
Definition kw (o : option R) (default : R) : R := match o with Some v => v | None => default end.
Definition kw_vec (o : option vec) (default : vec) : vec := match o with Some v => v | None => default end.

(** ** Columns, tables and the argument return_type *)
(* str(n) *)
Definition decimal (n : nat) : string := NilZero.string_of_uint (Nat.to_uint n).
(* [f"{prefix}{i + 1}" for i in np.arange(k)], e.g. :231; [f"{prefix}{i}" for i in range(k)], :1552 *)
Definition numbered (prefix : string) (first k : nat) : list string :=
  map (fun i => prefix ++ decimal (first + i)) (seq 0 k).
(* the columns of a matrix, for np.column_stack *)
Definition block (names : list string) (x : mat) : list (string * vec) :=
  combine names (map (fun j i => x i j) (seq 0 (length names))).
(* pd.DataFrame(np.column_stack(…), columns=…) *)
Definition table (n : nat) (cols : list (string * vec)) : M_Data.frame :=
  M_Data.mk_frame (map fst cols) n
    (fun c i => match find (fun p => String.eqb (fst p) c) cols with
                | Some p => M_Data.Num (snd p i) | None => M_Data.NaN end).
Definition matrix (n k : nat) (x : mat) : M_Data.arr := M_Data.mk_arr n k (fun i j => M_Data.Num (x i j)).
Definition column (n : nat) (v : vec) : M_Data.arr := M_Data.mk_arr n 1 (fun i _ => M_Data.Num (v i)).

(* a str, one of the classes np.ndarray, pd.DataFrame, DoubleMLData, DoubleMLClusterData, or another object *)
Inductive ret_arg := RetStr (s : string) | RetArray | RetFrame | RetData | RetClusterData | RetOther.
(* _array_alias, _data_frame_alias, _dml_data_alias, _dml_cluster_data_alias, :12-15 *)
Definition array_alias (r : ret_arg) : bool :=
  match r with RetStr s => existsb (String.eqb s) ["array"; "np.ndarray"; "np.array"] | RetArray => true | _ => false end.
Definition frame_alias (r : ret_arg) : bool :=
  match r with RetStr s => existsb (String.eqb s) ["DataFrame"; "pd.DataFrame"] | RetFrame => true | _ => false end.
Definition data_alias (r : ret_arg) : bool :=
  match r with RetStr s => String.eqb s "DoubleMLData" | RetData => true | _ => false end.
Definition cluster_alias (r : ret_arg) : bool :=
  match r with RetStr s => String.eqb s "DoubleMLClusterData" | RetClusterData => true | _ => false end.

(* arrays (None among them is Python's None), a data frame, or a data object over a data frame *)
Inductive output :=
| OutArrays (l : list (option M_Data.arr))
| OutFrame (f : M_Data.frame)
| OutData (f : M_Data.frame) (s : M_Data.ddata).

(* the if/elif/else on return_type that ends every generator, e.g. :228-238 *)
Definition deliver (ret : ret_arg) (is_object : ret_arg -> bool) (arrays : list (option M_Data.arr)) (f : M_Data.frame)
  (object : result M_Data.ddata) : result output :=
  if array_alias ret then Ok (OutArrays arrays)
  else if frame_alias ret then Ok (OutFrame f)
  else if is_object ret then bind object (fun s => Ok (OutData f s))
  else Err ValueError.
(* DoubleMLData(data, y, d, x_cols, z_cols, t_col, s_col) with the remaining arguments at their defaults *)
Definition data_object (f : M_Data.frame) (y d : string) (x : list string) (z t s : M_Data.carg) : result M_Data.ddata :=
  M_Data.construct f None (M_Data.CStr y) (M_Data.CStr d) (M_Data.CList x) z t s (M_Data.FBool true) (M_Data.FBool true).
(* DoubleMLClusterData(data, y, d, cluster_cols, x_cols, z_cols) *)
Definition cluster_object (f : M_Data.frame) (y d : string) (cl x : list string) (z : M_Data.carg) : result M_Data.ddata :=
  M_Data.construct f (Some (M_Data.CList cl)) (M_Data.CStr y) (M_Data.CStr d) (M_Data.CList x) z M_Data.CNone M_Data.CNone
    (M_Data.FBool true) (M_Data.FBool true).

(** ** Shared arithmetic *)
(* np.divide(np.exp(x), 1 + np.exp(x)) *)
Definition expit (x : R) : R := exp x / (1 + exp x).
(* 1.0 * condition *)
Definition ge01 (a b : R) : R := b2r (rleb b a).
Definition gt01 (a b : R) : R := b2r (rltb b a).
(* np.dot(x, b), row i, over k columns *)
Definition dot (k : nat) (x : mat) (b : vec) (i : nat) : R := sumf k (fun j => x i j * b j).
(* [1 / k for k in range(1, dim_x + 1)] and [1 / (k**2) …] *)
Definition harmonic (j : nat) : R := 1 / INR (S j).
Definition squares (j : nat) : R := 1 / (INR (S j) ^ 2).
(* toeplitz([np.power(c, k) for k in range(dim_x)]) *)
Definition toeplitz (c : R) : mat := fun j k => c ^ (if (j <=? k)%nat then k - j else j - k).
(* _g, _m, :135-140 *)
Definition g_turrell (x : R) : R := (sin x) ^ 2.
Definition m_turrell (nu gamma x : R) : R := 5 / 10 / PI * sinh gamma / (cosh gamma - cos (x - nu)).
(* np.mean(…, axis=0), np.var, np.std of one column *)
Definition var0 (n : nat) (v : vec) : R := meanf n (fun i => (v i - meanf n v) ^ 2).
Definition standardise (n : nat) (v : vec) : vec := fun i => (v i - meanf n v) / sqrt (var0 n v).
(* z_tilde, :967-972, :1178-1183, :1381-1386, :1767-1772; columns from the fifth on are those of x *)
Definition z_tilde (x : mat) : mat := fun i j =>
  match j with
  | 0%nat => exp (5 / 10 * x i 0%nat)
  | 1%nat => 10 + x i 1%nat / (1 + exp (x i 0%nat))
  | 2%nat => (6 / 10 + x i 0%nat * x i 2%nat / 25) ^ 3
  | 3%nat => (20 + x i 1%nat + x i 3%nat) ^ 2
  | _ => x i j
  end.
(* z, :973, :1184, :1387, :1773 *)
Definition z_of (n : nat) (x : mat) : mat := fun i j => standardise n (fun i => z_tilde x i j) i.
(* f_reg of make_did_SZ2020, make_confounded_plr_data and make_irm_data_discrete_treatments, :949-951, :1414, :1756-1758 *)
Definition f_reg (w : mat) (i : nat) : R :=
  210 + 274 / 10 * w i 0%nat + 137 / 10 * (w i 1%nat + w i 2%nat + w i 3%nat).
(* f_ps and f_treatment, :953-955, :1760-1762; with xi = 1 the m_short of :1401 *)
Definition f_ps (xi : R) (w : mat) (i : nat) : R :=
  xi * (- w i 0%nat + 5 / 10 * w i 1%nat - 25 / 100 * w i 2%nat - 1 / 10 * w i 3%nat).

(** ** Partially linear regression *)
(* make_plr_CCDDHNR2018, :143-238; x[:, 2] raises for fewer than three covariates *)
Definition make_plr (n dim_x : nat) (alpha : R) (a0 a1 s1 b0 b1 s2 : option R) (ret : ret_arg) (x : mat) (v zeta : vec) : result output :=
  require (2 <? dim_x)%nat IndexError (
  let d i := kw a0 1 * x i 0%nat + kw a1 (25 / 100) * expit (x i 2%nat) + kw s1 1 * v i in
  let y i := alpha * d i + kw b0 1 * expit (x i 0%nat) + kw b1 (25 / 100) * x i 2%nat + kw s2 1 * zeta i in
  let xs := numbered "X" 1 dim_x in
  let f := table n (block xs x ++ [("y", y); ("d", d)]) in
  deliver ret data_alias [Some (matrix n dim_x x); Some (column n y); Some (column n d)] f
    (data_object f "y" "d" xs M_Data.CNone M_Data.CNone M_Data.CNone)).

(* make_plr_turrell2018, :241-327 *)
Definition make_turrell (n dim_x : nat) (theta : R) (nu gamma : option R) (ret : ret_arg) (x : mat) (v u : vec) : result output :=
  let index := dot dim_x x harmonic in
  let d i := m_turrell (kw nu 0) (kw gamma 1) (index i) + v i in
  let y i := theta * d i + g_turrell (index i) + u i in
  let xs := numbered "X" 1 dim_x in
  let f := table n (block xs x ++ [("y", y); ("d", d)]) in
  deliver ret data_alias [Some (matrix n dim_x x); Some (column n y); Some (column n d)] f
    (data_object f "y" "d" xs M_Data.CNone M_Data.CNone M_Data.CNone).

(** ** Interactive regression *)
(* b_sigma_b, c_y, c_d, :400-403 *)
Definition b_sigma_b (k : nat) : R := sumf k (fun j => sumf k (fun l => toeplitz (5 / 10) j l * squares l) * squares j).
Definition c_y (k : nat) (r2 : R) : R := sqrt (r2 / ((1 - r2) * b_sigma_b k)).
Definition c_d (k : nat) (r2 : R) : R := sqrt (PI ^ 2 / 3 * r2 / ((1 - r2) * b_sigma_b k)).
(* make_irm_data, :330-420 *)
Definition make_irm (n dim_x : nat) (theta r2_d r2_y : R) (ret : ret_arg) (x : mat) (v zeta : vec) : result output :=
  let d i := gt01 (expit (dot dim_x x (fun j => squares j * c_d dim_x r2_d) i)) (v i) in
  let y i := d i * theta + d i * dot dim_x x (fun j => squares j * c_y dim_x r2_y) i + zeta i in
  let xs := numbered "X" 1 dim_x in
  let f := table n (block xs x ++ [("y", y); ("d", d)]) in
  deliver ret data_alias [Some (matrix n dim_x x); Some (column n y); Some (column n d)] f
    (data_object f "y" "d" xs M_Data.CNone M_Data.CNone M_Data.CNone).

(* make_iivm_data, :423-513; z is a draw of 0 or 1 *)
Definition make_iivm (n dim_x : nat) (theta alpha_x : R) (ret : ret_arg) (x : mat) (u v z : vec) : result output :=
  let d i := gt01 (alpha_x * z i + v i) 0 in
  let y i := d i * theta + dot dim_x x squares i + u i in
  let xs := numbered "X" 1 dim_x in
  let f := table n (block xs x ++ [("y", y); ("d", d); ("z", z)]) in
  deliver ret data_alias [Some (matrix n dim_x x); Some (column n y); Some (column n d); Some (column n z)] f
    (data_object f "y" "d" xs (M_Data.CStr "z") M_Data.CNone M_Data.CNone).

(** ** Instrumental variables *)
(* make_pliv_CHS2015, :564-663; I_z and zeros side by side, :646 *)
Definition pi_chs (dim_z : nat) : mat := fun k j => if (j <? dim_z)%nat then (if (k =? j)%nat then 1 else 0) else 0.
Definition make_pliv (n : nat) (alpha : R) (dim_x dim_z : nat) (ret : ret_arg) (x : mat) (eps u : vec) (xi : mat) : result output :=
  require (dim_z <=? dim_x)%nat AssertionError (
  let z i k := dot dim_x x (pi_chs dim_z k) i + xi i k in
  let d i := dot dim_x x squares i + dot dim_z z squares i + u i in
  let y i := alpha * d i + dot dim_x x squares i + eps i in
  let xs := numbered "X" 1 dim_x in
  let zs := numbered "Z" 1 dim_z in
  let f := table n (block xs x ++ [("y", y); ("d", d)] ++ block zs z) in
  deliver ret data_alias [Some (matrix n dim_x x); Some (column n y); Some (column n d); Some (matrix n dim_z z)] f
    (data_object f "y" "d" xs (M_Data.CList zs) M_Data.CNone M_Data.CNone)).

(* np.repeat(v, m) and np.tile(v, n) for a vector with k entries; pd.MultiIndex.from_product, :844 *)
Definition np_repeat {A} (v : nat -> A) (k m : nat) : list A := flat_map (fun i => repeat (v i) m) (seq 0 k).
Definition np_tile {A} (v : nat -> A) (k n : nat) : list A := concat (repeat (map v (seq 0 k)) n).
Definition from_product (n m : nat) : list (nat * nat) := flat_map (fun i => map (fun j => (i, j)) (seq 0 m)) (seq 0 n).
(* (1 - omega[0] - omega[1]) * own + omega[0] * first + omega[1] * second, :829-837 *)
Definition mix (omega : R * R) (own first second : R) : R := (1 - fst omega - snd omega) * own + fst omega * first + snd omega * second.
Definition kw_pair (o : option (R * R)) : R * R := match o with Some p => p | None => (25 / 100, 25 / 100) end.
(* np.power(0.5, xx), :746-749 *)
Definition halves (j : nat) : R := (5 / 10) ^ (S j).
(* one set of draws with an own, a first and a second cluster component *)
Record cluster_parts (A : Type) := { own : nat -> A; per_i : nat -> A; per_j : nat -> A }.
Arguments own {A} _ _. Arguments per_i {A} _ _. Arguments per_j {A} _ _.
(* make_pliv_multiway_cluster_CKMS2021, :666-856; the s_X and s_epsilon_v of the covariances are not used otherwise *)
Definition make_multiway (n m dim_x : nat) (theta : R) (pi10 : option R) (zeta0 pi20 xi0 : option vec)
  (omega_x omega_eps omega_v omega_V : option (R * R)) (ret : ret_arg)
  (ax : cluster_parts (nat -> R)) (aeps av aV : cluster_parts R) : result output :=
  let spread (omega : option (R * R)) (a : cluster_parts R) (r : nat) :=
    mix (kw_pair omega) (own a r) (nth r (np_repeat (per_i a) n m) 0) (nth r (np_tile (per_j a) m n) 0) in
  let x r j := mix (kw_pair omega_x) (own ax r j) (nth r (np_repeat (per_i ax) n m) (fun _ => 0) j)
                 (nth r (np_tile (per_j ax) m n) (fun _ => 0) j) in
  let z r := dot dim_x x (kw_vec xi0 halves) r + spread omega_V aV r in
  let d r := z r * kw pi10 1 + dot dim_x x (kw_vec pi20 halves) r + spread omega_v av r in
  let y r := d r * theta + dot dim_x x (kw_vec zeta0 halves) r + spread omega_eps aeps r in
  let ci r := INR (fst (nth r (from_product n m) (0%nat, 0%nat))) in
  let cj r := INR (snd (nth r (from_product n m) (0%nat, 0%nat))) in
  let cl := ["cluster_var_i"; "cluster_var_j"] in
  let xs := numbered "X" 1 dim_x in
  let f := table (n * m) ([("cluster_var_i", ci); ("cluster_var_j", cj)] ++ block xs x ++ [("Y", y); ("D", d); ("Z", z)]) in
  deliver ret cluster_alias
    [Some (matrix (n * m) dim_x x); Some (column (n * m) y); Some (column (n * m) d);
     Some (matrix (n * m) 2 (fun r k => match k with 0%nat => ci r | _ => cj r end)); Some (column (n * m) z)] f
    (cluster_object f "Y" "D" cl xs (M_Data.CStr "Z")).

(** ** Difference in differences *)
(* dgp_type == 1 … 6, :979-998: the features of the propensity (None: experiment) and of the regression *)
Definition did_features (dgp : Z) (x z : mat) : result (option mat * mat) :=
  if (dgp =? 1)%Z then Ok (Some z, z)
  else if (dgp =? 2)%Z then Ok (Some x, z)
  else if (dgp =? 3)%Z then Ok (Some z, x)
  else if (dgp =? 4)%Z then Ok (Some x, x)
  else if (dgp =? 5)%Z then Ok (None, z)
  else if (dgp =? 6)%Z then Ok (None, x)
  else Err ValueError.
(* make_did_SZ2020, :859-1047; nu is drawn as its mean d * f_reg plus the draw [nu] with mean 0 *)
Definition make_did (n : nat) (dgp : Z) (cross : bool) (xi lambda_t : option R) (ret : ret_arg)
  (x : mat) (eps0 : vec) (eps1 : mat) (u nu u_t : vec) : result output :=
  let z := z_of n x in
  bind (did_features dgp x z) (fun fs =>
  let p i := match fst fs with None => 5 / 10 | Some w => expit (f_ps (kw xi (75 / 100)) w i) end in
  let d i := ge01 (p i) (u i) in
  let reg := f_reg (snd fs) in
  let common i := d i * reg i + nu i in
  let y0 i := reg i + common i + eps0 i in
  let y1_d0 i := 2 * reg i + common i + eps1 i 0%nat in
  let y1_d1 i := 2 * reg i + common i + eps1 i 1%nat in
  let y1 i := d i * y1_d1 i + (1 - d i) * y1_d0 i in
  let zs := numbered "Z" 1 4 in
  if cross then
    let t i := ge01 (kw lambda_t (5 / 10)) (u_t i) in
    let y i := t i * y1 i + (1 - t i) * y0 i in
    let f := table n (block zs z ++ [("y", y); ("d", d); ("t", t)]) in
    deliver ret data_alias [Some (matrix n 4 z); Some (column n y); Some (column n d); Some (column n t)] f
      (data_object f "y" "d" zs M_Data.CNone (M_Data.CStr "t") M_Data.CNone)
  else
    let y i := y1 i - y0 i in
    let f := table n (block zs z ++ [("y", y); ("d", d)]) in
    deliver ret data_alias [Some (matrix n 4 z); Some (column n y); Some (column n d); None] f
      (data_object f "y" "d" zs M_Data.CNone M_Data.CNone M_Data.CNone)).

(** ** Sample selection *)
(* [0.4 / (k**2) …], :1624 *)
Definition ssm_beta (j : nat) : R := 4 / 10 / (INR (S j) ^ 2).
(* make_ssm_data, :1559-1648; e0, e1 are the rows of e, w the draw of :1626 *)
Definition make_ssm (n dim_x : nat) (theta : R) (mar : bool) (ret : ret_arg) (x : mat) (e0 e1 w z : vec) : result output :=
  let gamma := if mar then 0 else 1 in
  let d i := gt01 (dot dim_x x ssm_beta i + w i) 0 in
  let s i := gt01 (dot dim_x x ssm_beta i + d i + gamma * z i + e0 i) 0 in
  let y i := if reqb (s i) 0 then 0 else dot dim_x x ssm_beta i + theta * d i + e1 i in
  let xs := numbered "X" 1 dim_x in
  let f := table n (block xs x ++ [("y", y); ("d", d)] ++ (if mar then [] else [("z", z)]) ++ [("s", s)]) in
  deliver ret data_alias [Some (matrix n dim_x x); Some (column n y); Some (column n d); Some (column n z); Some (column n s)] f
    (data_object f "y" "d" xs (if mar then M_Data.CNone else M_Data.CStr "z") M_Data.CNone (M_Data.CStr "s")).

(** ** Heterogeneous effects *)
(* make_heterogeneous_data, :1447-1556; [support] is the draw of np.random.choice, shared by both equations;
   the returned treatment_effect is the function [te_fun] on rows *)
Record het := { h_data : M_Data.frame; h_effects : vec; h_effect : (nat -> R) -> R }.
Definition te_fun (n_x : Z) (v : nat -> R) : R :=
  exp (2 * v 0%nat) + 3 * sin (4 * (if (n_x =? 1)%Z then v 0%nat else v 1%nat)).
Definition sparse_dot (support : list nat) (coefs : list R) (x : mat) (i : nat) : R :=
  Rsum (map (fun sc => x i (fst sc) * snd sc) (combine support coefs)).
Definition make_heterogeneous (n p support_size : nat) (n_x : Z) (binary : pyval)
  (support : list nat) (coefs_y coefs_d : list R) (eps eta : vec) (x : mat) : result het :=
  require ((n_x =? 1) || (n_x =? 2))%Z AssertionError (
  require (support_size <=? p)%nat AssertionError (
  require (is_bool binary) AssertionError (
  require ((if n_x =? 1 then 0 else 1)%Z <? Z.of_nat p)%Z IndexError (
  let te i := te_fun n_x (x i) in
  let d i := match binary with
             | PBool true => ge01 (sparse_dot support coefs_d x i) (eta i)
             | _ => sparse_dot support coefs_d x i + eta i end in
  let y i := te i * d i + sparse_dot support coefs_y x i + eps i in
  Ok {| h_data := table n ([("y", y); ("d", d)] ++ block (numbered "X_" 0 p) x); h_effects := te; h_effect := te_fun n_x |})))).

(** ** Confounded data *)
(* var_a, :1190, :1398 *)
Definition var_a : R := (1 - -1) ^ 2 / 12.
(* f_reg and f_ps of make_confounded_irm_data, :1160-1167 *)
Definition f_reg_c (w : mat) (i : nat) : R :=
  25 / 10 + 74 / 100 * w i 0%nat + 25 / 100 * w i 1%nat + 137 / 1000 * (w i 2%nat + w i 3%nat).
Definition f_ps_c (xi : R) (w : mat) (i : nat) : R :=
  xi * (- w i 0%nat + 1 / 10 * w i 1%nat - 25 / 100 * w i 2%nat - 1 / 10 * w i 3%nat).
(* the result dictionary; the correlations rho_ate and rho_atte (:1252-1257) are not modelled *)
Record conf_irm := {
  ci_y : vec; ci_d : vec; ci_g_long : vec; ci_g_short : vec; ci_m_long : vec; ci_m_short : vec;
  ci_y0 : vec; ci_y1 : vec; ci_z : mat; ci_cf_y : R; ci_cf_d_ate : R; ci_cf_d_atte : R; ci_warns : bool }.
(* make_confounded_irm_data, :1050-1276; eps is the draw with variance var_eps_y *)
Definition make_conf_irm (n dim_x : nat) (theta gamma_a beta_a : R) (linear : bool) (trimming : option R)
  (x : mat) (eps a u : vec) : result conf_irm :=
  require (4 <? dim_x)%nat IndexError (
  let thr := kw trimming (1 / 100) in
  let z := z_of n x in
  let w := if linear then x else z in
  let p i := expit (f_ps_c (75 / 100) w i) in
  let off := existsb (fun i => rltb (p i + gamma_a * a i) thr || rltb (1 - thr) (p i + gamma_a * a i)) (seq 0 n) in
  let m_long i := if off then rclip thr (1 - thr) (p i + gamma_a * a i) else p i + gamma_a * a i in
  let m_short i := if off then rclip thr (1 - thr) (p i) else p i in
  let d i := ge01 (m_long i) (u i) in
  let d1x i := z i 4%nat + 1 in
  let var_dx := var0 n (fun i => d i * d1x i) in
  let g := f_reg_c w in
  let g_short i := d i * ((theta + beta_a * (gamma_a * var_a) / var_dx) * d1x i + g i) + (1 - d i) * g i in
  let g_long_d0 i := g i + beta_a * a i in
  let g_long_d1 i := theta * d1x i + g i + beta_a * a i in
  let g_long i := d i * g_long_d1 i + (1 - d i) * g_long_d0 i in
  let y_0 i := g_long_d0 i + eps i in
  let y_1 i := g_long_d1 i + eps i in
  let y i := d i * y_1 i + (1 - d i) * y_0 i in
  let odds (m : vec) i := m i / (1 - m i) in
  let inv (m : vec) i := 1 / (m i * (1 - m i)) in
  Ok {| ci_y := y; ci_d := d; ci_g_long := g_long; ci_g_short := g_short; ci_m_long := m_long; ci_m_short := m_short;
        ci_y0 := y_0; ci_y1 := y_1; ci_z := z;
        ci_cf_y := meanf n (fun i => (g_long i - g_short i) ^ 2) / meanf n (fun i => (y i - g_short i) ^ 2);
        ci_cf_d_ate := (meanf n (inv m_long) - meanf n (inv m_short)) / meanf n (inv m_long);
        ci_cf_d_atte := (meanf n (odds m_long) - meanf n (odds m_short)) / meanf n (odds m_long);
        ci_warns := off |}).

Record conf_plr := {
  cp_y : vec; cp_d : vec; cp_g_long : vec; cp_g_short : vec; cp_m_long : vec; cp_m_short : vec;
  cp_theta : R; cp_gamma_a : R; cp_beta_a : R; cp_z : mat }.
(* f_m and f_g, :1403-1407, :1418-1421, with var_eps_d = 1 *)
Definition f_m (n : nat) (cf_d : R) (a eps_d : vec) (gamma_a : R) : R :=
  let long := meanf n (fun i => (eps_d i / 1) ^ 2) in
  let short := meanf n (fun i => ((gamma_a * a i + eps_d i) / (gamma_a ^ 2 * var_a + 1)) ^ 2) in
  let c2_d := (long - short) / short in
  (c2_d / (1 + c2_d) - cf_d) ^ 2.
Definition f_g (n : nat) (cf_y gamma_a var_d : R) (a eps_y d : vec) (beta_a : R) : R :=
  let g_diff i := beta_a * (a i - gamma_a * (var_a / var_d) * d i) in
  (meanf n (fun i => g_diff i ^ 2) / meanf n (fun i => (eps_y i + g_diff i) ^ 2) - cf_y) ^ 2.
(* make_confounded_plr_data, :1279-1444; [minimise] stands for minimize_scalar(…).x *)
Definition make_conf_plr (n dim_x : nat) (theta cf_y cf_d : R) (minimise : (R -> R) -> R)
  (x : mat) (eps_y eps_d a : vec) : result conf_plr :=
  require (3 <? dim_x)%nat IndexError (
  let z := z_of n x in
  let m_short i := - z i 0%nat + 5 / 10 * z i 1%nat - 25 / 100 * z i 2%nat - 1 / 10 * z i 3%nat in
  let gamma_a := minimise (f_m n cf_d a eps_d) in
  let m_long i := m_short i + gamma_a * a i in
  let d i := m_long i + eps_d i in
  let g := f_reg z in
  let var_d := var0 n d in
  let beta_a := minimise (f_g n cf_y gamma_a var_d a eps_y d) in
  let g_long i := theta * d i + g i + beta_a * a i in
  let g_short i := (theta + gamma_a * beta_a * var_a / var_d) * d i + g i in
  Ok {| cp_y := fun i => g_long i + eps_y i; cp_d := d; cp_g_long := g_long; cp_g_short := g_short;
        cp_m_long := m_long; cp_m_short := m_short; cp_theta := theta; cp_gamma_a := gamma_a; cp_beta_a := beta_a; cp_z := z |}).

(** ** Several treatment levels *)
(* treatment_effect, :1764-1765 *)
Definition level_effect (d : R) : R := 15 * (1 / (1 + exp (- d - 12 / 10 * cos d))) - 2.
Record discrete := { di_y : vec; di_d : vec; di_cont : vec; di_bounds : list R; di_potential : vec; di_ite : vec; di_y0 : vec }.
(* make_irm_data_discrete_treatments, :1651-1810; the seed is not modelled *)
Definition make_discrete (n dim_x : nat) (n_levels : pyval) (linear : bool) (xi : option R) (x : mat) (eps_y eps_d eta : vec) : result discrete :=
  require (is_int n_levels) ValueError (
  require (2 <=? int_val n_levels)%Z ValueError (
  require (3 <? dim_x)%nat IndexError (
  let k := Z.to_nat (int_val n_levels) in
  let w := if linear then x else z_of n x in
  let cont i := f_ps (kw xi (3 / 10)) w i + eps_d i in
  let bounds := map (fun l => quantile (map cont (seq 0 n)) (INR l / INR k)) (seq 0 (S k)) in
  let inner := removelast (tl bounds) in
  let potential i := Rsum (map (fun b => ge01 (cont i) b) inner) + 1 in
  let d i := ge01 (eta i) (1 / INR k) * potential i in
  let ite i := level_effect (cont i) in
  let y0 i := f_reg w i + eps_y i in
  let y i := ite i * gt01 (d i) 0 + y0 i in
  Ok {| di_y := y; di_d := d; di_cont := cont; di_bounds := bounds; di_potential := potential; di_ite := ite; di_y0 := y0 |}))).

(** ** Regression discontinuity *)
Record rdd_sim := { rs_score : vec; rs_y : vec; rs_d : vec; rs_x : mat; rs_y0 : vec; rs_y1 : vec }.
(* make_simple_rdd_data, simple_dgp.py:5-102; [draw p u] stands for one draw of binomial(1, p): 1 exactly when
   the uniform draw u is below p.  The noise of the outcomes is [e0], [e1], for a binary outcome the uniforms. *)
Definition draw01 (u p : R) : R := b2r (rltb u p).
Definition poly (p : nat) (v : R) : R := sumf (S p) (fun k => INR k * v ^ k).
Definition make_rdd (n p : nat) (fuzzy binary : bool) (cutoff a tau : option R) (dim_x : nat)
  (score : vec) (x : mat) (e0 e1 u : vec) : rdd_sim :=
  let g_cov i := if (p =? 0)%nat then 0 else sumf dim_x (fun j => poly p (x i j)) in
  let g0 i := 1 / 10 * score i ^ 2 in
  let g1 i := kw tau 1 + 1 / 10 * score i ^ 2 - 5 / 10 * score i ^ 2 + kw a 0 * sumf dim_x (x i) * score i in
  let logistic v := 1 / (1 + exp (-1 * v)) in
  let y0 i := if binary then draw01 (e0 i) (logistic (g0 i + g_cov i)) else g0 i + g_cov i + e0 i in
  let y1 i := if binary then draw01 (e1 i) (logistic (g1 i + g_cov i)) else g1 i + g_cov i + e1 i in
  let intended i := ge01 (score i) (kw cutoff 0) in
  let prob i := rclip 0 1 (3 / 10 + 4 / 10 * intended i + 1 / 100 * score i ^ 2 - 2 / 100 * score i ^ 2 * intended i + 2 / 10 * g_cov i) in
  let d i := if fuzzy then draw01 (u i) (prob i) else intended i in
  {| rs_score := score; rs_y := fun i => y0 i * (1 - d i) + y1 i * d i; rs_d := d; rs_x := x; rs_y0 := y0; rs_y1 := y1 |}.

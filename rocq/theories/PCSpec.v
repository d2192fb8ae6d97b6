(** * Specification vocabulary for the preconditioner solver, C30, C31, C57, C58. *)
From Coq Require Import Reals.
From Verif Require Import Base ReaderModel UncModel MuModel SensorSpec SampleSpec TransformModel TransformSpec EvalModel EvalSpec GNModel GNSpec PCModel.
Open Scope nat_scope.

(** [M x] and [x' M x]. *)
Definition mul_vec (M : list (list R)) (x : list R) : list R := map (fun r => inner r x) M.
Definition quad (M : list (list R)) (x : list R) : R := inner x (mul_vec M x).

Definition symmetric (M : list (list R)) : Prop := forall i j, entry M i j = entry M j i.

(** [M] is a symmetric n x n matrix with x' M x > 0 for every x other than 0. *)
Definition spd (M : list (list R)) (n : nat) : Prop :=
  square M n /\ symmetric M /\ forall x, length x = n -> (exists i, nth i x 0%R <> 0%R) -> (0 < quad M x)%R.

(** [L] is a Cholesky factor of the n x n matrix [M]: lower triangular, positive diagonal, L L' = M. *)
Definition cholesky_factor (L M : list (list R)) (n : nat) : Prop :=
  square L n /\ (forall i j, i < j -> entry L i j = 0%R) /\ (forall i, i < n -> (0 < entry L i i)%R) /\
  forall i j, i < n -> j < n -> entry M i j = inner (nth i L []) (nth j L []).

Section Spec.
Context {T : Type}.
Notation mobj := (mobj R T).

(** All uncertainties are random, or random and systematic (what sampling leaves, C16). *)
Definition independent (m : mobj) : Prop :=
  forall u, In u (m_unc R T m) -> match u_kind R u with UK1 _ _ => True | UK2 _ _ _ => True | _ => False end.

Definition without_times (m : mobj) : mobj :=
  mkMobj R T (m_idx R T m) (m_ps R T m) (m_oidx R T m) (m_ops R T m) (m_values R T m) (m_ks R T m) (m_unc R T m) (m_unck R T m)
    (m_ws R T m) (m_us R T m) None None (m_across1 R T m) (m_across2 R T m) (m_along1 R T m) (m_along2 R T m) (m_add R T m).
Definition with_oidx (m : mobj) (o : option idx_t) : mobj :=
  mkMobj R T (m_idx R T m) (m_ps R T m) o (m_ps R T m) (m_values R T m) (m_ks R T m) (m_unc R T m) (m_unck R T m)
    (m_ws R T m) (m_us R T m) (m_time1 R T m) (m_time2 R T m) (m_across1 R T m) (m_across2 R T m) (m_along1 R T m) (m_along2 R T m) (m_add R T m).

(** The preconditioner solver for the sampled object [m]: its data are the transformation of [m], its
    current parameters are [a]. *)
Record pc_for (m : mobj) (st : solver T) (a : list R) : Prop := {
  pf_wf : wf_mobj m;
  pf_shapes : shapes_ok m;
  pf_norm : normalisable m;
  pf_ind : independent m;
  pf_run : tn_run T m = Ok (g_m T st);
  pf_ev : evaluable m (g_sd T st);
  pf_some : Im (m_idx R T m) <> [];
  pf_blocks : NoDup (get_block_idxs (m_idx R T m));
  pf_covs : forall n p s, nth_error (Im (m_idx R T m)) n = Some p -> s = fst p \/ s = snd p ->
      exists ms, nth_error (sensor_ms (m_idx R T m)) s = Some ms /\ 1 <= ms /\
        map (fun b => nth b (n_cov (m_idx R T m)) 0) (blocks_of (m_idx R T m) s (n + 1)) = seq 1 ms;
  pf_ps : exists ps, m_ps R T m = Some ps /\ length ps = length (sd_a T (g_sd T st));
  pf_a : length a = length (sd_a T (g_sd T st));
  pf_xyza : g_xyza T st = m_values R T (g_m T st) ++ a
}.

(** Contribution of one covariate of one sensor to the error of K of a match-up: its random part, and
    the number and size of the systematic effect if it has one. *)
Definition part : Type := R * option (nat * R).
(** [D]: derivative of the K (in units of its uncertainty) with respect to the covariate. *)
Definition part_of (m : mobj) (b i : nat) (D : R) : part :=
  match nth_error (m_unc R T m) b with
  | Some u => match u_kind R u, u_sysi R u with
              | UK1 _ r, _ => ((D * nth i r 0)%R, None)
              | UK2 _ r s, Some k => ((D * nth i r 0)%R, Some (k, (D * nth i s 0)%R))
              | _, _ => (0%R, None)
              end
  | None => (0%R, None)
  end.

(** Derivatives of the covariates of side [side] of series [n] (counted from 0), match-up [i]: pairs of a
    block and the derivative of K / uncertainty of K with respect to it, at parameters [a]. *)
Definition side_sens (m : mobj) (sd : sdat T) (a : list R) (n side i : nat) (l : list (nat * R)) : Prop :=
  exists s X as_ c xt al f b r J r' JB uK,
    side_input (without_times m) (with_params sd a) (n + 1) side s X as_ c xt al None /\
    nth_error (sd_model T sd) s = Some f /\ f X as_ c xt al None = Ok (r, J) /\
    nth_error (sd_adj T sd) s = Some b /\ b r = Ok (r', JB) /\ nth_error (m_unck R T m) n = Some uK /\
    let D (x : R) := ((if side =? 1 then 1 else -1) * nth i JB 0 * x / nth i uK 0)%R in
    l = match J with
        | None => match blocks_of (m_idx R T m) s (n + 1) with [] => [] | b0 :: _ => [(b0, D 1%R)] end
        | Some cols => map (fun p => (fst p, D (nth i (snd p) 0%R))) (combine (blocks_of (m_idx R T m) s (n + 1)) cols)
        end.

(** All contributions to match-up number [p] of the data set. *)
Definition parts (m : mobj) (sd : sdat T) (a : list R) (p : nat) (l : list part) : Prop :=
  exists n i N l0 l1, nth_error (Nm (m_idx R T m)) n = Some N /\ i < N /\ p = list_sum (firstn n (Nm (m_idx R T m))) + i /\
    side_sens m sd a n 0 i l0 /\ side_sens m sd a n 1 i l1 /\
    l = map (fun q => part_of m (fst q) i (snd q)) (l0 ++ l1).

(** Covariance of two match-ups: K itself has unit uncertainty; random parts are independent; systematic
    parts are common to all match-ups they contribute to. *)
Definition random_var (l : list part) : R := (1 + rsum (map (fun x => fst x * fst x) l))%R.
Definition systematic_cov (l l' : list part) : R :=
  rsum (map (fun x => rsum (map (fun y => match snd x, snd y with
                                          | Some (k, u), Some (k', u') => if k =? k' then (u * u')%R else 0%R
                                          | _, _ => 0%R end) l')) l).
Definition propagated (p q : nat) (l l' : list part) : R :=
  ((if p =? q then random_var l else 0) + systematic_cov l l')%R.

(** Sensor 0 is a reference sensor without parameters and systematic uncertainty; every other sensor has
    parameters; each sensor has at most one systematic effect, in at most one covariate per series, and
    no effect is shared by two sensors. *)
Record one_effect_per_sensor (m : mobj) (st : solver T) : Prop := {
  oe_ref : forall n p s f X a c xt al t r b u, nth_error (Im (m_idx R T m)) n = Some p -> s = fst p \/ s = snd p ->
     nth_error (sd_model T (g_sd T st)) s = Some f -> f X a c xt al t = Ok (r, None) ->
     In b (blocks_of (m_idx R T m) s (n + 1)) -> nth_error (m_unc R T m) b = Some u -> exists ur, u_kind R u = UK1 R ur;
  oe_cols : forall b s u, nth_error (n_sensor (m_idx R T m)) b = Some s -> nth_error (m_unc R T m) b = Some u -> has_systematic u ->
     exists ps, m_ps R T m = Some ps /\ 1 <= s <= length (nodup string_dec ps);
  oe_num : forall b b' s s' u u' k k', nth_error (n_sensor (m_idx R T m)) b = Some s -> nth_error (n_sensor (m_idx R T m)) b' = Some s' ->
     nth_error (m_unc R T m) b = Some u -> nth_error (m_unc R T m) b' = Some u' -> has_systematic u -> has_systematic u' ->
     u_sysi R u = Some k -> u_sysi R u' = Some k' -> (k = k' <-> s = s');
  oe_one : forall b b' s n u u', nth_error (n_sensor (m_idx R T m)) b = Some s -> nth_error (n_sensor (m_idx R T m)) b' = Some s ->
     nth_error (n_mu (m_idx R T m)) b = Some n -> nth_error (n_mu (m_idx R T m)) b' = Some n ->
     nth_error (m_unc R T m) b = Some u -> nth_error (m_unc R T m) b' = Some u' -> has_systematic u -> has_systematic u' -> b = b'
}.
End Spec.

(** ** C58 *)
Section Spec2.
Context {T : Type}.

(** The K the solver compares with the data, for match-up number [p] at parameters [a]: the difference of
    the adjusted measurands of the two sensors in units of the uncertainty of K. *)
Definition model_K (m : mobj R T) (sd : sdat T) (a : list R) (p : nat) (x : R) : Prop :=
  exists n i N r0 r1 uK, nth_error (Nm (m_idx R T m)) n = Some N /\ i < N /\ p = list_sum (firstn n (Nm (m_idx R T m))) + i /\
    adjusted_side (without_times m) (with_params sd a) (n + 1) 0 r0 /\
    adjusted_side (without_times m) (with_params sd a) (n + 1) 1 r1 /\
    nth_error (m_unck R T m) n = Some uK /\ x = ((nth i r1 0 - nth i r0 0) / nth i uK 0)%R.

(** The last columns a sensor function returns are its derivatives with respect to its parameters, at all
    parameters; the adjustment functions work value by value and return their derivative. *)
Definition parameter_derivatives (m : mobj R T) (sd : sdat T) : Prop :=
  forall a n side s X as_ c xt al f b r J N,
    side_input (without_times m) (with_params sd a) (n + 1) side s X as_ c xt al None ->
    nth_error (sd_model T sd) s = Some f -> nth_error (sd_adj T sd) s = Some b -> nth_error (Nm (m_idx R T m)) n = Some N ->
    f X as_ c xt al None = Ok (r, J) ->
    (forall da i, length da = length as_ -> i < N ->
       derivable_pt_lim (fun h => nth i (match f X (vadd as_ (vscale h da)) c xt al None with Ok (r, _) => r | Raise _ => [] end) 0%R) 0%R
         (match J with None => 0%R | Some cols => inner (map (fun col => nth i col 0%R) (skipn (length X) cols)) da end)) /\
    exists g B, b r = Ok (map g r, B) /\ (forall r', exists B', b r' = Ok (map g r', B')) /\
       forall i, i < N -> derivable_pt_lim g (nth i r 0%R) (nth i B 0%R).

(** Entry [p] of the modelled K after setting the parameters to [a]. *)
Definition K_at (st : solver T) (a : list R) (p : nat) : R :=
  match pc_update T st a with
  | Ok st' => match pc_kJ T st' with Ok kJ => nth p (fst kJ) 0%R | Raise _ => 0%R end
  | Raise _ => 0%R
  end.

(** [Ja da] for a matrix given by its columns, row [p]. *)
Definition row_dot (Ja : list (list R)) (da : list R) (p : nat) : R := inner (map (fun col => nth p col 0%R) Ja) da.
End Spec2.

(** ** C31 *)
Section Spec3.
Context {T : Type}.
(** One pass of the loop, number [k] (from 0): from state [st] and estimate [a] to [st'] and [a']; [LK]: the
    factor used. *)
Definition pc_pass (cholesky : list (list R) -> res (list (list R))) (solve : list (list R) -> list R -> res (list R))
  (least_squares : nat -> solver T -> list (list R) -> list R -> res (list (list R) * list R))
  (k : nat) (st : solver T) (a : list R) (LK : list (list R)) (st' : solver T) (a' : list R) : Prop :=
  exists VK tried, calc_VK T st = Ok VK /\ cholesky VK = Ok LK /\ least_squares k st LK a = Ok (tried, a') /\
    pc_calls T solve st LK tried = Ok st' /\ length a' = length a.

(** least_squares returns as many parameters as it is given. *)
Definition same_length (least_squares : nat -> solver T -> list (list R) -> list R -> res (list (list R) * list R)) : Prop :=
  forall k st LK a tried a', least_squares k st LK a = Ok (tried, a') -> length a' = length a.

(** Euclidean distance of two vectors. *)
Definition distance (x y : list R) : R := sqrt (inner (zip2 Rminus x y) (zip2 Rminus x y)).

(** All passes of a run: states [sts], estimates [as_], factors [LKs]. *)
Definition pc_passes cholesky solve least_squares (st : solver T) (a0 : list R) (sts : list (solver T)) (as_ : list (list R)) (LKs : list (list (list R))) : Prop :=
  length as_ = S (length LKs) /\ length sts = S (length LKs) /\ nth_error as_ 0 = Some a0 /\ nth_error sts 0 = Some st /\
  forall k s s' a a' LK, nth_error sts k = Some s -> nth_error sts (S k) = Some s' -> nth_error as_ k = Some a -> nth_error as_ (S k) = Some a' ->
    nth_error LKs k = Some LK -> pc_pass cholesky solve least_squares k s a LK s' a'.

(** [n] is the smallest whole number not below the square root of [x]. *)
Definition ceil_sqrt (x n : nat) : Prop := x <= n * n /\ forall k, x <= k * k -> n <= k.
End Spec3.

(** What is assumed of the library routines for a run to return. *)
Section Spec4.
Context {T : Type}.
Definition cholesky_total (cholesky : list (list R) -> res (list (list R))) : Prop :=
  forall V n, spd V n -> exists L, cholesky V = Ok L /\ cholesky_factor L V n.
Definition lower_triangular (L : list (list R)) (n : nat) : Prop :=
  square L n /\ (forall i j, i < j -> entry L i j = 0%R) /\ (forall i, i < n -> (0 < entry L i i)%R).
Definition solve_total (solve : list (list R) -> list R -> res (list R)) : Prop :=
  forall L n d, lower_triangular L n -> length d = n -> exists x, solve L d = Ok x.
Definition least_squares_total (least_squares : nat -> solver T -> list (list R) -> list R -> res (list (list R) * list R)) : Prop :=
  forall k st LK a, exists tried a', least_squares k st LK a = Ok (tried, a') /\ (forall x, In x tried -> length x = length a) /\ length a' = length a.
End Spec4.

(** ** C58, C31: exact library routines *)
Section Spec5.
Context {T : Type}.
Definition solve_exact (solve : list (list R) -> list R -> res (list R)) : Prop :=
  forall L n d, lower_triangular L n -> length d = n -> exists x, solve L d = Ok x /\ length x = n /\ mul_vec L x = d.

(** Entry [p] of get_f after setting the parameters to [a]. *)
Definition weighted_residual_at solve (st : solver T) (L : list (list R)) (a : list R) (p : nat) : R :=
  match pc_update T st a with
  | Ok st' => match get_f T solve st' L with Ok f => nth p f 0%R | Raise _ => 0%R end
  | Raise _ => 0%R
  end.

(** [U] and [M] are inverse n x n matrices. *)
Definition delta (i j : nat) : R := if i =? j then 1%R else 0%R.
Definition mat_prod (A B : list (list R)) (n i j : nat) : R := rsum (map (fun t => entry A i t * entry B t j)%R (seq 0 n)).
Definition inverses (U M : list (list R)) (n : nat) : Prop :=
  square U n /\ square M n /\ forall i j, i < n -> j < n -> mat_prod U M n i j = delta i j /\ mat_prod M U n i j = delta i j.

(** The R of a QR factorisation of the matrix with columns [J]: R'R = J'J. *)
Definition qr_exact (qr_R : list (list R) -> res (list (list R))) : Prop :=
  forall J M, qr_R J = Ok M -> square M (length J) /\
    forall i j, i < length J -> j < length J -> inner (nth i J []) (nth j J []) = rsum (map (fun t => entry M t i * entry M t j)%R (seq 0 (length J))).
(** Least squares with the identity as right-hand side inverts a matrix with independent columns. *)
Definition injective_mat (M : list (list R)) (n : nat) : Prop :=
  forall x, length x = n -> mul_vec M x = repeat 0%R n -> x = repeat 0%R n.
Definition lstsq_exact (lstsq_eye : list (list R) -> res (list (list R))) : Prop :=
  forall M U n, square M n -> injective_mat M n -> lstsq_eye M = Ok U -> inverses U M n.
(** The columns [J], each of length [N], are linearly independent. *)
Definition independent_columns (J : list (list R)) (N : nat) : Prop :=
  (forall col, In col J -> length col = N) /\
  forall x, length x = length J -> (forall p, p < N -> row_dot J x p = 0%R) -> x = repeat 0%R (length J).
End Spec5.

(** ** C59 *)
(** The optimiser evaluates the solution it returns last, and only at vectors of the right length. *)
Definition ends_at_solution {T} (least_squares : nat -> solver T -> list (list R) -> list R -> res (list (list R) * list R)) : Prop :=
  forall k st LK a tried a', least_squares k st LK a = Ok (tried, a') ->
    (exists t, tried = t ++ [a']) /\ forall x, In x tried -> length x = length a.

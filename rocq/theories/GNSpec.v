(** * Specification vocabulary for the Gauss-Newton solver, C22-C29. *)
From Coq Require Import Reals.
From Verif Require Import Base ReaderModel UncModel MuModel SensorSpec SampleSpec TransformModel TransformSpec EvalModel EvalSpec GNModel.
Open Scope nat_scope.

(** Inner product. *)
Fixpoint inner (x y : list R) : R :=
  match x, y with a :: x', b :: y' => (a * b + inner x' y')%R | _, _ => 0%R end.

(** [c * x] and [x + y]. *)
Definition vscale (c : R) (x : list R) : list R := map (fun a => c * a)%R x.
Fixpoint vadd (x y : list R) : list R :=
  match x, y with a :: x', b :: y' => (a + b)%R :: vadd x' y' | _, _ => [] end.

(** Number of parameters of a sensor. *)
Definition n_params (ps : list string) (name : string) : nat := length (filter (String.eqb name) ps).

Definition rows_are {A} (N : nat) (o : option (list A)) : Prop :=
  match o with Some l => length l = N | None => True end.

Section Spec.
Context {T : Type}.
Notation mobj := (mobj R T).

(** Number of match-ups, of unknown variables, of parameters. *)
Definition n_ks (st : solver T) : nat := list_sum (Nm (m_idx R T (g_m T st))).
Definition n_vars (st : solver T) : nat := length (m_values R T (g_m T st)).
Definition n_pars (st : solver T) : nat := length (sd_a T (g_sd T st)).

(** Number of covariates of the non-reference sensors, as the solver takes it. *)
Definition solver_ncov (m : mobj) : nat := last (n_cov (m_idx R T m)) 0.

(** A solver for the object [m] opened with sensor data: its data are the transformation of [m]; any
    current estimate, any square preconditioner solution.  ([sf_covs]: the stored blocks of a sensor in
    one of its series are its covariates number 1, 2, ... in this order, as opening stores them.) *)
Record solver_for (m : mobj) (st : solver T) : Prop := {
  sf_wf : wf_mobj m;
  sf_shapes : shapes_ok m;
  sf_oidx : m_oidx R T m = Some (m_idx R T m);
  sf_run : tn_run T m = Ok (g_m T st);
  sf_ev : evaluable m (g_sd T st);
  sf_some : Im (m_idx R T m) <> [];
  sf_blocks : NoDup (get_block_idxs (m_idx R T m));
  sf_covs : forall n p s, nth_error (Im (m_idx R T m)) n = Some p -> s = fst p \/ s = snd p ->
      exists ms, nth_error (sensor_ms (m_idx R T m)) s = Some ms /\ 1 <= ms /\
        map (fun b => nth b (n_cov (m_idx R T m)) 0) (blocks_of (m_idx R T m) s (n + 1)) = seq 1 ms;
  sf_ps : exists ps, m_ps R T m = Some ps /\ m_ops R T m = Some ps /\ length ps = n_pars st;
  sf_cs : g_ocs T st = sd_cs T (g_sd T st);
  sf_xyza : length (g_xyza T st) = n_vars st + n_pars st;
  sf_S : length (g_S T st) = n_pars st /\ forall r, In r (g_S T st) -> length r = n_pars st
}.

(** The sensor and adjustment functions return arrays of the right shapes: one value per match-up; no
    derivatives for a sensor whose first quantity in the series has independent (type 1 or 2)
    uncertainty, or one column of derivatives per covariate and per parameter. *)
Definition functions_ok (m : mobj) (st : solver T) : Prop :=
  (forall s b r, nth_error (sd_adj T (g_sd T st)) s = Some b -> exists r' B, b r = Ok (r', B) /\ length r' = length r) /\
  forall n p s name ps ms N f b X a c xt al t,
    nth_error (Im (m_idx R T m)) n = Some p -> s = fst p \/ s = snd p ->
    nth_error (sensors (m_idx R T m)) s = Some name -> m_ps R T m = Some ps ->
    nth_error (sensor_ms (m_idx R T m)) s = Some ms -> nth_error (Nm (m_idx R T m)) n = Some N ->
    nth_error (sd_model T (g_sd T st)) s = Some f -> nth_error (sd_adj T (g_sd T st)) s = Some b ->
    length X = ms -> (forall col, In col X -> length col = N) -> length a = n_params ps name ->
    c = labelled name (sd_cs T (g_sd T st)) (sd_c T (g_sd T st)) ->
    rows_are N xt -> rows_are N al -> rows_are N t ->
    exists r J r' B, f X a c xt al t = Ok (r, J) /\ length r = N /\ b r = Ok (r', B) /\ length r' = N /\ length B = N /\
      match J with
      | None => exists b0 u, hd_error (blocks_of (m_idx R T m) s (n + 1)) = Some b0 /\ nth_error (m_unc R T m) b0 = Some u /\
                  match u_kind R u with UK1 _ _ => True | UK2 _ _ _ => True | _ => False end
      | Some cols => ms = solver_ncov m /\ 1 <= n_params ps name /\ length cols = ms + n_params ps name /\
                  forall col, In col cols -> length col = N
      end.
End Spec.

Section Spec2.
Context {T : Type}.

(** Largest absolute value. *)
Definition max_abs (v : list R) : R := fold_right Rmax 0%R (map Rabs v).
(** Sum of squares. *)
Definition sum_sq (v : list R) : R := inner v v.

(** Vectors the operators work on: unknowns (variables and parameters), residuals. *)
Definition unknowns_vec (st : solver T) (x : list R) : Prop := length x = n_vars st + n_pars st.
Definition residual_vec (st : solver T) (y : list R) : Prop := length y = n_vars st + n_ks st.

(** One outer iteration number [k], from iterate [x] to [x'], with log entry [l]: what each logged
    number is. *)
Record iteration (st : solver T) (tol : R) (k : nat) (x x' : list R) (l : glog) : Prop := {
  it_no : l_iter l = k;
  it_res : exists f f' g, calc_f T (with_xyza T st x) x = Ok f /\ calc_f T (with_xyza T st x') x' = Ok f' /\
     calc_prod_JPx T (with_xyza T st x') f' true = Ok g /\
     l_red l = (sum_sq f - sum_sq f')%R /\ l_redtol l = (tol * (1 + sum_sq f'))%R /\
     l_g l = max_abs (vscale 2 g) /\ l_gtol l = (cbrt tol * (1 + sum_sq f'))%R;
  it_step : exists step, x' = vadd x step /\ length step = length x /\ l_d l = max_abs step;
  it_dtol : l_dtol l = (sqrt tol * (1 + max_abs x'))%R
}.

(** The three convergence criteria. *)
Definition criteria (l : glog) : Prop :=
  (0 <= l_red l < l_redtol l)%R /\ (l_d l < l_dtol l)%R /\ (l_g l <= l_gtol l)%R.

(** Entry (i, j) of a matrix given as a list of rows. *)
Definition entry (V : list (list R)) (i j : nat) : R := nth j (nth i V []) 0%R.
Definition square (V : list (list R)) (n : nat) : Prop := length V = n /\ forall r, In r V -> length r = n.
End Spec2.

Section Spec3.
Context {T : Type}.
Definition with_params (sd : sdat T) (a : list R) : sdat T := mkSdat T a (sd_c T sd) (sd_cs T sd) (sd_model T sd) (sd_adj T sd).

(** The match-ups estimated by the unknowns [x]: the layout of [m], the variables of [x] transformed
    back, no scan indices and no times. *)
Record estimate_of (m : mobj R T) (st : solver T) (x : list R) (r : mobj R T) : Prop := {
  eo_idx : m_idx R T r = m_idx R T m;
  eo_ps : m_ps R T r = m_ps R T m;
  eo_values : exists r0, tn_reverse T (with_values (g_m T st) (firstn (n_vars st) x)) = Ok r0 /\ m_values R T r = m_values R T r0;
  eo_none : m_across1 R T r = None /\ m_across2 R T r = None /\ m_along1 R T r = None /\ m_along2 R T r = None /\
            m_time1 R T r = None /\ m_time2 R T r = None
}.

(** The uncertainties of K, one per match-up. *)
Definition all_uK (m : mobj R T) : list R := concat (m_unck R T m).
End Spec3.

Section Spec4.
Context {T : Type}.
(** The iterates [xs] of a run started at [x0], with one log entry per iteration. *)
Definition history (st : solver T) (tol : R) (x0 : list R) (xs : list (list R)) (logs : list glog) : Prop :=
  length xs = S (length logs) /\ nth_error xs 0 = Some x0 /\
  forall k x x' l, nth_error xs k = Some x -> nth_error xs (S k) = Some x' -> nth_error logs k = Some l ->
    iteration st tol (S k) x x' l.
End Spec4.

Section Spec5.
Context {T : Type}.
(** Every systematic error number from 1 to the largest is in use, and every block belongs to a listed
    sensor (what opening produces, C05 and C02). *)
Definition well_numbered (m : mobj R T) : Prop :=
  (forall k u, In u (m_unc R T m) -> has_systematic u -> (exists k', u_sysi R u = Some k' /\ 1 <= k <= k') ->
    exists b u', nth_error (m_unc R T m) b = Some u' /\ has_systematic u' /\ u_sysi R u' = Some k) /\
  forall b s, nth_error (n_sensor (m_idx R T m)) b = Some s -> s < length (sensors (m_idx R T m)).

(** The inner solvers return some vector of the right length. *)
Definition lsmr_total (lsmr : nat -> solver T -> list R -> res (list R)) (st : solver T) : Prop :=
  forall k st' b, exists x, lsmr k st' b = Ok x /\ unknowns_vec st x.
Definition minres_total (minres : nat -> nat -> solver T -> list R -> res (list R)) (st : solver T) : Prop :=
  forall i j st' b, exists x, minres i j st' b = Ok x /\ unknowns_vec st x.
(** MINRES solves its system exactly. *)
Definition minres_exact (minres : nat -> nat -> solver T -> list R -> res (list R)) (st : solver T) : Prop :=
  forall i j b, unknowns_vec st b -> exists x, minres i j st b = Ok x /\ unknowns_vec st x /\ calc_Hx T st x = Ok b.
End Spec5.

(** ** C26 *)
(** [X + h * dX], column by column. *)
Definition cols_add (X : list (list R)) (h : R) (dX : list (list R)) : list (list R) :=
  map (fun p => vadd (fst p) (vscale h (snd p))) (combine X dX).

(** Row [i] of the Jacobian applied to the change [dX] of the covariates and [da] of the parameters; a
    sensor function without Jacobian is the identity on its first covariate. *)
Definition jac_row (J : option (list (list R))) (dX : list (list R)) (da : list R) (i : nat) : R :=
  match J with
  | None => nth i (hd [] dX) 0%R
  | Some cols => inner (map (fun col => nth i col 0%R) cols) (map (fun col => nth i col 0%R) dX ++ da)
  end.

Section Spec6.
Context {T : Type}.
(** The values a sensor function returns (without indices and times). *)
Definition output (f : smodel T) (X : list (list R)) (a c : list R) : list R :=
  match f X a c None None None with Ok (r, _) => r | Raise _ => [] end.

(** At the current estimate, the Jacobian returned by each sensor function is its derivative, in every
    direction of covariates and parameters; each adjustment function works value by value and returns
    its derivative. *)
Definition derivatives_correct (m : mobj R T) (st : solver T) : Prop :=
  forall e n p s name ps f b X c N a r J,
    estimate_of m st (g_xyza T st) e ->
    nth_error (Im (m_idx R T m)) n = Some p -> s = fst p \/ s = snd p ->
    nth_error (sensors (m_idx R T m)) s = Some name -> m_ps R T m = Some ps ->
    nth_error (sd_model T (g_sd T st)) s = Some f -> nth_error (sd_adj T (g_sd T st)) s = Some b ->
    nth_error (Nm (m_idx R T m)) n = Some N ->
    covariates e s (n + 1) X -> a = labelled name ps (skipn (n_vars st) (g_xyza T st)) ->
    c = labelled name (sd_cs T (g_sd T st)) (sd_c T (g_sd T st)) ->
    f X a c None None None = Ok (r, J) ->
    (forall dX da i, length dX = length X -> (forall col, In col dX -> length col = N) -> length da = length a -> i < N ->
       derivable_pt_lim (fun h => nth i (output f (cols_add X h dX) (vadd a (vscale h da)) c) 0%R) 0%R (jac_row J dX da i)) /\
    exists g B, b r = Ok (map g r, B) /\ (forall r', exists B', b r' = Ok (map g r', B')) /\
       forall i, i < N -> derivable_pt_lim g (nth i r 0%R) (nth i B 0%R).

(** The sensor functions do not depend on scan indices and times. *)
Definition ignores_indices (m : mobj R T) (st : solver T) : Prop :=
  forall n p s f X a c xt al t, nth_error (Im (m_idx R T m)) n = Some p -> s = fst p \/ s = snd p ->
    nth_error (sd_model T (g_sd T st)) s = Some f -> f X a c xt al t = f X a c None None None.

(** A sensor whose function returns no Jacobian (a reference) has only random uncertainty. *)
Definition reference_random (m : mobj R T) (st : solver T) : Prop :=
  forall n p s f X a c r b u, nth_error (Im (m_idx R T m)) n = Some p -> s = fst p \/ s = snd p ->
    nth_error (sd_model T (g_sd T st)) s = Some f -> f X a c None None None = Ok (r, None) ->
    In b (blocks_of (m_idx R T m) s (n + 1)) -> nth_error (m_unc R T m) b = Some u -> exists ur, u_kind R u = UK1 R ur.

(** Entry [i] of the residual at the current estimate moved by [h] along [dx]. *)
Definition residual_along (st : solver T) (dx : list R) (i : nat) (h : R) : R :=
  match calc_f T st (vadd (g_xyza T st) (vscale h dx)) with Ok f => nth i f 0%R | Raise _ => 0%R end.
End Spec6.

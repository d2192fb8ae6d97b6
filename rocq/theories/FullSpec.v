(** * Specification vocabulary for C117-C119: a whole harmonisation, from files and sensor data to the result. *)
From Coq Require Import Reals.
From Verif Require Import Base ReaderModel ReaderSpec UncModel SensorModel SensorSpec MuModel SampleSpec TransformModel TransformSpec EvalModel EvalSpec GNModel LsmrModel MinresModel EivModel EivSpec CheckModel CheckSpec IOModel IOSpec FullModel GNSpec.
Open Scope nat_scope.

(** ** Files *)
(** Row pointers do not decrease. *)
Definition pointers_ordered (f : ncfile) : Prop :=
  forall rows r i p q, data f "w_matrix_row" (IArr2 rows) -> In r rows -> nth_error r i = Some p -> nth_error r (i + 1) = Some q -> (p <= q)%Z.
(** A file that passes the checker, and what the checker does not look at: the row pointers of its W matrices, two match-ups when a covariate
    has type 4 (the reader takes the systematic uncertainty from the second row), and a covariate on each side. *)
Record usable (f : ncfile) : Prop := {
  us_wf : wf_nc f;
  us_check : check f = Ok [];
  us_rows : w_variables f -> row_pointers f /\ pointers_ordered f;
  us_two : two_rows f;
  us_cov : forall sd k, size f ("m" ++ IOSpec.snum sd) k -> 1 <= k
}.
(** Every row of every W matrix has an entry, and its first entry is not right of its last. *)
Definition rows_filled (f : ncfile) : Prop :=
  forall nnz rows col k r i p q, data f "w_matrix_nnz" (IArr1 nnz) -> data f "w_matrix_row" (IArr2 rows) -> data f "w_matrix_col" (IArr1 col) ->
    nth_error rows k = Some r -> nth_error r i = Some p -> nth_error r (i + 1) = Some q ->
    (p < q)%Z /\ forall lo hi, nth_error col (Z.to_nat (fold_right Z.add 0 (firstn k nnz) + p)%Z) = Some lo ->
                   nth_error col (Z.to_nat (fold_right Z.add 0 (firstn k nnz) + q - 1)%Z) = Some hi -> (lo <= hi)%Z.

(** ** Sensor data *)
Section Sensors.
Context {T : Type}.

(** The adjustment function of an entry returns one value and one derivative per match-up. *)
Definition adjusts (e : sentry R R (smodel T) amodel) : Prop :=
  s_adj _ _ _ _ e = None \/
  exists b, s_sadj _ _ _ _ e = Some b /\ forall r, exists r' B, b r = Ok (r', B) /\ length r' = length r /\ length B = length r.
(** The first covariate of a side of a file has independent (type 1 or 2) uncertainty. *)
Definition first_independent (f : ncfile) (sd : side) : Prop :=
  exists l t, data f ("uncertainty_type" ++ IOSpec.snum sd) (IArr1 l) /\ nth_error l 0 = Some t /\ (t = 1 \/ t = 2)%Z.
(** The sensor function of an entry accepts [k] covariates of any number of match-ups and returns a value for each, and no derivatives
    (then the first covariate must be independent), or one column of derivatives for each covariate and parameter (then it has the largest
    number of covariates of the set, [kmax], and a parameter). *)
Definition evaluates (e : sentry R R (smodel T) amodel) (k kmax : nat) (reference : Prop) : Prop :=
  forall N X a xt al t, length X = k -> (forall col, In col X -> length col = N) -> length a = length (s_param _ _ _ _ e) ->
    rows_are N xt -> rows_are N al -> rows_are N t ->
    exists r J, s_model _ _ _ _ e X a (s_const _ _ _ _ e) xt al t = Ok (r, J) /\ length r = N /\
      match J with
      | None => reference
      | Some cols => k = kmax /\ 1 <= length (s_param _ _ _ _ e) /\ length cols = k + length (s_param _ _ _ _ e) /\ forall col, In col cols -> length col = N
      end.
(** Largest number of covariates of a side of a file of the set. *)
Definition most_covariates (fs : list ncfile) (k : nat) : Prop :=
  (exists f sd, In f fs /\ size f ("m" ++ IOSpec.snum sd) k) /\ forall f sd k', In f fs -> size f ("m" ++ IOSpec.snum sd) k' -> k' <= k.
(** The dictionary describes every sensor of the files. *)
Record describes (dict : list (string * sentry R R (smodel T) amodel)) (fs : list ncfile) : Prop := {
  de_keys : NoDup (map fst dict);
  de_entry : forall f sd s, In f fs -> file_sensor f sd s -> exists e, In (s, e) dict /\ adjusts e;
  de_model : forall f sd s e k kmax, In f fs -> file_sensor f sd s -> In (s, e) dict -> size f ("m" ++ IOSpec.snum sd) k -> most_covariates fs kmax ->
     evaluates e k kmax (first_independent f sd)
}.

(** ** The opened object: everything the later steps need *)
Record ready (m : mobj R T) (sd : sdat T) : Prop := {
  rd_wf : wf_mobj m;
  rd_shapes : shapes_ok m;
  rd_oidx : m_oidx R T m = Some (m_idx R T m);
  rd_ev : evaluable m sd;
  rd_some : Im (m_idx R T m) <> [];
  rd_blocks : NoDup (get_block_idxs (m_idx R T m));
  rd_covs : forall n p s, nth_error (Im (m_idx R T m)) n = Some p -> s = fst p \/ s = snd p ->
      exists ms, nth_error (sensor_ms (m_idx R T m)) s = Some ms /\ 1 <= ms /\
        map (fun b => nth b (n_cov (m_idx R T m)) 0) (blocks_of (m_idx R T m) s (n + 1)) = seq 1 ms;
  rd_ps : exists ps, m_ps R T m = Some ps /\ m_ops R T m = Some ps /\ length ps = length (sd_a T sd);
  rd_adj : forall s b r, nth_error (sd_adj T sd) s = Some b -> exists r' B, b r = Ok (r', B) /\ length r' = length r /\ length B = length r;
  rd_model : forall n p s name ps ms N f X a xt al t,
    nth_error (Im (m_idx R T m)) n = Some p -> s = fst p \/ s = snd p ->
    nth_error (sensors (m_idx R T m)) s = Some name -> m_ps R T m = Some ps ->
    nth_error (sensor_ms (m_idx R T m)) s = Some ms -> nth_error (sd_model T sd) s = Some f ->
    length X = ms -> (forall col, In col X -> length col = N) -> length a = n_params ps name ->
    rows_are N xt -> rows_are N al -> rows_are N t ->
    exists r J, f X a (labelled name (sd_cs T sd) (sd_c T sd)) xt al t = Ok (r, J) /\ length r = N /\
      match J with
      | None => exists b0 u, hd_error (blocks_of (m_idx R T m) s (n + 1)) = Some b0 /\ nth_error (m_unc R T m) b0 = Some u /\
                  match u_kind R u with UK1 _ _ => True | UK2 _ _ _ => True | _ => False end
      | Some cols => ms = solver_ncov m /\ 1 <= n_params ps name /\ length cols = ms + n_params ps name /\ forall col, In col cols -> length col = N
      end;
  rd_num : well_numbered m;
  rd_u : forall u ui uv, In u (m_unc R T m) -> u_of (u_kind R u) = Some ui -> nth_error (m_us R T m) ui = Some uv -> uv <> [];
  rd_pos : (forall u x, In u (m_unck R T m) -> In x u -> (0 < x)%R) /\ (forall u x, In u (m_us R T m) -> In x u -> (0 < x)%R) /\
      forall u r x, In u (m_unc R T m) -> u_kind R u = UK1 R r \/ (exists s, u_kind R u = UK2 R r s) -> In x r -> (0 < x)%R
}.
(** The rows of the object's W matrices have entries, the first not right of the last. *)
Definition w_rows (m : mobj R T) : Prop :=
  forall b u wi w i, nth_error (m_unc R T m) b = Some u -> w_of (u_kind R u) = Some wi -> nth_error (m_ws R T m) wi = Some w -> i < c_nrows R w ->
    exists p q lo hi, nth_error (c_indptr R w) i = Some p /\ nth_error (c_indptr R w) (i + 1) = Some q /\ p < q <= length (c_indices R w) /\
      nth_error (c_indices R w) p = Some lo /\ nth_error (c_indices R w) (q - 1) = Some hi /\ lo <= hi.

(** ** The run *)
(** [sd'] differs from [sd] in the parameters only. *)
Definition same_functions (sd sd' : sdat T) : Prop := sd_c T sd' = sd_c T sd /\ sd_cs T sd' = sd_cs T sd /\ sd_model T sd' = sd_model T sd /\ sd_adj T sd' = sd_adj T sd.
(** The solver that starts from the transformed data [d] and parameters [a] with the factor [L] of the preconditioner's covariance. *)
Definition start (sd : sdat T) (d : mobj R T) (a : list R) (L : list (list R)) : solver T :=
  mkSolver T d (mkSdat T a (sd_c T sd) (sd_cs T sd) (sd_model T sd) (sd_adj T sd)) (sd_cs T sd) (m_values R T d ++ a) L.
(** What the run of the solver [st] on the object [m] gives: a result, labelled with the object's sensors and index structure, that is the last of at
    least one and at most as many iterations as there are transformed data values, none but the last of which met the convergence criteria; or the
    exception of C112 (the start is already stationary) or that of C84 (at some iterate the linearised equations have an exact solution). *)
Definition harmonised (eps : R) (xr : list vec) (tol : R) (save : bool) (m : mobj R T) (st : solver T) (o : res houtput) : Prop :=
  match o with
  | Ok h => m_ps R T m = Some (h_sensors h) /\ h_idx h = Some (m_idx R T m) /\
      let e := h_result h in
      exists xs ss, eiv_steps st (g_xyza T st) xs ss /\ history st tol (g_xyza T st) xs (e_log e) /\
      length (e_log e) = e_iter e /\ length ss = e_iter e /\ 1 <= e_iter e <= n_vars st /\
      (forall k l, nth_error (e_log e) k = Some l -> S k < e_iter e -> ~ criteria l) /\
      (e_conv e = true <-> exists l, nth_error (e_log e) (e_iter e - 1) = Some l /\ criteria l) /\
      (e_conv e = false -> e_iter e = n_vars st) /\
      nth_error xs (e_iter e) = Some (e_xyza e) /\ e_a e = skipn (n_vars st) (e_xyza e) /\ length (e_a e) = length (h_sensors h) /\ e_cost e = cost_at st (e_xyza e) /\
      (if save then e_cov e = map (fun _ => repeat (Some 0%R) (length (e_a e))) (e_a e) else cov_matrix T eps xr (with_xyza T st (e_xyza e)) = Ok (e_cov e))
  | Raise x => x = TypeError /\ stationary st (g_xyza T st) \/
      x = ZeroDivisionError /\ exists xs ss y, eiv_steps st (g_xyza T st) xs ss /\ nth_error xs (length ss) = Some y /\ length ss < n_vars st /\
        linearly_solvable st y /\ ~ stationary st y
  end.
End Sensors.

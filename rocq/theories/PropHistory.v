(** * Properties of runs: the particles that are stored (C35, C36, C37, C47, C48) *)
From Coq Require Import ZArith Reals String List Bool Floats.SpecFloat.
From Verif Require Import Num XReal FloatNum PyBase Tools Scaler SpecScaler Particles LogLike Geometry Mcmc SpecMcmc McmcNum Flow Sampler
  SpecReach SpecRun SpecExact RunCase RunCaseFacts RunSteps ExactCase HistoryMain.
Import ListNotations.
Open Scope nat_scope.

(** The theorems below hold in any of these arithmetics. *)
Theorem C35_exact_arithmetic : @float_like X XNumT x_undefined x_random.
Proof. exact float_like_X. Qed.
Print Assumptions C35_exact_arithmetic.
Theorem C35_binary64_arithmetic exp log pow erf erfinv pi :
  exp (S754_infinity true) = S754_zero false -> exp S754_nan = S754_nan ->
  @float_like B64 (B64NumT exp log pow erf erfinv pi) b64_undefined b64_random.
Proof. exact (float_like_b64 exp log pow erf erfinv pi). Qed.
Print Assumptions C35_binary64_arithmetic.

(** ** C35 *)
(** For a stored particle logl, logp and blob are those of its x; either x and
    logdetj are the image of u and its log-Jacobian, or (a draw from the prior)
    u is the image of x and logdetj is the log-Jacobian of u. *)
Theorem C35_particles_are_consistent {T C P Opt} {NT : NumT T} (undefined random : T -> Prop) (W : world T C P Opt) lp ll bl drawn interrupts
  (s : sampler T C P) (p : particle T (list C)) :
  float_like undefined random -> regular W lp ll bl -> reachable W (good_draws random drawn) interrupts s -> in_history s p ->
  belongs lp ll (blobs_of (s_cfg s) bl) p /\
  (inverse_row (s_scaler s) (wd_junk W) (pt_u p) = Ok (pt_x p, pt_logdetj p) \/
   (forward_row (s_scaler s) (wd_junk W) (pt_x p) = Ok (pt_u p) /\
    exists x, inverse_row (s_scaler s) (wd_junk W) (pt_u p) = Ok (x, pt_logdetj p))).
Proof. exact (fun FL RG => main_consistent undefined random FL W lp ll bl RG drawn interrupts s p). Qed.
Print Assumptions C35_particles_are_consistent.
Example C35_case : exists p, in_history final64 p /\ regular world64 prior64 like64 (Some blob64) /\
  reachable world64 (good_draws b64_random drawn64) true final64.
Proof. exact (ex_intro _ _ (conj final64_particle (conj regular64 final64_reachable))). Qed.

(** In exact arithmetic, with bounds that are an array of low < high and draws
    strictly inside that are not all equal in a coordinate, x is always the
    image of u under the scaler (its inverse by C21, its Jacobian by C24). *)
Theorem C35_particles_are_consistent_exact {C P Opt} (W : world X C P Opt) lp ll bl interrupts rows (s : sampler X C P) p :
  regular W lp ll bl -> wd_bounds W = BArray true rows -> (forall r, In r rows -> admissible (fst r) (snd r)) ->
  reachable W (exact_draws rows) interrupts s -> c_n_dim (s_cfg s) = length rows -> length (wd_junk W) = length rows -> 2 <= c_n_prior (s_cfg s) ->
  in_history s p ->
  belongs lp ll (blobs_of (s_cfg s) bl) p /\
  constructed (s_scaler s) (length rows) rows /\ diagonal_scaling (s_scaler s) (length rows) /\
  inverse_row (s_scaler s) (wd_junk W) (pt_u p) = Ok (pt_x p, pt_logdetj p).
Proof. exact (consistent_exact W lp ll bl interrupts rows s p). Qed.
Print Assumptions C35_particles_are_consistent_exact.
Example C35_case_exact : regular worldX (fun _ => Fin 0%R) likeX None /\ (forall r, In r rowsX -> admissible (fst r) (snd r)) /\
  exists s p, reachable worldX (exact_draws rowsX) true s /\ in_history s p /\
  c_n_dim (s_cfg s) = length rowsX /\ length (wd_junk worldX) = length rowsX /\ 2 <= c_n_prior (s_cfg s).
Proof. exact (conj worldX_regular (conj rowsX_admissible caseX)). Qed.

(** ** C36 *)
Theorem C36_history_is_rectangular {T C P Opt} {NT : NumT T} (undefined random : T -> Prop) (W : world T C P Opt) lp ll bl drawn interrupts (s : sampler T C P) :
  float_like undefined random -> regular W lp ll bl -> reachable W (good_draws random drawn) interrupts s ->
  (forall f rows, wd_bounds W = BArray f rows -> length rows = c_n_dim (s_cfg s)) -> length (wd_junk W) = c_n_dim (s_cfg s) ->
  rectangular_history (history_of s) (c_n_active (s_cfg s)) (c_n_dim (s_cfg s))
    (match blobs_of (s_cfg s) bl with Some _ => true | None => false end).
Proof. exact (fun FL RG => main_rectangular undefined random FL W lp ll bl RG drawn interrupts s). Qed.
Print Assumptions C36_history_is_rectangular.
Example C36_case : reachable world64 (good_draws b64_random drawn64) true final64 /\
  iterations (history_of final64) = 4 /\ c_n_active (s_cfg final64) = 4 /\ c_n_dim (s_cfg final64) = 2.
Proof. exact (conj final64_reachable final64_size). Qed.

(** ** C37 *)
(** [drawable]: the point and its log-prior are finite, its log-likelihood is not NaN.
    In binary64 the log-Jacobian of a prior draw may overflow: if x is so close
    to a bound that the logit or probit of it is infinite. *)
Theorem C37_support_binary64 {C P Opt} exp log pow erf erfinv pi :
  let _ := B64NumT exp log pow erf erfinv pi in
  exp (S754_infinity true) = S754_zero false -> exp S754_nan = S754_nan ->
  forall (W : world B64 C P Opt) lp ll bl interrupts (s : sampler B64 C P) p, regular W lp ll bl ->
  reachable W (good_draws b64_random (drawable lp ll)) interrupts s -> in_history s p ->
  forallb nisfinite (pt_x p) = true /\ nisfinite (pt_logp p) = true /\ pt_logl p <> S754_nan /\ pt_logl p <> S754_infinity true /\
  (nisfinite (pt_logdetj p) = true \/ prior_draw (s_scaler s) (wd_junk W) (drawable lp ll) p).
Proof. exact (support_binary64 exp log pow erf erfinv pi). Qed.
Print Assumptions C37_support_binary64.
Example C37_case_binary64 : exists p, in_history final64 p /\ regular world64 prior64 like64 (Some blob64) /\
  reachable world64 (good_draws b64_random (drawable prior64 like64)) true final64.
Proof. exact (ex_intro _ _ (conj final64_particle (conj regular64 final64_reachable))). Qed.
Theorem C37_support_exact {C P Opt} (W : world X C P Opt) lp ll bl interrupts rows (s : sampler X C P) p :
  regular W lp ll bl -> wd_bounds W = BArray true rows -> (forall r, In r rows -> admissible (fst r) (snd r)) ->
  (forall x, strictly_inside rows x -> nisfinite (lp x) = true /\ nisnan (ll x) = false) ->
  reachable W (exact_draws rows) interrupts s -> c_n_dim (s_cfg s) = length rows -> length (wd_junk W) = length rows -> 2 <= c_n_prior (s_cfg s) ->
  in_history s p ->
  (exists x, pt_x p = map Fin x) /\ (exists l, pt_logdetj p = Fin l) /\ (exists l, pt_logp p = Fin l) /\ pt_logl p <> NaN /\ pt_logl p <> NInf.
Proof. exact (support_exact W lp ll bl interrupts rows s p). Qed.
Print Assumptions C37_support_exact.
Example C37_case_exact : exists s p, reachable worldX (exact_draws rowsX) true s /\ in_history s p /\
  c_n_dim (s_cfg s) = length rowsX /\ length (wd_junk worldX) = length rowsX /\ 2 <= c_n_prior (s_cfg s).
Proof. exact caseX. Qed.

(** ** C47 *)
(** Between the weights and the MCMC: every current particle is row j of stored
    iteration t, for a position t * n_active + j that was retained by trimming
    the weights. *)
Theorem C47_resampling_copies_particles {T C P Opt} {NT : NumT T} (undefined random : T -> Prop) (W : world T C P Opt) lp ll bl drawn interrupts
  fuel R (s s1 s2 s3 : sampler T C P) :
  float_like undefined random -> regular W lp ll bl -> reachable W (good_draws random drawn) interrupts s ->
  reweight fuel s = Ok s1 -> train W R s1 = Ok s2 -> resample R s2 = Ok s3 ->
  exists beta w0 neff w1 idx w2 left c3,
    relative_weights (history_of s) beta = Ok w0 /\ adjust (s_cfg s) (s_n_effective s) (normalise w0) = Ok (neff, w1) /\
    trim_weights (seq 0 (length w1)) w1 (nfrac 99 100) 1000 = Ok (idx, w2, left) /\
    s_current s3 = Some c3 /\ cu_beta c3 = beta /\ rectangular (current_arrays c3) (c_n_active (s_cfg s)) /\
    forall k, k < c_n_active (s_cfg s) -> exists t j, t < iterations (history_of s) /\ j < c_n_active (s_cfg s) /\
      In (t * c_n_active (s_cfg s) + j) idx /\ particle_at (current_arrays c3) k = particle_at (stored (history_of s) t) j.
Proof. exact (fun FL RG => main_resampled undefined random FL W lp ll bl RG drawn interrupts fuel R s s1 s2 s3). Qed.
Print Assumptions C47_resampling_copies_particles.
Example C47_case : reachable world64 (good_draws b64_random drawn64) true warm64 /\ reweight 60 warm64 = Ok reweighted64 /\
  train world64 rand64 reweighted64 = Ok trained64 /\ resample rand64 trained64 = Ok resampled64.
Proof. exact (conj (warm64_reachable true) (conj reweighted64_ok (conj trained64_ok resampled64_ok))). Qed.

(** ** C48 *)
(** [w0] is the batch as drawn; row k of the stored batch is row [source k] of
    it, itself unless the log-likelihood is infinite.  A NaN log-likelihood is
    not infinite and is kept. *)
Theorem C48_infinite_rows_are_replaced {T C P Opt} {NT : NumT T} (undefined random : T -> Prop) (W : world T C P Opt) lp ll bl drawn interrupts
  R i (s s' : sampler T C P) :
  float_like undefined random -> regular W lp ll bl -> reachable W (good_draws random drawn) interrupts s ->
  i < n_batches (s_cfg s) -> warmup_batch W R i s = Ok s' ->
  exists ps w0 source, s_prior_samples s = Some ps /\ w_x w0 = slice i (c_n_active (s_cfg s)) ps /\ rectangular w0 (c_n_active (s_cfg s)) /\
    iterations (history_of s') = S (iterations (history_of s)) /\
    forall k, k < c_n_active (s_cfg s) ->
      belongs lp ll (blobs_of (s_cfg s) bl) (particle_at w0 k) /\ source k < c_n_active (s_cfg s) /\
      particle_at (stored (history_of s') (iterations (history_of s))) k = particle_at w0 (source k) /\
      nisinf (pt_logl (particle_at w0 (source k))) = false /\
      (nisinf (pt_logl (particle_at w0 k)) = false -> source k = k).
Proof. exact (fun FL RG => main_batch undefined random FL W lp ll bl RG drawn interrupts R i s s'). Qed.
Print Assumptions C48_infinite_rows_are_replaced.
Example C48_case : reachable world64 (good_draws b64_random drawn64) true drawn_state64 /\ warmup_batch world64 rand64 1 drawn_state64 = Ok batch_state64.
Proof. exact (conj (drawn_state64_reachable true) batch_state64_ok). Qed.

(** If every log-likelihood of the batch is infinite, no batch is stored; the
    exception is a ValueError, unless the user's functions raised before. *)
Theorem C48_all_infinite {T C P Opt} {NT : NumT T} (undefined random : T -> Prop) (W : world T C P Opt) lp ll bl drawn interrupts R i (s : sampler T C P) ps :
  float_like undefined random -> regular W lp ll bl -> reachable W (good_draws random drawn) interrupts s ->
  s_prior_samples s = Some ps -> i < n_batches (s_cfg s) ->
  (forall x, In x (slice i (c_n_active (s_cfg s)) ps) -> nisinf (ll x) = true) ->
  (forall s', warmup_batch W R i s <> Ok s') /\
  (forall u r lps r', forward (s_scaler s) (wd_junk W) (slice i (c_n_active (s_cfg s)) ps) true = Ok u -> inverse (s_scaler s) (wd_junk W) u = Ok r ->
     wd_logpdf W (slice i (c_n_active (s_cfg s)) ps) = Ok lps -> sampler_like W s (slice i (c_n_active (s_cfg s)) ps) = Ok r' ->
     warmup_batch W R i s = Err ValueError).
Proof. exact (fun FL RG => main_all_infinite undefined random FL W lp ll bl RG drawn interrupts R i s ps). Qed.
Print Assumptions C48_all_infinite.
Example C48_case_all_infinite : regular zero64 prior64 (fun _ => nopp ninf) None /\
  reachable zero64 (good_draws b64_random drawn64) true drawn_state64 /\ warmup_batch zero64 rand64 0 drawn_state64 = Err ValueError.
Proof. exact (conj zero64_regular zero64_case). Qed.

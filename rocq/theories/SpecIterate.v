(** * Small specification of the MCMC phase of one iteration, in real numbers *)
From Coq Require Import Reals ZArith List Bool Sorted.
From Coq Require Import List.
From Verif Require Import Num PyBase XReal Tools Scaler SpecScaler Particles LogLike Geometry SpecGeometry Mcmc SpecMcmc SpecBalance SpecChain Flow Sampler
  SpecReach SpecRun SpecExact SpecTools SpecParticles SpecTrace SpecPosterior.
Import ListNotations.
Local Open Scope R_scope.

(** The prior and the likelihood work row by row, in [length rows >= 1]
    parameters with the ranges [rows].  Inside the ranges the log-prior is a real
    number and the log-likelihood is not NaN; the log-likelihood is nowhere
    +infinity.  The array of numpy.empty has the right length. *)
Record exact_model {C P Opt} (W : world X C P Opt) (lp ll : vec X -> X) (bl : option (vec X -> list C)) (rows : list (X * X)) : Prop := {
  em_regular : regular W lp ll bl;
  em_bounds : wd_bounds W = BArray true rows;
  em_admissible : forall r, In r rows -> admissible (fst r) (snd r);
  em_inside : forall x, strictly_inside rows x -> nisfinite (lp x) = true /\ nisnan (ll x) = false;
  em_bounded : bounded_like ll;
  em_junk : length (wd_junk W) = length rows;
  em_dim : (0 < length rows)%nat }.
(** The sampler was made for as many parameters and for at least two prior
    draws, with [n_steps >= 0]; the periodic and reflective parameters exist. *)
Record exact_sampler {C P} (rows : list (X * X)) (s : sampler X C P) : Prop := {
  es_dim : c_n_dim (s_cfg s) = length rows;
  es_prior : (2 <= c_n_prior (s_cfg s))%nat;
  es_steps : (0 <= c_n_steps (s_cfg s))%Z;
  es_periodic : index_list_ok (length rows) (periodic (s_scaler s));
  es_reflective : index_list_ok (length rows) (reflective (s_scaler s)) }.

(** the fitted geometry that the kernel is given *)
Definition geometry_in_use {C P} (s : sampler X C P) : geometry X :=
  if c_preconditioned (s_cfg s) then s_theta_geometry s else s_u_geometry s.
(** the random numbers of the MCMC steps of the iteration that ended in [s'] *)
Definition step_numbers {C P} (R : rand X C P) (s' : sampler X C P) : Z -> step_rand X (list C) := ir_step (rn_iter R (s_t s')).

(** ** Reweighting and resampling *)
(** the normalised importance weights, at inverse temperature [b], of particles
    of log-likelihoods [ls]: iteration t sampled from L^bs_t / exp zs_t *)
Definition weights_of (bs zs : list R) (b : R) (ls : list R) : list R :=
  let v := map (balance_weight bs zs b) ls in map (fun x => x / total v) v.
(** [remain], with the weights [q], are the stored particles that remain at
    inverse temperature [b]: those whose importance weight is at least [tau], the
    largest of 1000 percentiles that keeps 99% of the effective sample size *)
Definition remaining {C P} (s : sampler X C P) (b : R) (remain : list (particle X (list C))) (q : list R) : Prop :=
  exists ls bs zs idx l j tau,
    history (history_of s) ls bs zs /\ map pt_logl (all_particles s) = map Fin (concat ls) /\
    at_positions (all_particles s) idx remain /\ StronglySorted lt idx /\ map pt_logl remain = map Fin l /\
    q = weights_of bs zs b l /\
    let everything := weights_of bs zs b (concat ls) in
    at_least tau everything idx /\ (j < 1000)%nat /\ is_percentile everything (grid_point 1000 j) tau /\
    99 / 100 * kish_ess everything <= kish_ess q /\
    forall j' tau', (j < j' < 1000)%nat -> is_percentile everything (grid_point 1000 j') tau' ->
      kish_ess (filter (Rleb tau') everything) < 99 / 100 * kish_ess everything.
(** [n] positions are picked among the weights [q] with the given random numbers *)
Definition picks (m : scheme) (uniform : nat -> R) (offset : R) (n : nat) (q : list R) (again : list nat) : Prop :=
  length again = n /\ forall k i, nth_error again k = Some i -> (i < length q)%nat /\
  match m with
  | MULT => total (firstn i q) <= uniform k < total (firstn (S i) q)
  | SYST => let position := (offset + INR k) / INR n in (i = 0%nat \/ total (firstn i q) < position) /\ position <= total (firstn (S i) q)
  end.
(** the random numbers of the resampling phase of iteration [t] *)
Definition resampling_draws {C P} (R0 : rand X C P) (t : Z) (uniform : nat -> R) (offset : R) : Prop :=
  (forall k, ir_uniform (rn_iter R0 t) k = Fin (uniform k) /\ 0 <= uniform k < 1) /\ ir_offset (rn_iter R0 t) = Fin offset /\ 0 <= offset < 1.
(** The points [us] are those of particles picked among the remaining ones *)
Definition resampled_points {C P} (R0 : rand X C P) (s s' : sampler X C P) (b : R) (us : list (list R)) : Prop :=
  exists remain q again starts, remaining s b remain q /\ at_positions remain again starts /\ map pt_u starts = map (map Fin) us /\
    forall uniform offset, resampling_draws R0 (s_t s') uniform offset -> picks (c_resample (s_cfg s)) uniform offset (c_n_active (s_cfg s)) q again.

(** The iteration from [s] to [s'] resampled the points [us] of stored particles
    and moved them along the chains [c] to [final], at inverse temperature
    [beta]; the first step size was derived from [p], the last one of the
    previous iteration.  The number of steps, the mean acceptance probability of
    the last step and the ratio of the last step size to the optimal one were
    recorded. *)
Record moved {C P} (R0 : rand X C P) (s s' : sampler X C P) (beta p : R) (us : list (list R)) (c : chain) (final : mat X) : Prop := {
  mv_beta : h_beta (history_of s') = h_beta (history_of s) ++ [Fin beta] /\ 0 <= beta <= 1;
  mv_number : length us = c_n_active (s_cfg s);
  mv_start : forall u, In u us -> exists q, in_history s q /\ pt_u q = map Fin u;
  mv_selected : resampled_points R0 s s' beta us;
  mv_end : h_u (history_of s') = h_u (history_of s) ++ [final];
  mv_scale : s_scale s = Fin p;
  mv_last : s_scale s' = Fin (ch_scale c (ch_steps c));
  mv_steps : h_steps (history_of s') = h_steps (history_of s) ++ [Z.of_nat (ch_steps c)];
  mv_accept : h_accept (history_of s') = h_accept (history_of s) ++ [Fin (average (c_n_active (s_cfg s)) (ch_prob c (ch_steps c)))];
  mv_efficiency : h_efficiency (history_of s') = h_efficiency (history_of s) ++ [Fin (ch_scale c (ch_steps c) / optimal_scale (c_n_dim (s_cfg s)))] }.

(** ** The fitted geometry *)
(** the answers of np.linalg.cholesky and np.linalg.inv are right *)
Record good_linalg (d : nat) (la : linalg X) : Prop := {
  gl_cholesky : forall V M, square d V -> symmetric d V -> la_cholesky la (fin_mat V) = Ok M -> exists L, M = fin_mat L /\ cholesky_of d L V;
  gl_inv : forall V M, square d V -> symmetric d V -> la_inv la (fin_mat V) = Ok M -> exists Vi, M = fin_mat Vi /\ inverse_of d Vi V }.
(** number of particles that survived the trimming of the last iteration *)
Definition kept {C P} (s' : sampler X C P) : nat :=
  match s_current s' with Some c => match cu_weights c with Some w => length w | None => 0%nat end | None => 0%nat end.
(** the iteration from [s] to [s'] trained the flow: for the first time, or at
    the training frequency, or at inverse temperature 1 *)
Definition trained_in {C P} (s s' : sampler X C P) : Prop :=
  s_untrained s = true \/ (s_t s' mod c_train_frequency (s_cfg s) = 0)%Z \/ exists bs, h_beta (history_of s') = bs ++ [Fin 1].

(** the same training options, with another batch size *)
Definition with_batch_size (c : fit_config X) (n : Z) : fit_config X :=
  {| c_validation_split := c_validation_split c; c_epochs := c_epochs c; c_batch_size := n; c_patience := c_patience c;
     c_learning_rate := c_learning_rate c; c_weight_decay := c_weight_decay c; c_laplace_scale := c_laplace_scale c; c_gaussian_scale := c_gaussian_scale c;
     c_annealing := c_annealing c; c_noise := c_noise c; c_shuffle := c_shuffle c; c_clip_grad_norm := c_clip_grad_norm c;
     c_verbose := c_verbose c |}.

(** ** Totality *)
(** the prior returns for all points, and None can be converted to the type of the blobs, if any *)
Record returning {C P Opt} (W : world X C P Opt) (lp : vec X -> X) (bl : option (vec X -> list C)) : Prop := {
  rt_prior : forall xs, wd_logpdf W xs = Ok (map lp xs);
  rt_blob : bl <> None -> wd_none_blob W <> None }.
(** the random numbers of the resampling phase of iteration [t] are in [0,1) *)
Record resampling_numbers {C P} (R : rand X C P) (t : Z) : Prop := {
  rs_uniform : forall k, exists u, ir_uniform (rn_iter R t) k = Fin u /\ 0 <= u < 1;
  rs_offset : exists u, ir_offset (rn_iter R t) = Fin u /\ 0 <= u < 1 }.
(** after training, the kernel chosen by the options has what it needs *)
Definition ready {C P Opt} (W : world X C P Opt) (d : nat) (s2 : sampler X C P) (rand : Z -> step_rand X (list C)) : Prop :=
  match c_sample (s_cfg s2) with
  | RWMH => exists V L, normal_fit (kernel_env_of W s2) d (geometry_in_use s2) V L
  | TPCN => (exists V L Vi mu nu, student_fit (kernel_env_of W s2) d (geometry_in_use s2) V L Vi mu nu) /\ exists gamma, exact_gamma rand gamma
  end /\ (c_preconditioned (s_cfg s2) = true -> flow_bijection (kernel_env_of W s2) d).

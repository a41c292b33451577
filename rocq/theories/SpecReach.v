(** * Which states a sampler can be in *)
From Coq Require Import ZArith List Bool.
From Verif Require Import Num PyBase Tools Scaler Particles LogLike Geometry Mcmc SpecMcmc Flow Sampler.
Import ListNotations.

Section Spec.
  Context {T C P Opt : Type} {NT : NumT T}.
  Notation B := (list C).

  (** a pool evaluates a function at every point and returns the results in order
      (for the MPI pool: C61-C65) *)
  Definition maps (p : option (mapfn T C)) : Prop :=
    match p with None => True | Some m => forall f xs, m f xs = map f xs end.

  Variable W : world T C P Opt.

  (** the training of the flow has begun and is interrupted (sampler.py:653-669):
      the flow is marked as trained, its parameters are [p], the geometry of the
      latent space has not been updated *)
  Definition in_training (s : sampler T C P) (p : P) : sampler T C P :=
    {| s_cfg := s_cfg s; s_pool := s_pool s; s_n_effective := s_n_effective s; s_have_blobs := s_have_blobs s;
       s_n_total := s_n_total s; s_n_evidence := s_n_evidence s; s_particles := s_particles s; s_t := s_t s;
       s_u_geometry := s_u_geometry s; s_theta_geometry := s_theta_geometry s; s_flow := p;
       s_untrained := false; s_scaler := s_scaler s; s_prior_samples := s_prior_samples s;
       s_logz := s_logz s; s_logz_err := s_logz_err s; s_current := s_current s; s_warmup := s_warmup s;
       s_calls := s_calls s; s_scale := s_scale s; s_evals := s_evals s; s_evidence_evals := s_evidence_evals s |}.

  (** [fair]: what is assumed of the random numbers.  [interrupts]: whether an
      exception may stop the training of the flow, the sampler being used again
      afterwards. *)
  Variable fair : rand T C P -> Prop.
  Variable interrupts : bool.

  (** The states between two phases of a run, through any number of runs, saves,
      loads and exceptions caught by the user (an exception leaves the sampler as
      it was after the last phase that was completed). *)
  Inductive reachable : sampler T C P -> Prop :=
  | rc_new o s : new_sampler W o = Ok s -> maps (s_pool s) -> reachable s
  | rc_targets n_total n_evidence s : reachable s -> reachable (set_targets n_total n_evidence s)
  | rc_prior R s s' : reachable s -> fair R -> draw_prior W R s = Ok s' -> reachable s'
  | rc_batch R i s s' : reachable s -> fair R -> s_warmup s = true -> (i < n_batches (s_cfg s))%nat ->
      warmup_batch W R i s = Ok s' -> reachable s'
  | rc_end s : reachable s -> s_warmup s = true -> reachable (end_warmup s)
  | rc_iteration fuel R s s' : reachable s -> fair R -> s_warmup s = false -> not_termination s = Ok true ->
      iteration W fuel R s = Ok s' -> reachable s'
  | rc_evidence R s s' : reachable s -> fair R -> s_warmup s = false -> final_evidence W R s = Ok s' -> reachable s'
  | rc_results s : reachable s -> reachable (snd (results_of s))
  | rc_load saved self : reachable saved -> reachable self -> reachable (load saved self)
  (** exceptions *)
  | rc_reweighted fuel s s1 : reachable s -> s_warmup s = false -> not_termination s = Ok true ->
      reweight fuel s = Ok s1 -> reachable s1
  | rc_trained fuel R s s1 s2 : reachable s -> fair R -> s_warmup s = false -> not_termination s = Ok true ->
      reweight fuel s = Ok s1 -> train W R s1 = Ok s2 -> reachable s2
  | rc_resampled fuel R s s1 s2 s3 : reachable s -> fair R -> s_warmup s = false -> not_termination s = Ok true ->
      reweight fuel s = Ok s1 -> train W R s1 = Ok s2 -> resample R s2 = Ok s3 -> reachable s3
  | rc_training fuel s s1 c p : interrupts = true -> reachable s -> s_warmup s = false -> not_termination s = Ok true ->
      reweight fuel s = Ok s1 -> s_current s1 = Some c -> trains s1 (cu_beta c) = Ok true -> reachable (in_training s1 p).
End Spec.

Section Arrays.
  Context {T C P : Type}.
  Notation B := (list C).
  (** the arrays of the current particles, of one stored iteration, and of all
      stored iterations *)
  Definition current_arrays (c : current T C) : walkers T B :=
    {| w_theta := []; w_ldf := []; w_u := cu_u c; w_x := cu_x c; w_logdetj := cu_logdetj c; w_logl := cu_logl c;
       w_logp := cu_logp c; w_blobs := cu_blobs c |}.
  Definition stored (p : past T B) (t : nat) : walkers T B :=
    {| w_theta := []; w_ldf := []; w_u := nth t (h_u p) []; w_x := nth t (h_x p) []; w_logdetj := nth t (h_logdetj p) [];
       w_logl := nth t (h_logl p) []; w_logp := nth t (h_logp p) []; w_blobs := nth t (h_blobs p) None |}.
  (** number of stored iterations *)
  Definition iterations (p : past T B) : nat := length (h_u p).
  Definition history_of (s : sampler T C P) : past T B := p_past (s_particles s).
End Arrays.

(** ** What the user supplies *)
(** The prior and the likelihood work row by row: log-prior [lp], log-likelihood
    [ll]; the likelihood returns blobs [b] at every point, or at none. *)
Record regular {T C P Opt} {NT : NumT T} (W : world T C P Opt) (lp ll : vec T -> T) (bl : option (vec T -> list C)) : Prop := {
  rg_prior : forall xs v, wd_logpdf W xs = Ok v -> v = map lp xs;
  rg_vector : forall xs, wd_vlike W xs = map ll xs;
  rg_like : match bl with
            | None => forall x, wd_like W x = RScalar (ll x) \/ wd_like W x = RArray1 (ll x)
            | Some b => forall x, b x <> [] /\ wd_like W x = RTuple (ll x) (b x)
            end
}.
(** a vectorized likelihood has no blobs *)
Definition blobs_of {T C} (cfg : config T) (bl : option (vec T -> list C)) : option (vec T -> list C) :=
  if c_vectorize cfg then None else bl.

(** the random numbers: prior.rvs returns as many points as it is asked for,
    all of them satisfying [drawn]; uniform numbers satisfy [random] *)
Record good_draws {T C P} {NT : NumT T} (random : T -> Prop) (drawn : vec T -> Prop) (R : rand T C P) : Prop := {
  gd_size : forall n ps, rn_prior R n = Ok ps -> length ps = n;
  gd_drawn : forall n ps, rn_prior R n = Ok ps -> Forall drawn ps;
  gd_uniform : forall t i k, random (r_unif (ir_step (rn_iter R t) i) k)
}.

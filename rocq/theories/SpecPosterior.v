(** * Specification vocabulary: what posterior() returns *)
From Coq Require Import ZArith List Bool.
From Verif Require Import Num PyBase Tools Scaler Particles LogLike Geometry Mcmc SpecMcmc Flow Sampler SpecReach SpecTrace.
Import ListNotations.

(** all stored particles, iteration by iteration *)
Definition all_particles {T C P} {NT : NumT T} (s : sampler T C P) : list (particle T (list C)) :=
  flat_map (fun t => particles_of (history_of s) t (c_n_active (s_cfg s))) (seq 0 (iterations (history_of s))).
(** [rows] are the particles at the positions [idx] of [l] *)
Definition at_positions {A} (l : list A) (idx : list nat) (rows : list A) : Prop := Forall2 (fun i p => nth_error l i = Some p) idx rows.
(** the i-th sample, log-likelihood, log-prior and blob are those of the i-th of
    the particles [rows] *)
Record rows_are {T C} {NT : NumT T} (o : posterior_out T C) (blobs : bool) (rows : list (particle T (list C))) : Prop := {
  ra_x : po_x o = map pt_x rows;
  ra_logl : po_logl o = map pt_logl rows;
  ra_logp : po_logp o = map pt_logp rows;
  ra_blobs : match po_blobs o with Some b => blobs = true /\ map Some b = map pt_blob rows | None => blobs = false end }.
(** the same arguments, with another value of return_logw *)
Definition with_logw {T} (a : posterior_args T) (b : bool) : posterior_args T :=
  {| pa_resample := pa_resample a; pa_return_blobs := pa_return_blobs a; pa_trim := pa_trim a; pa_return_logw := b; pa_ess := pa_ess a; pa_bins := pa_bins a |}.

(** ** Exact arithmetic *)
From Coq Require Import Reals.
From Verif Require Import XReal SpecTools SpecParticles.
Local Open Scope R_scope.
(** the normalised importance weights, at inverse temperature 1, of particles of
    log-likelihoods [ls]: iteration t sampled from L^bs_t / exp zs_t *)
Definition normalised_weights (bs zs ls : list R) : list R :=
  let v := map (balance_weight bs zs 1) ls in map (fun x => x / total v) v.
(** the positions, in increasing order, at which the weights are at least tau *)
Definition at_least (tau : R) (ws : list R) (idx : list nat) : Prop :=
  forall i, In i idx <-> (i < length ws)%nat /\ tau <= nth i ws 0.

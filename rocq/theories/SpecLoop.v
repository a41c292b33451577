(** * Specification vocabulary for the iterations of a run *)
From Coq Require Import ZArith List Bool.
From Verif Require Import Num PyBase Tools Scaler Particles LogLike Geometry Mcmc SpecMcmc Flow Sampler SpecReach.
Import ListNotations.

(** all attributes of the geometry have been computed *)
Definition fitted {T} (g : geometry T) : Prop :=
  normal_mean g <> None /\ normal_cov g <> None /\ t_mean g <> None /\ t_cov g <> None /\ t_nu g <> None.
(** the geometry of the space in which the Markov chains of a sampler move *)
Definition geometry_in_use {T C P} (s : sampler T C P) : geometry T :=
  if c_preconditioned (s_cfg s) then s_theta_geometry s else s_u_geometry s.

(** the flow is to be trained at an iteration of counter [t] at inverse temperature [beta] *)
Definition training_due {T} {NT : NumT T} (preconditioned untrained : bool) (frequency t : Z) (beta : T) : Prop :=
  preconditioned = true /\ (untrained = true \/ (frequency | t)%Z \/ neqb beta (nofZ 1) = true).

(** the random numbers: prior.rvs returns as many points as it is asked for *)
Definition sized {T C P} (R : rand T C P) : Prop := forall n ps, rn_prior R n = Ok ps -> length ps = n.

(** flow.sample returns as many densities as points *)
Definition flow_sized {T C P} (R : rand T C P) : Prop := forall p n, length (snd (rn_flow R p n)) = length (fst (rn_flow R p n)).

(** run has nothing left to do in state [s]: the inverse temperature [beta] of
    the current particles is within 1e-4 of 1, and the effective sample size
    [ess] of all particles at 1 has reached the target *)
Definition converged {T C P} {NT : NumT T} (s : sampler T C P) (n_total : Z) : Prop :=
  exists c ess, s_current s = Some c /\ nleb (nfrac 1 10000) (nsub (nofZ 1) (cu_beta c)) = false /\
    ess_at (c_metric (s_cfg s)) (history_of s) (nofZ 1) = Ok ess /\ nltb ess (nofZ n_total) = false.

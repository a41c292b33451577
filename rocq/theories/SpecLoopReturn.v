(** * Small specification of a loop of iterations that raises nothing *)
From Coq Require Import Reals ZArith List.
From Coq Require Import List.
From Verif Require Import Num PyBase XReal Scaler Particles LogLike Geometry SpecGeometry Mcmc SpecMcmc SpecBalance SpecChain Flow Sampler SpecReach SpecRun SpecPosterior SpecIterate SpecLater
  SpecReturn SpecTrainReturn SpecFlowReturn.
Import ListNotations.
Local Open Scope R_scope.

Section Loop.
  Context {C P Opt : Type} (W : world X C P Opt) (rnd : rand X C P).
  (** the random numbers of the iteration that has chosen its inverse temperature in
      state [s1] are what the libraries return, and the survivors that the proposal
      distribution is fitted to (their images, if the flow is trained) are not all in
      one hyperplane *)
  Record good_iteration (d : nat) (s1 : sampler X C P) : Prop := {
    gi_spread : well_spread d rnd s1;
    gi_latent : c_preconditioned (s_cfg s1) = true -> well_spread_latent W rnd d s1 /\ fit_permutations rnd s1;
    gi_fit : fit_number rnd (s_t s1);
    gi_resampling : resampling_numbers rnd (s_t s1);
    gi_steps : exists normal uniform, exact_rand (c_n_active (s_cfg s1)) (step_numbers rnd s1) normal uniform;
    gi_gamma : exists gamma, exact_gamma (step_numbers rnd s1) gamma }.
  (** every iteration of the loop that begins in state [s] is such *)
  Definition good_loop (d : nat) (s : sampler X C P) : Prop :=
    forall fuel s' s1, s' = s \/ later W rnd s s' -> not_termination s' = Ok true -> reweight fuel s' = Ok s1 -> good_iteration d s1.
  (** the loop has gone through [n] iterations since [s], and goes on *)
  Definition gone_through (n : nat) (s : sampler X C P) : Prop :=
    exists s', (s' = s \/ later W rnd s s') /\ iterations (history_of s') = (iterations (history_of s) + n)%nat /\ not_termination s' = Ok true.
End Loop.

(** * Small specification: the iterations of one run *)
From Coq Require Import Reals ZArith List.
From Coq Require Import List.
From Verif Require Import Num PyBase XReal Particles LogLike Geometry Mcmc SpecChain Flow Sampler SpecReach SpecExact SpecIterate.
Import ListNotations.
Local Open Scope R_scope.

Section Later.
  Context {C P Opt : Type} (W : world X C P Opt) (rnd : rand X C P).
  (** [s'] is the state after one or more iterations of a run that was in [s]
      after the warm-up *)
  Inductive later : sampler X C P -> sampler X C P -> Prop :=
  | later_one fuel s s' : s_warmup s = false -> not_termination s = Ok true -> iteration W fuel rnd s = Ok s' -> later s s'
  | later_more fuel s s' s'' : later s s' -> not_termination s' = Ok true -> iteration W fuel rnd s' = Ok s'' -> later s s''.
End Later.
(** every effective sample size that was recorded between [s] and [s'] exceeds 100/99 *)
Definition enough_recorded {C P} (s s' : sampler X C P) : Prop :=
  exists es, h_ess (history_of s') = h_ess (history_of s) ++ map Fin es /\ Forall (fun e => 100 / 99 < e) es.
(** the distribution that the kernel of the last iteration was given is proper *)
Definition proper_proposal {C P Opt} (W : world X C P Opt) (d : nat) (s' : sampler X C P) : Prop :=
  match c_sample (s_cfg s') with
  | RWMH => exists V L, normal_fit (kernel_env_of W s') d (geometry_in_use s') V L
  | TPCN => exists V L Vi mu nu, student_fit (kernel_env_of W s') d (geometry_in_use s') V L Vi mu nu
  end.

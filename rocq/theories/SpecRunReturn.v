(** * Small specification of a run that raises nothing *)
From Coq Require Import Reals ZArith List.
From Coq Require Import List.
From Verif Require Import Num PyBase XReal Scaler Particles LogLike Geometry SpecGeometry Mcmc Flow Sampler SpecReach.
Import ListNotations.

Section Run.
  Context {C P Opt : Type} (W : world X C P Opt) (rnd : rand X C P).
  (** The prior returns the draws that it is asked for, at least [n_active] of them;
      every [n_active] consecutive ones that make up a batch of the warm-up have
      one among them at which the log-likelihood is not infinite. *)
  Definition good_prior (ll : vec X -> X) (s : sampler X C P) : Prop :=
    let n := c_n_active (s_cfg s) in (0 < n <= c_n_prior (s_cfg s))%nat /\
    exists ps, rn_prior rnd (c_n_prior (s_cfg s)) = Ok ps /\
      forall i, ((i + 1) * n <= length ps)%nat -> exists k x, (i * n <= k < (i + 1) * n)%nat /\ nth_error ps k = Some x /\ nisinf (ll x) = false.
  (** what the flow is asked for at the end are real points of [d] coordinates *)
  Definition flow_samples (d : nat) : Prop :=
    forall p n, exists ths, fst (rn_flow rnd p n) = fin_mat ths /\ Forall (fun th => length th = d) ths.
  (** the run that begins in [s] with these arguments is in [s0] after the warm-up *)
  Definition warmed (n_total n_evidence : Z) (save : option Z) (s s0 : sampler X C P) : Prop :=
    exists s1, draw_prior W rnd (set_targets n_total n_evidence s) = Ok s1 /\ snd (warmup W save (s_t s) rnd s1) = Ok s0.
End Run.

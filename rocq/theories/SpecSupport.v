(** * Where the likelihood is evaluated, and the mean of importance weights *)
From Coq Require Import ZArith List Bool.
From Verif Require Import Num PyBase Tools Scaler Particles LogLike Geometry Mcmc Flow Sampler.
Import ListNotations.

Section Spec.
  Context {T C P Opt : Type} {NT : NumT T}.
  (** the same prior, flow, ..., with another likelihood *)
  Definition with_likelihood (W : world T C P Opt) (like : vec T -> lret T C) (vlike : mat T -> vec T) : world T C P Opt :=
    {| wd_logpdf := wd_logpdf W; wd_bounds := wd_bounds W; wd_dim := wd_dim W; wd_like := like; wd_vlike := vlike;
       wd_mp := wd_mp W; wd_build := wd_build W; wd_train := wd_train W; wd_flow_forward := wd_flow_forward W;
       wd_flow_inverse := wd_flow_inverse W; wd_linalg := wd_linalg W; wd_fit := wd_fit W; wd_none_blob := wd_none_blob W;
       wd_junk := wd_junk W; wd_bc_fuel := wd_bc_fuel W; wd_to_f32 := wd_to_f32 W |}.
  (** a likelihood that returns what that of [W] returns wherever [ok] holds,
      and anything elsewhere *)
  Definition agrees (W : world T C P Opt) (ok : vec T -> bool) (like : vec T -> lret T C) (vlike : mat T -> vec T) : Prop :=
    (forall x, ok x = true -> like x = wd_like W x) /\ (forall xs, forallb ok xs = true -> vlike xs = wd_vlike W xs).
  (** finite log-prior *)
  Definition possible (lp : vec T -> T) (x : vec T) : bool := nisfinite (lp x).
End Spec.

(** * posterior() in any arithmetic *)
From Coq Require Import ZArith Sorted.
From Coq Require Import List Bool.
From Verif Require Import Num PyBase Tools Scaler Particles LogLike Geometry Mcmc SpecMcmc McmcNum Flow Sampler SpecReach SpecRun SpecTrace SpecPosterior PosteriorFacts.
Import ListNotations.
Set Bullet Behavior "Strict Subproofs".

Theorem main_rows {T C P Opt} {NT : NumT T} (undefined random : T -> Prop) (FL : float_like undefined random) (W : world T C P Opt) lp ll bl (RG : regular W lp ll bl)
  (drawn : vec T -> Prop) interrupts a us offset (s : sampler T C P) o :
  reachable W (good_draws random drawn) interrupts s -> posterior a us offset s = Ok o ->
  exists idx rows, at_positions (all_particles s) idx rows /\ StronglySorted lt idx /\ (pa_trim a = false -> rows = all_particles s) /\
    if pa_resample a then exists again rows', at_positions rows again rows' /\ rows_are o (pa_return_blobs a) rows' /\ po_w o = None
    else rows_are o (pa_return_blobs a) rows /\ exists w, po_w o = Some w /\ length w = length rows.
Proof. destruct FL as [L [good U]]. exact (posterior_particles W undefined random good L U lp ll bl RG drawn interrupts a us offset s o). Qed.

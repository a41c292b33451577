(** * Assumptions on the prior draws in exact arithmetic *)
From Coq Require Import Reals List.
From Coq Require Import List.
From Verif Require Import Num PyBase XReal Scaler SpecScaler McmcNum Sampler SpecReach.
Import ListNotations.

(** a finite point strictly inside the parameter ranges *)
Definition strictly_inside (rows : list (X * X)) (x : vec X) : Prop :=
  exists r, x = map Fin r /\ row_inside (map fst rows) (map snd rows) r.
(** The prior draws lie strictly inside the ranges; among at least two of them
    no parameter has the same value in all.  Uniform numbers are in [0,1). *)
Record exact_draws {C P} (rows : list (X * X)) (R : rand X C P) : Prop := {
  ed_draws : good_draws x_random (strictly_inside rows) R;
  ed_spread : forall n ps i, rn_prior R n = Ok ps -> (2 <= n)%nat -> (i < length rows)%nat ->
    exists x y, In x ps /\ In y ps /\ nth i x NaN <> nth i y NaN }.

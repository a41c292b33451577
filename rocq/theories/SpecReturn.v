(** * Small specification of the iterations that return, without the flow *)
From Coq Require Import Reals ZArith List.
From Coq Require Import List.
From Verif Require Import Num PyBase XReal Scaler Particles LogLike Geometry SpecGeometry Mcmc SpecMcmc SpecBalance SpecChain Flow Sampler SpecPosterior SpecIterate.
Import ListNotations.
Local Open Scope R_scope.

(** np.linalg.cholesky and np.linalg.inv succeed on symmetric positive definite
    matrices; so do np.linalg.solve and scipy.optimize.bisect of the fit *)
Record total_linalg (d : nat) (la : linalg X) : Prop := {
  tl_cholesky : forall V, square d V -> symmetric d V -> pd d V -> exists M, la_cholesky la (fin_mat V) = Ok M;
  tl_inv : forall V, square d V -> symmetric d V -> pd d V -> exists M, la_inv la (fin_mat V) = Ok M }.
Record total_fit (d : nat) (o : fit_oracles X) : Prop := {
  tf_solve : total_solve d o;
  tf_bisect : forall f, exists v, o_bisect o f = Ok v }.

(** [pts] are the points to which the Student-t distribution is fitted in the
    iteration that goes on from [s1]: as many as there are survivors, drawn from
    them by systematic resampling *)
Definition fit_sample {C P} (R0 : rand X C P) (s1 : sampler X C P) (pts : list (list R)) : Prop :=
  exists c q us offset again, s_current s1 = Some c /\ cu_u c = fin_mat us /\ cu_weights c = Some (map Fin q) /\
    ir_geometry (rn_iter R0 (s_t s1)) = Fin offset /\ picks SYST (fun _ => 0) offset (length us) q again /\ at_positions us again pts.
(** they are not all in one hyperplane *)
Definition well_spread {C P} (d : nat) (R0 : rand X C P) (s1 : sampler X C P) : Prop := forall pts, fit_sample R0 s1 pts -> spanning d pts.
(** the random number of the fit is in [0,1) *)
Definition fit_number {C P} (R0 : rand X C P) (t : Z) : Prop := exists u, ir_geometry (rn_iter R0 t) = Fin u /\ 0 <= u < 1.

(** * Specification vocabulary: NaN *)
From Coq Require Import ZArith List Bool.
From Verif Require Import Num PyBase Scaler Particles LogLike Geometry Mcmc Flow Sampler SpecReach.
Import ListNotations.

(** what IEEE-754 says of NaN: it propagates, does not compare, and has no integer
    part; and 1e-4 <= 1 - 0 *)
Record nan_like {T} {NT : NumT T} : Prop := {
  na_sub : forall a b : T, nisnan a = true \/ nisnan b = true -> nisnan (nsub a b) = true;
  na_add : forall a b : T, nisnan a = true \/ nisnan b = true -> nisnan (nadd a b) = true;
  na_mul : forall a b : T, nisnan a = true \/ nisnan b = true -> nisnan (nmul a b) = true;
  na_div : forall a b : T, nisnan a = true \/ nisnan b = true -> nisnan (ndiv a b) = true;
  na_abs : forall a : T, nisnan a = true -> nisnan (nabs a) = true;
  na_exp : forall a : T, nisnan a = true -> nisnan (nexp a) = true;
  na_ltb : forall a b : T, nisnan a = true \/ nisnan b = true -> nltb a b = false;
  na_leb : forall a b : T, nisnan a = true \/ nisnan b = true -> nleb a b = false;
  na_eqb : forall a b : T, nisnan a = true \/ nisnan b = true -> neqb a b = false;
  na_trunc : forall a : T, nisnan a = true -> ntrunc a = None;
  na_gap : nleb (nfrac 1 10000) (nsub (@nofZ T _ 1) (@nofZ T _ 0)) = true }.
Arguments nan_like T {NT}.

(** a stored log-likelihood is NaN *)
Definition stores_nan {T C P} {NT : NumT T} (s : sampler T C P) : Prop :=
  exists l, In l (concat (h_logl (history_of s))) /\ nisnan l = true.

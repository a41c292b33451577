(** * Specification vocabulary: the attributes of a pickled copy *)
From Coq Require Import String List Bool.
From Verif Require Import Num PyBase Persist SpecPersist.

(** The attributes that a copy of a sampler with attributes [d] has: all, but
    without pool and distribute if a pool is in use. *)
Definition is_pickled {V} (is_none : V -> bool) (d : dict V) (k : string) : Prop :=
  lookup d k <> None /\ (uses_pool is_none d -> k <> "pool"%string /\ k <> "distribute"%string).

(** * Pickling a sampler: /repo/pocomc/sampler.py 922-940 (__getstate__)

    The copy that pickle makes of a sampler, and the evaluation of the likelihood
    by an object with given attributes. *)
From Coq Require Import String List Bool.
From Verif Require Import Num PyBase Scaler Particles LogLike Geometry Mcmc Flow Sampler Persist.
Import ListNotations.
Local Open Scope string_scope.

Section Pickle.
  Context {V : Type}.
  (** sampler.py:922-940.  [is_none]: the value is None.  The try block catches
      every exception; if 'distribute' is missing, 'pool' has been deleted
      already. *)
  Definition getstate (is_none : V -> bool) (d : dict V) : dict V :=
    match lookup d "pool" with
    | None => d                                                                     (* KeyError, caught *)
    | Some v =>
      if is_none v then d                                                           (* 933 *)
      else match del_item d "pool" with                                             (* 934 *)
           | Err _ => d
           | Ok state => match del_item state "distribute" with Ok state => state | Err _ => state end  (* 935-937 *)
           end
    end.
  Context {byte : Type}.
  Variable dump : dict V -> list (list byte) * option exn.
  Variable undump : list byte -> res (dict V).
  (** pickle.loads(pickle.dumps(sampler)): Sampler has no __setstate__, so the
      attributes of the new object are those of the state.  (As in Persist.v the
      bytes come in chunks.) *)
  Definition pickled_copy (is_none : V -> bool) (d : dict V) : res (dict V) :=
    match dump (getstate is_none d) with
    | (_, Some e) => Err e
    | (chunks, None) => undump (concat chunks)
    end.
End Pickle.

Section Evaluate.
  Context {T C P E : Type}.
  (** self.k: AttributeError if there is no such attribute *)
  Definition attribute (d : dict (value T C P E)) (k : string) : res (value T C P E) := of_option AttributeError (lookup d k).
  (** the truth value of an attribute; only booleans occur *)
  Definition truth (v : value T C P E) : bool := match v with VBool b => b | VNone => false | _ => true end.
  (** sampler.py:807-861 _log_like, reading the attributes of the object.  [like],
      [vlike]: what the attribute log_likelihood computes for a point and for an
      array.  Calling something that is not a function is a TypeError. *)
  Definition log_like_of (vlike : mat T -> vec T) (like : vec T -> lret T C) (d : dict (value T C P E)) (x : mat T) : res (vec T * option (list (list C))) :=
    let! v := attribute d "vectorize" in
    if truth v then let! _ := attribute d "log_likelihood" in Ok (vlike x, None)     (* 823-824 *)
    else
      let! p := attribute d "pool" in                                               (* 825 *)
      if value_is_none p then let! _ := attribute d "log_likelihood" in split_results (map like x)  (* 828 *)
      else
        let! m := attribute d "distribute" in                                       (* 826 *)
        let! _ := attribute d "log_likelihood" in
        match m with VDistribute (Some m) => split_results (m like x) | _ => Err TypeError end.
End Evaluate.

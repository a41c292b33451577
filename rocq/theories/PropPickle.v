(** * Properties of pickled samplers (C96) *)
From Coq Require Import ZArith Floats.SpecFloat.
From Coq Require Import String List Bool.
From Verif Require Import Num PyBase FloatNum Tools Scaler Particles LogLike Geometry Mcmc Flow Sampler RunCase TraceCase
  Persist SpecPersist SpecPickle PersistCase Pickle PickleFacts.
Import ListNotations.

(** ** C96 *)
(** [d]: the attributes of the sampler.  [d']: those of the copy. *)
Theorem C96_copied_attributes {byte V} (is_none : V -> bool) (dump : dict V -> list (list byte) * option exn) undump d d' :
  faithful dump undump -> unique_keys d -> pickled_copy dump undump is_none d = Ok d' ->
  (forall k, is_pickled is_none d k -> lookup d' k = lookup d k) /\ (forall k, ~ is_pickled is_none d k -> lookup d' k = None).
Proof. exact (copy_spec is_none dump undump d d'). Qed.
Print Assumptions C96_copied_attributes.
(** Without a pool the copy is the sampler. *)
Theorem C96_serial {T C P E byte} (dump : dict (value T C P E) -> list (list byte) * option exn) undump (o : string -> E) (s : sampler T C P) d' :
  faithful dump undump -> s_pool s = None -> pickled_copy dump undump value_is_none (attributes o s) = Ok d' -> d' = attributes o s.
Proof. exact (fun F => serial_copy dump undump F o s d'). Qed.
Print Assumptions C96_serial.
(** With a pool the copy can evaluate the likelihood only if it is vectorised. *)
Theorem C96_pooled {T C P E byte} (dump : dict (value T C P E) -> list (list byte) * option exn) undump vlike (like : vec T -> lret T C) (o : string -> E) (s : sampler T C P) x d' :
  faithful dump undump -> s_pool s <> None -> pickled_copy dump undump value_is_none (attributes o s) = Ok d' ->
  log_like_of vlike like d' x = if c_vectorize (s_cfg s) then Ok (vlike x, None) else Err AttributeError.
Proof. exact (fun F => pooled_copy dump undump F vlike like o s x d'). Qed.
Print Assumptions C96_pooled.
(** [log_like_of] is the evaluation by the model's sampler. *)
Theorem C96_evaluation {T C P E} vlike like (o : string -> E) (s : sampler T C P) x :
  log_like_of vlike like (attributes o s) x = log_like (c_vectorize (s_cfg s)) vlike like (s_pool s) x.
Proof. exact (evaluation vlike like o s x). Qed.
Print Assumptions C96_evaluation.
Example C96_case : faithful dump64 undump64 /\ s_pool start64 = None /\ s_pool pooled64 <> None /\ c_vectorize (s_cfg pooled64) = false /\
  (exists d', pickled_copy dump64 undump64 value_is_none (attributes outer64 start64) = Ok d') /\
  exists d', pickled_copy dump64 undump64 value_is_none (attributes outer64 pooled64) = Ok d' /\ lookup d' "pool" = None /\ lookup d' "pbar" <> None.
Proof.
  split; [exact dump64_faithful|]. split; [reflexivity|]. split; [discriminate|]. split; [reflexivity|]. split.
  - eexists. exact (copy_returns value_is_none dump64 undump64 _ dump64_faithful eq_refl).
  - eexists. split; [exact (copy_returns value_is_none dump64 undump64 _ dump64_faithful eq_refl)|]. split; [reflexivity|discriminate].
Qed.

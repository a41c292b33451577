(** * Specification vocabulary: files, crashes and saved attributes *)
From Coq Require Import String List Bool.
From Verif Require Import Num PyBase Scaler Particles LogLike Geometry Mcmc Flow Sampler Persist.
Import ListNotations.

Section Spec.
  Context {byte : Type}.
  Implicit Types f : fs byte.

  (** No two names share a file, and new files get new inodes. *)
  Definition proper_fs f : Prop :=
    (forall p q i, fs_entry f p = Some i -> fs_entry f q = Some i -> p = q) /\ (forall p i, fs_entry f p = Some i -> (i < fs_next f)%nat).
  (** What is stored under [p], if anything, has reached the disk. *)
  Definition on_disk f (p : path) : Prop := fs_before f = [] /\ forall i, fs_entry f p = Some i -> fs_synced f i = true.

  (** What may be found under [p] after the process has been killed: the current
      content. *)
  Definition after_kill f (p : path) (found : option (list byte)) : Prop := found = read f p.
  (** ... and after a power failure: the names may be as they were at an earlier
      moment, and a file not yet flushed to the disk may contain anything. *)
  Definition after_power_loss f (p : path) (found : option (list byte)) : Prop :=
    exists names, In names (fs_entry f :: fs_before f) /\
      match names p with
      | None => found = None
      | Some i => exists b, found = Some b /\ (fs_synced f i = true -> b = fs_data f i)
      end.

  (** [p] names a file in [.temp]: some name, then ".temp" *)
  Definition ends_in_temp (p : path) : Prop := exists name, name <> ""%string /\ snd p = (name ++ ".temp")%string.

  (** The attributes written by a sampler with attributes [d]: all but the
      progress bar, and without pool and distribute if a pool is in use. *)
  Context {V : Type}.
  Definition uses_pool (is_none : V -> bool) (d : dict V) : Prop := exists v, lookup d "pool" = Some v /\ is_none v = false.
  Definition is_saved (is_none : V -> bool) (d : dict V) (k : string) : Prop :=
    lookup d k <> None /\ k <> "pbar"%string /\ (uses_pool is_none d -> k <> "pool"%string /\ k <> "distribute"%string).
  (** dill restores what it has written *)
  Definition faithful (dump : dict V -> list (list byte) * option exn) (undump : list byte -> res (dict V)) : Prop :=
    forall d chunks, dump d = (chunks, None) -> undump (concat chunks) = Ok d.
  (** the keys of a dictionary are distinct *)
  Definition unique_keys (d : dict V) : Prop := NoDup (map fst d).
End Spec.

(** the attributes outside the model's sampler after loading: those saved, but
    the own progress bar *)
Definition outer_loaded {E} (saved self : string -> E) : string -> E := fun k => if String.eqb k "pbar" then self k else saved k.

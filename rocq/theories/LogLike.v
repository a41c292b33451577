(** * Model of Sampler._log_like (sampler.py:807-861) *)
From Coq Require Import ZArith List Bool.
From Verif Require Import Num PyBase.
Import ListNotations.

Section LogLike.
  Context {T C : Type}.     (** numbers; blob entries *)

  (** What the user's likelihood returns at one point, as far as _log_like can
      tell: a number (no len), a one-element numpy array (float() accepts it),
      a tuple or array (logl, blob_1, ..., blob_k), or an empty sequence.
      Simplification: the first entry is a number (float() of it succeeds). *)
  Inductive lret := RScalar (l : T) | RArray1 (l : T) | RTuple (l : T) (rest : list C) | REmpty.

  Definition is_scalar (r : lret) : bool := match r with RScalar _ => true | _ => false end.
  Definition is_empty (r : lret) : bool := match r with REmpty => true | _ => false end.

  (** sampler.py:832: [l[1:] for l in results if len(l) > 1] *)
  Definition blob_of (r : lret) : list (list C) :=
    match r with RTuple _ (c :: rest) => [c :: rest] | _ => [] end.
  (** sampler.py:835: l[0] *)
  Definition first_of (r : lret) : res T :=
    match r with RScalar l => Err TypeError | RArray1 l => Ok l | RTuple l _ => Ok l | REmpty => Err IndexError end.
  (** sampler.py:838: float(l) *)
  Definition as_float (r : lret) : res T :=
    match r with RScalar l => Ok l | RArray1 l => Ok l | RTuple _ _ => Err TypeError | REmpty => Err TypeError end.

  (** sampler.py:831-861 on the list of results.  The blobs of one point are
      kept as the tuple returned; simplification: the conversion to a numpy
      dtype and the squeezing of singleton axes (842-859), and numpy's refusal
      of tuples of unequal length, are not modelled. *)
  Definition split_results (results : list lret) : res (vec T * option (list (list C))) :=
    let fallback := let! logl := mapM as_float results in Ok (logl, None) in       (* 837-839 *)
    if existsb is_scalar results then fallback                                     (* 832: len() TypeError *)
    else
      let blob := flat_map blob_of results in                                      (* 832 *)
      match blob with
      | [] => fallback                                                             (* 833-834 *)
      | _ =>
        match mapM first_of results with                                           (* 835 *)
        | Ok logl => Ok (logl, Some blob)
        | Err _ => fallback
        end
      end.

  (** sampler.py:823-828; [distribute] is [pool.map] when there is a pool. *)
  Definition log_like (vectorize : bool) (vlike : mat T -> vec T) (like : vec T -> lret)
      (distribute : option ((vec T -> lret) -> mat T -> list lret)) (x : mat T)
    : res (vec T * option (list (list C))) :=
    if vectorize then Ok (vlike x, None)                                           (* 823-824 *)
    else match distribute with
         | Some d => split_results (d like x)                                      (* 825-826 *)
         | None => split_results (map like x)                                      (* 828 *)
         end.
End LogLike.
Arguments lret : clear implicits.

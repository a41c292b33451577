(** * Model of pocomc/prior.py *)
From Coq Require Import ZArith List Bool.
From Verif Require Import Num PyBase.
Import ListNotations.
Open Scope num_scope.

Section Prior.
  Context {T : Type} {N : Num T}.

  (** A frozen scipy.stats distribution as the package uses it: an element-wise
      log-density and a support.  The draws are given separately. *)
  Record dist := { d_logpdf : T -> T; d_support : T * T }.

  (** prior.py:70-100 logpdf.  The array [x] has [ncols] columns; the loop
      over the marginals adds dist.logpdf(x[:,i]) in place. *)
  Fixpoint logpdf_loop (i : nat) (dists : list dist) (ncols : nat) (x : mat T) (logp : vec T) : res (vec T) :=
    match dists with
    | [] => Ok logp                                                             (* 100 *)
    | d :: dists' =>
      if Nat.ltb i ncols
      then logpdf_loop (S i) dists' ncols x (vadd logp (map (d_logpdf d) (col x i)))  (* 99 *)
      else Err IndexError                                                       (* x[:,i] *)
    end.
  Definition logpdf (dists : list dist) (ncols : nat) (x : mat T) : res (vec T) :=
    logpdf_loop 0 dists ncols x (map (fun _ => nofZ 0) x).                      (* 97 *)

  (** np.transpose of a list of equally long arrays; numpy refuses ragged lists *)
  Definition transpose (blocks : list (vec T)) : res (mat T) :=
    match blocks with
    | [] => Ok []
    | b :: _ =>
      if forallb (fun c => Nat.eqb (length c) (length b)) blocks
      then Ok (map (fun k => map (fun c => nth k c (nofZ 0)) blocks) (seq 0 (length b)))
      else Err ValueError
    end.

  (** prior.py:102-132 rvs; [draw i size] is what dists[i].rvs(size) returns. *)
  Definition rvs (draw : nat -> nat -> vec T) (dists : list dist) (size : nat) : res (mat T) :=
    transpose (map (fun i => draw i size) (seq 0 (length dists))).

  (** prior.py:134-154 bounds *)
  Definition bounds (dists : list dist) : list (T * T) := map d_support dists.

  (** prior.py:156-171 dim *)
  Definition dim (dists : list dist) : nat := length dists.
End Prior.
Arguments dist : clear implicits.

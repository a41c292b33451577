(** * Specification vocabulary: checkpoints and resumed runs *)
From Coq Require Import ZArith List Bool.
From Verif Require Import Num PyBase Tools Scaler Particles LogLike Geometry Mcmc SpecMcmc Flow Sampler SpecReach.
Import ListNotations.

Section Spec.
  Context {T C P Opt : Type} {NT : NumT T}.
  Variable W : world T C P Opt.

  (** one pass of the loops of run: a warm-up batch or an iteration *)
  Definition pass (bfuel : nat) (R : rand T C P) (s : sampler T C P) (r : res (sampler T C P)) : Prop :=
    if s_warmup s then exists i, r = warmup_batch W R i s else r = iteration W bfuel R s.
  (** [passes s starts r]: from [s], passes are made which start in the states
      [starts]; [r] is what comes out of the last of them, or an error that occurs
      before the next one starts: when the number of batches or the condition of
      the loop is computed.  (Diverge: the model's bound on the number of
      iterations is reached.) *)
  Inductive passes (bfuel : nat) (R : rand T C P) : sampler T C P -> list (sampler T C P) -> res (sampler T C P) -> Prop :=
  | ps_stop s : passes bfuel R s [] (Ok s)
  | ps_error s e : (if s_warmup s then c_n_active (s_cfg s) = 0%nat /\ e = ZeroDivisionError
                    else not_termination s = Err e \/ (not_termination s = Ok true /\ e = Diverge)) -> passes bfuel R s [] (Err e)
  | ps_fail s e : pass bfuel R s (Err e) -> passes bfuel R s [s] (Err e)
  | ps_pass s s' starts r : pass bfuel R s (Ok s') -> passes bfuel R s' starts r -> passes bfuel R s (s :: starts) r
  | ps_warm s starts r : s_warmup s = true -> passes bfuel R (end_warmup s) starts r -> passes bfuel R s starts r.

  (** the state saved at the start of a pass *)
  Definition saved_at (s : sampler T C P) : event T C P := {| ev_file := Checkpoint (s_t s); ev_state := s |}.

  (** run(save_every=k), started at iteration counter [t0]: a checkpoint is due *)
  Definition due (k t0 : Z) (s : sampler T C P) : bool := (t0 <? s_t s)%Z && ((s_t s - t0) mod k =? 0)%Z.

  (** apply a function to the result, if there is one *)
  Definition rmap {A B : Type} (f : A -> B) (m : res A) : res B := match m with Ok a => Ok (f a) | Err e => Err e end.
  (** ... and to the states that are written *)
  Definition tmap (f : sampler T C P -> sampler T C P) (m : traced T C P) : traced T C P :=
    (map (fun e => {| ev_file := ev_file e; ev_state := f (ev_state e) |}) (fst m), rmap f (snd m)).
End Spec.

(** The history of [q] begins with that of [s], which is followed by [m] entries
    made during warm-up (temperature 0): their iteration counters and numbers of
    calls continue those of [s], [n] likelihood evaluations each. *)
Record warmed_up {T C P} {NT : NumT T} (s q : sampler T C P) (n m : nat) : Prop := {
  wu_beta : exists later, h_beta (history_of q) = h_beta (history_of s) ++ repeat (nofZ 0) m ++ later;
  wu_iter : exists later, h_iter (history_of q) = h_iter (history_of s) ++ map (fun j => s_t s + Z.of_nat j)%Z (seq 0 m) ++ later;
  wu_calls : exists later, h_calls (history_of q) = h_calls (history_of s) ++ map (fun j => s_calls s + Z.of_nat (j + 1) * Z.of_nat n)%Z (seq 0 m) ++ later
}.
(** the particles of the stored iteration [t], of which there are [n] *)
Definition particles_of {T C} {NT : NumT T} (p : past T (list C)) (t n : nat) : list (particle T (list C)) := map (particle_at (stored p t)) (seq 0 n).

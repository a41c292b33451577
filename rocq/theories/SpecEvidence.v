(** * Specification of the evidence estimates *)
From Coq Require Import Reals ZArith List.
From Verif Require Import Num XReal PyBase SpecTools.
Import ListNotations.
Local Open Scope R_scope.

(** A draw from the flow: the point x, the log-Jacobian of the scaler, the
    log-density of the flow.  Its importance weight is
    likelihood * prior * Jacobian / density, and 0 where the prior or the
    likelihood is 0. *)
Definition importance_weight (lp ll : vec X -> X) (d : vec X * (X * X)) : R :=
  match ll (fst d), lp (fst d), fst (snd d), snd (snd d) with
  | Fin l, Fin p, Fin j, Fin q => exp l * exp p * exp j / exp q
  | _, _, _, _ => 0
  end.
(** where the prior density is positive, likelihood, Jacobian and density are
    numbers (the likelihood may be 0) *)
Definition evaluable (lp ll : vec X -> X) (d : vec X * (X * X)) : Prop :=
  nisfinite (lp (fst d)) = true ->
  ((exists l, ll (fst d) = Fin l) \/ ll (fst d) = NInf) /\ (exists j, fst (snd d) = Fin j) /\ (exists q, snd (snd d) = Fin q).
(** number of draws of finite log-prior *)
Definition kept (lp : vec X -> X) (ds : list (vec X * (X * X))) : nat := length (filter (fun d => nisfinite (lp (fst d))) ds).
Definition mean (w : list R) : R := total w / INR (length w).

(** ** The error of the evidence *)
(** the weights of the draws of finite log-prior *)
Definition kept_weights (lp ll : vec X -> X) (ds : list (vec X * (X * X))) : list R :=
  map (importance_weight lp ll) (filter (fun d => nisfinite (lp (fst d))) ds).
(** as many weights, chosen among them with replacement *)
Definition redrawn (pick : nat -> nat) (w : list R) : list R := map (fun i => nth (Nat.modulo (pick i) (length w)) w 0) (seq 0 (length w)).
(** the standard deviation of a list of numbers *)
Definition deviation (l : list R) : R := sqrt (mean (map (fun a => (a - mean l) ^ 2) l)).

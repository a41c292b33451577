(** * Small specification of the progress bar *)
From Coq Require Import ZArith List.
From Verif Require Import Num PyBase Particles Mcmc Bar.
Import ListNotations.

(** the last entry *)
Definition latest {A} (l : list A) : option A := hd_error (rev l).

Section Spec.
  Context {T B : Type} {NT : NumT T}.
  (** the number of likelihood calls on the bar *)
  Definition calls_shown (b : bar T) (z : Z) : Prop := bar_info b Bcalls = Some (Int z).
  (** the bar shows what has last been recorded in [p]: the inverse temperature, the
      effective sample size (as an integer), the log-evidence, the mean log-posterior
      of the particles, the acceptance rate, the number of steps *)
  Record displays (p : past T B) (b : bar T) : Prop := {
    ds_beta : exists x, latest (h_beta p) = Some x /\ bar_info b Bbeta = Some (Float x);
    ds_ess : exists x z, latest (h_ess p) = Some x /\ ntrunc x = Some z /\ bar_info b BESS = Some (Int z);
    ds_logz : exists x, latest (h_logz p) = Some x /\ bar_info b BlogZ = Some (Float x);
    ds_logp : exists l q, latest (h_logl p) = Some l /\ latest (h_logp p) = Some q /\
      (bar_info b BlogP = Some (Float (nmean (map2 nadd l q))) \/ bar_info b BlogP = Some (Float (nmean (map2 nadd q l))));
    ds_acc : exists x, latest (h_accept p) = Some x /\ bar_info b Bacc = Some (Float x);
    ds_steps : exists z, latest (h_steps p) = Some z /\ bar_info b Bsteps = Some (Int z) }.
  (** and the efficiency, the step size divided by 2.38 / sqrt(n_dim).  The bar takes
      np.sqrt(n_dim), the record n_dim ** 0.5: the numbers are the same where these
      are *)
  Definition displays_efficiency (n_dim : nat) (p : past T B) (b : bar T) : Prop :=
    let n : T := nofZ (Z.of_nat n_dim) in
    npow n (nfrac 1 2) = nsqrt n -> exists x, latest (h_efficiency p) = Some x /\ bar_info b Beff = Some (Float x).
End Spec.

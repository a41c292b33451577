(** * Specification: sample sizes along the temperature ladder *)
From Coq Require Import Reals ZArith List.
From Verif Require Import Num PyBase SpecTools SpecParticles Particles Sampler.
Import ListNotations.
Local Open Scope R_scope.

(** what the two values of the option [metric] mean, for weights that need not
    be normalised *)
Definition sample_size (m : metric) (w : list R) : R :=
  match m with
  | ESS => kish_ess w
  | USS => expected_distinct_draws (length w) (length w) (fun i => nth i w 0 / total w)
  end.

(** the importance weights at inverse temperature [b] of particles of
    log-likelihoods [ls] (one list per iteration), sampled at inverse
    temperatures [bs] with log-evidences [zs] *)
Definition weights_at (ls : list (list R)) (bs zs : list R) (b : R) : list R := map (balance_weight bs zs b) (concat ls).

(** expected number of distinct values among [k] draws with probabilities
    proportional to the weights [w] *)
Definition expected_distinct (k : nat) (w : list R) : R := expected_distinct_draws (length w) k (fun i => nth i w 0 / total w).
(** The dynamic adjustment of n_effective from [n] to [n'], if [u] distinct
    particles are expected among [k] resampled ones and [target] are wanted:
    multiplied by k/u if u is more than 5% below the target, by u/k if it is
    more than 5% above, and rounded down. *)
Record adjusted (k : nat) (target u : R) (n n' : Z) : Prop := {
  ad_few : u < 95 / 100 * target -> (n <= n' <= Z.of_nat k * n)%Z /\ IZR n' <= INR k / u * IZR n < IZR n' + 1;
  ad_many : Rmin (105 / 100 * target) (INR k) < u -> (0 <= n' <= n)%Z /\ IZR n' <= u / INR k * IZR n < IZR n' + 1;
  ad_fair : 95 / 100 * target <= u <= Rmin (105 / 100 * target) (INR k) -> n' = n
}.

(** * Small specification of the two Metropolis-Hastings moves, in real numbers *)
From Coq Require Import Reals ZArith List.
From Verif Require Import Num PyBase XReal Scaler SpecScaler Geometry SpecGeometry Mcmc SpecMcmc.
Import ListNotations.
Open Scope R_scope.

(** ** Vectors *)
Definition vplus (a b : list R) : list R := map2 Rplus a b.
Definition vminus (a b : list R) : list R := map2 Rminus a b.
Definition vmult (c : R) (a : list R) : list R := map (Rmult c) a.
Definition vneg (a : list R) : list R := map Ropp a.
(** squared length *)
Definition norm2 (a : list R) : R := Rdot a a.
(** v^T C v *)
Definition quadratic (C : list (list R)) (v : list R) : R := Rdot v (Rmatvec C v).

(** ** Densities *)
(** standard normal *)
Definition normal_density (z : list R) : R := fold_right (fun x p => exp (- (x * x) / 2) / sqrt (2 * PI) * p) 1 z.
(** Gamma distribution with the given shape and scale; [G] is the value of the
    Gamma function at [shape] *)
Definition gamma_density (G shape scale g : R) : R :=
  Rpower g (shape - 1) * exp (- g / scale) / (G * Rpower scale shape).
(** the logarithm of the multivariate Student-t density with squared
    Mahalanobis distance [m2], up to a constant *)
Definition student_log_density (d nu m2 : R) : R := - ((d + nu) / 2) * ln (1 + m2 / nu).

(** ** Moves *)
(** random walk: u + sigma L z *)
Definition walk (sigma : R) (L : list (list R)) (u z : list R) : list R := vplus u (vmult sigma (Rmatvec L z)).
(** preconditioned Crank-Nicolson step at inverse variance [g]: pull towards
    [mu], then add noise of covariance sigma^2 / g * L L^T *)
Definition crank_nicolson (mu : list R) (sigma : R) (L : list (list R)) (g : R) (u z : list R) : list R :=
  vplus (vplus mu (vmult (sqrt (1 - sigma * sigma)) (vminus u mu))) (vmult (sigma * sqrt (1 / g)) (Rmatvec L z)).
(** whitened coordinates L^T C^-1 v of v *)
Definition white (d : nat) (L Ci : list (list R)) (v : list R) : list R :=
  map (fun i => sum_lt d (fun k => entry L k i * nth k (Rmatvec Ci v) 0)) (seq 0 d).
(** the noise of the reverse Crank-Nicolson step *)
Definition reverse_noise (d : nat) (mu : list R) (sigma : R) (L Ci : list (list R)) (g : R) (u z : list R) : list R :=
  vminus (vmult (sigma * sqrt g) (white d L Ci (vminus u mu))) (vmult (sqrt (1 - sigma * sigma)) z).
(** the Metropolis-Hastings acceptance probability for the log-ratio [l] *)
Definition mh (l : R) : R := Rmin 1 (exp l).

(** ** Matrices *)
(** C = L L^T with L lower triangular and positive diagonal *)
Definition cholesky_of (d : nat) (L C : list (list R)) : Prop :=
  square d L /\ square d C /\
  (forall i j, (i < d)%nat -> (j < d)%nat -> (i < j)%nat -> entry L i j = 0) /\
  (forall i, (i < d)%nat -> 0 < entry L i i) /\
  (forall i j, (i < d)%nat -> (j < d)%nat -> entry C i j = sum_lt d (fun k => entry L i k * entry L j k)).
(** Ci is the inverse of C *)
Definition inverse_of (d : nat) (Ci C : list (list R)) : Prop :=
  square d Ci /\ square d C /\ forall v, length v = d -> Rmatvec C (Rmatvec Ci v) = v /\ Rmatvec Ci (Rmatvec C v) = v.

(** ** The proposal distributions *)
(** the determinant of a triangular matrix *)
Definition diag_product (d : nat) (L : list (list R)) : R := fold_right (fun i p => entry L i i * p) 1 (seq 0 d).
(** density at [v] of the normal distribution with mean [m] and covariance
    c^2 L L^T, where Ci is the inverse of L L^T: the distribution of m + c L z
    for standard normal z *)
Definition gaussian_density (d : nat) (L Ci : list (list R)) (c : R) (m v : list R) : R :=
  exp (- quadratic Ci (vminus v m) / (2 * (c * c))) / ((sqrt (2 * PI)) ^ d * (c ^ d * diag_product d L)).
(** the point from which the Crank-Nicolson noise starts *)
Definition pulled (mu : list R) (sigma : R) (u : list R) : list R := vplus mu (vmult (sqrt (1 - sigma * sigma)) (vminus u mu)).

(** ** The tempered posterior in the space of the kernels *)
(** the logarithm (up to a constant) of the density of the tempered posterior
    at the point [u] of the unconstrained space is [t]: beta times the
    log-likelihood plus the log-prior plus the log-Jacobian, all finite *)
Definition log_target {B} (env : kernel_env X B) (lp ll : vec X -> X) (beta : R) (u : list R) (t : R) : Prop :=
  exists x a b c, inverse_row (k_scaler env) (k_junk env) (map Fin u) = Ok (map Fin x, Fin c) /\
    ll (map Fin x) = Fin a /\ lp (map Fin x) = Fin b /\ t = beta * a + b + c.
(** the same at the latent point [theta] of the flow *)
Definition log_target_latent {B} (env : kernel_env X B) (lp ll : vec X -> X) (beta : R) (theta : list R) (t : R) : Prop :=
  exists u f t', k_flow_inverse env (map Fin theta) = (map Fin u, Fin f) /\ log_target env lp ll beta u t' /\ t = t' + f.

(** ** Hypotheses on the environment of the kernels *)
(** a constructed scaler for [d] parameters (whose rescaling attributes are
    unset or fitted) with or without boundary conditions *)
Record exact_env {B} (env : kernel_env X B) (d : nat) (rows : list (X * X)) : Prop := {
  ex_constructed : constructed (k_scaler env) d rows;
  ex_scaling : scaling_ok (k_scaler env) d;
  ex_junk : length (k_junk env) = d;
  ex_periodic : index_list_ok d (periodic (k_scaler env));
  ex_reflective : index_list_ok d (reflective (k_scaler env));
  ex_n_dim : k_n_dim env = d }.
(** flow.inverse of one row is defined everywhere, with a finite log-determinant *)
Definition flow_total {B} (env : kernel_env X B) (d : nat) : Prop :=
  forall v, length v = d -> exists u f, k_flow_inverse env (map Fin v) = (map Fin u, Fin f) /\ length u = d.
(** the stored latent point of walker [k], its image and log-determinant belong together *)
Definition latent_coherent {B} (env : kernel_env X B) (w : walkers X B) (k : nat) : Prop :=
  k_flow_inverse env (nth k (w_theta w) []) = (nth k (w_u w) [], nth k (w_ldf w) (Fin 0)).
(** the arrays of the latent points have n rows *)
Definition latent_rectangular {B} (w : walkers X B) (n : nat) : Prop := length (w_theta w) = n /\ length (w_ldf w) = n.

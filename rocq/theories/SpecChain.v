(** * Small specification of a whole MCMC phase, in real numbers

    A kernel moves [n] walkers for a number of steps.  Step [i] goes from time
    [i-1] to time [i]. *)
From Coq Require Import Reals ZArith List.
From Verif Require Import Num PyBase XReal Scaler Geometry SpecGeometry Mcmc SpecMcmc SpecBalance.
Import ListNotations.
Open Scope R_scope.

(** the mean over [n] walkers *)
Definition average (n : nat) (f : nat -> R) : R := sum_lt n f / INR n.

Record chain := {
  ch_steps : nat;
  ch_pos : nat -> nat -> list R;   (** time, walker: position *)
  ch_prob : nat -> nat -> R;       (** step, walker: acceptance probability *)
  ch_scale : nat -> R;             (** time: step size *)
  ch_center : nat -> list R        (** time: location of the Student-t distribution *)
}.

(** ** Moves *)
(** [a] is the Metropolis-Hastings acceptance probability of the move from [u]
    to [u'] for the log-density [target] and the logarithm [h] of the Hastings
    factor; it is 0 where the density is zero or undefined *)
Definition acceptance (target : list R -> R -> Prop) (u u' : list R) (h a : R) : Prop :=
  exists t, target u t /\ ((exists t', target u' t' /\ a = mh (t' - t + h)) \/ ((forall t', ~ target u' t') /\ a = 0)).
(** every walker moves to its proposal if its uniform number is below the
    acceptance probability, and stays otherwise *)
Definition moves (n : nat) (target : list R -> R -> Prop) (propose : nat -> nat -> list R) (hastings : nat -> nat -> R)
    (uniform : nat -> nat -> R) (c : chain) : Prop :=
  forall i k, (i < ch_steps c)%nat -> (k < n)%nat ->
    acceptance target (ch_pos c i k) (propose (S i) k) (hastings (S i) k) (ch_prob c (S i) k) /\
    ch_pos c (S i) k = if Rlt_dec (uniform (S i) k) (ch_prob c (S i) k) then propose (S i) k else ch_pos c i k.

(** the Crank-Nicolson proposal from [u]: the inverse variance is drawn from
    the gamma distribution given [u], [gamma] being its generator *)
Definition cn_proposal (d : nat) (nu : R) (L Ci : list (list R)) (mu : list R) (s : R) (gamma : R -> R -> R) (u z : list R) : list R :=
  crank_nicolson mu s L (gamma ((INR d + nu) / 2) (2 / (nu + quadratic Ci (vminus u mu)))) u z.
(** the logarithm of the ratio of the Student-t densities at [u] and [u'] *)
Definition student_ratio (d : nat) (nu : R) (Ci : list (list R)) (mu u u' : list R) : R :=
  student_log_density (INR d) nu (quadratic Ci (vminus u mu)) - student_log_density (INR d) nu (quadratic Ci (vminus u' mu)).

(** ** Step size *)
(** the optimal scale 2.38 / sqrt d of a random walk *)
Definition optimal_scale (d : nat) : R := 238 / 100 / sqrt (INR d).
(** the scale after step [i] with mean acceptance probability [a] *)
Definition adapted_cn (d i : nat) (s a : R) : R :=
  Rabs (Rmin (s + 1 / Rpower (INR i + 1) (75 / 100) * (a - 234 / 1000)) (Rmin (optimal_scale d) (99 / 100))).
Definition adapted_latent_walk (i : nat) (s a : R) : R := s + 1 / (INR i + 1) * (a - 234 / 1000).
Definition adapted_walk (i : nat) (s a : R) : R := Rabs (adapted_latent_walk i s a).
Definition adapts (n : nat) (law : nat -> R -> R -> R) (c : chain) : Prop :=
  forall i, (i < ch_steps c)%nat -> ch_scale c (S i) = law (S i) (ch_scale c i) (average n (ch_prob c (S i))).
(** ** Location: the running mean of the walkers *)
Definition follows (d n : nat) (c : chain) : Prop :=
  forall i, (i < ch_steps c)%nat -> ch_center c (S i) =
    map (fun j => nth j (ch_center c i) 0 + 1 / (INR (S i) + 1) * (average n (fun k => nth j (ch_pos c (S i) k) 0) - nth j (ch_center c i) 0)) (seq 0 d).

(** ** Stopping *)
(** [j] is the last time before or at [i] at which [q] exceeded all earlier values *)
Definition last_record (q : nat -> R) (i j : nat) : Prop :=
  (j <= i)%nat /\ (forall m, (m < j)%nat -> q m < q j) /\ (forall m, (j < m <= i)%nat -> q m <= q j).
(** no record at time [i], and [enough] of the time since the last one *)
Definition plateaued (q : nat -> R) (enough : R -> Prop) (i : nat) : Prop :=
  exists j, last_record q i j /\ (j < i)%nat /\ enough (INR (i - j)).
(** the phase ends at the first time at which the plateau is long enough or
    the maximal number of steps is reached; at least one step is made *)
Definition stops (n_max : Z) (q : nat -> R) (enough : nat -> R -> Prop) (steps : nat) : Prop :=
  (1 <= steps)%nat /\ ((n_max <= Z.of_nat steps)%Z \/ plateaued q (enough steps) steps) /\
  forall i, (1 <= i < steps)%nat -> (Z.of_nat i < n_max)%Z /\ ~ plateaued q (enough i) i.
(** how long is enough, at scale [s]: n_steps times the squared ratio of the
    optimal scale to [s]; no length is enough when the scale is zero *)
Definition long_enough (d : nat) (n_steps : Z) (s c : R) : Prop := s <> 0 /\ IZR n_steps * (optimal_scale d / s) ^ 2 <= c.
(** preconditioned random walk: the ratio is at most 1 *)
Definition long_enough_latent_walk (d : nat) (n_steps : Z) (s c : R) : Prop :=
  IZR n_steps * (if Req_EM_T s 0 then 1 else Rmin 1 (optimal_scale d / s)) ^ 2 <= c.
(** [q] is the mean over the walkers of [value] *)
Definition mean_value (n : nat) (value : list R -> R -> Prop) (c : chain) (q : nat -> R) : Prop :=
  forall i, (i <= ch_steps c)%nat -> exists v, (forall k, (k < n)%nat -> value (ch_pos c i k) (v k)) /\ q i = average n v.

(** the logarithm of the unnormalised posterior density of x, at the image x of u *)
Definition log_posterior {B} (env : kernel_env X B) (lp ll : vec X -> X) (u : list R) (v : R) : Prop :=
  exists x a b c, inverse_row (k_scaler env) (k_junk env) (map Fin u) = Ok (map Fin x, Fin c) /\
    ll (map Fin x) = Fin a /\ lp (map Fin x) = Fin b /\ v = a + b.
(** the same, at the image of the latent point [theta] *)
Definition through_flow {B} (env : kernel_env X B) (value : list R -> R -> Prop) (theta : list R) (v : R) : Prop :=
  exists u f, k_flow_inverse env (map Fin theta) = (map Fin u, Fin f) /\ value u v.

(** ** The four kernels *)
(** The laws of the chains: [us] are the points at which the walkers start, [p]
    is the given step size, [final] are the points that are returned.  The
    preconditioned kernels move in the latent space of the flow, for the density
    transported there, and return the images of the last positions. *)
Section Laws.
  Context {B : Type}.
  Variables (env : kernel_env X B) (d n : nat) (lp ll : vec X -> X) (beta : R) (normal : nat -> nat -> list R) (uniform : nat -> nat -> R)
    (p : R) (us : list (list R)) (c : chain) (final : mat X).
  Definition starts_at : Prop := forall k, (k < n)%nat -> ch_pos c 0 k = nth k us [].
  Definition starts_above : Prop := forall k, (k < n)%nat -> exists f, k_flow_forward env (map Fin (nth k us [])) = (map Fin (ch_pos c 0 k), Fin f).
  Definition ends_at : Prop := final = map (fun k => map Fin (ch_pos c (ch_steps c) k)) (seq 0 n).
  Definition ends_above : Prop := length final = n /\
    forall k, (k < n)%nat -> exists f, k_flow_inverse env (map Fin (ch_pos c (ch_steps c) k)) = (nth k final [], Fin f).
  (** the proposals of a random walk *)
  Definition walks (L : list (list R)) (i k : nat) : list R := walk (ch_scale c (pred i)) L (ch_pos c (pred i) k) (normal i k).
  (** the Crank-Nicolson proposals with location [mu i] at step [i], and their Hastings factors *)
  Definition pulls (L Ci : list (list R)) (mu : nat -> list R) (nu : R) (gamma : nat -> nat -> R -> R -> R) (i k : nat) : list R :=
    cn_proposal d nu L Ci (mu i) (ch_scale c (pred i)) (gamma i k) (ch_pos c (pred i) k) (normal i k).
  Definition corrections (L Ci : list (list R)) (mu : nat -> list R) (nu : R) (gamma : nat -> nat -> R -> R -> R) (i k : nat) : R :=
    student_ratio d nu Ci (mu i) (ch_pos c (pred i) k) (pulls L Ci mu nu gamma i k).

  Definition rwm_law (L : list (list R)) : Prop :=
    starts_at /\ ch_scale c 0 = p /\ moves n (log_target env lp ll beta) (walks L) (fun _ _ => 0) uniform c /\ adapts n adapted_walk c /\
    (exists q, mean_value n (log_target env lp ll 1) c q /\ stops (k_n_max env) q (fun i => long_enough d (k_n_steps env) (ch_scale c i)) (ch_steps c)) /\
    ends_at.
  Definition preconditioned_rwm_law (L : list (list R)) : Prop :=
    starts_above /\ ch_scale c 0 = p /\ moves n (log_target_latent env lp ll beta) (walks L) (fun _ _ => 0) uniform c /\ adapts n adapted_latent_walk c /\
    (exists q, mean_value n (through_flow env (log_target env lp ll 1)) c q /\
       stops (k_n_max env) q (fun i => long_enough_latent_walk d (k_n_steps env) (ch_scale c i)) (ch_steps c)) /\
    ends_above.
  Definition pcn_law (L Ci : list (list R)) (mu : list R) (nu : R) (gamma : nat -> nat -> R -> R -> R) : Prop :=
    starts_at /\ ch_scale c 0 = Rmin p (99 / 100) /\
    moves n (log_target env lp ll beta) (pulls L Ci (fun _ => mu) nu gamma) (corrections L Ci (fun _ => mu) nu gamma) uniform c /\ adapts n (adapted_cn d) c /\
    (exists q, mean_value n (log_posterior env lp ll) c q /\ stops (k_n_max env) q (fun i => long_enough d (k_n_steps env) (ch_scale c i)) (ch_steps c)) /\
    ends_at.
  Definition preconditioned_pcn_law (L Ci : list (list R)) (mu : list R) (nu : R) (gamma : nat -> nat -> R -> R -> R) : Prop :=
    starts_above /\ ch_scale c 0 = Rmin p (99 / 100) /\ ch_center c 0%nat = mu /\
    moves n (log_target_latent env lp ll beta) (pulls L Ci (fun i => ch_center c (pred i)) nu gamma) (corrections L Ci (fun i => ch_center c (pred i)) nu gamma) uniform c /\
    adapts n (adapted_cn d) c /\ follows d n c /\
    (exists q, mean_value n (through_flow env (log_posterior env lp ll)) c q /\ stops (k_n_max env) q (fun i => long_enough d (k_n_steps env) (ch_scale c i)) (ch_steps c)) /\
    ends_above.
End Laws.

(** ** What the theorems assume *)
(** the flow is a bijection of R^d: forward and inverse are defined everywhere,
    undo each other, and have opposite log-determinants *)
Record flow_bijection {B} (env : kernel_env X B) (d : nat) : Prop := {
  fb_forward : forall u, length u = d -> exists th f, k_flow_forward env (map Fin u) = (map Fin th, Fin f) /\ length th = d /\
    k_flow_inverse env (map Fin th) = (map Fin u, Fin (- f));
  fb_inverse : flow_total env d }.

(** the input of a kernel: [n > 0] coherent particles at the points [us] of
    R^d, where the tempered posterior density is positive *)
Record exact_input {B} (env : kernel_env X B) (d n : nat) (lp ll : vec X -> X) (bl : vec X -> B) (beta : R) (s : kstate X B) (us : list (list R)) : Prop := {
  ei_n : (0 < n)%nat;
  ei_dim : (0 < d)%nat;
  ei_rect : rectangular (input_walkers s) n;
  ei_coherent : all_coherent env lp ll bl (input_walkers s);
  ei_u : s_u s = map (map Fin) us;
  ei_d : Forall (fun u => length u = d) us;
  ei_beta : s_beta s = Fin beta /\ 0 <= beta;
  ei_target : forall u, In u us -> exists t, log_target env lp ll beta u t;
  ei_blobs : s_blobs s <> None -> like_has_blobs env }.
(** the likelihood is nowhere +infinity *)
Definition bounded_like (ll : vec X -> X) : Prop := forall x, ll x <> PInf.
(** the random numbers, by step and walker *)
Record exact_rand {B} (n : nat) (rand : Z -> step_rand X B) (normal : nat -> nat -> list R) (uniform : nat -> nat -> R) : Prop := {
  er_normal : forall i k, (k < n)%nat -> r_norm (rand (Z.of_nat i)) k = map Fin (normal i k);
  er_uniform : forall i k, r_unif (rand (Z.of_nat i)) k = Fin (uniform i k) /\ 0 <= uniform i k < 1 }.
(** the gamma variates, by step, walker, shape and scale *)
Definition exact_gamma {B} (rand : Z -> step_rand X B) (gamma : nat -> nat -> R -> R -> R) : Prop :=
  forall i k a b, 0 < a -> 0 < b -> r_gamma (rand (Z.of_nat i)) k (Fin a) (Fin b) = Fin (gamma i k a b) /\ 0 < gamma i k a b.
(** the result holds the final time of the chain *)
Record result_of {B} (o : mresult X B) (n : nat) (c : chain) : Prop := {
  ro_steps : o_steps o = Z.of_nat (ch_steps c);
  ro_sigma : o_sigma o = Fin (ch_scale c (ch_steps c));
  ro_accept : o_accept o = Fin (average n (ch_prob c (ch_steps c))) }.

(** ** Totality *)
(** the log-prior and the log-likelihood return for all points, with or without
    blobs; for no points there may be no blobs, and then None can be converted
    to the type of the blobs *)
Record model_returns {B} (env : kernel_env X B) (lp ll : vec X -> X) (bl : vec X -> B) (blobs : bool) : Prop := {
  mr_prior : forall xs, k_prior env xs = Ok (map lp xs);
  mr_like : forall xs, xs <> [] -> k_like env xs = Ok (map ll xs, if blobs then Some (map bl xs) else None);
  mr_empty : k_like env [] = Ok ([], Some []) \/ (k_like env [] = Ok ([], None) /\ (blobs = true -> k_none_blob env <> None)) }.

(** ** The assumptions, bundled *)
(** The sampler hands [n] particles at [us] and the inverse temperature [beta]
    to a kernel, in exact arithmetic.  The log-prior and the log-likelihood (and
    blobs) of a row are [lp], [ll] (and [bl]) of that row. *)
Record phase {B} (env : kernel_env X B) (d n : nat) (lp ll : vec X -> X) (bl : vec X -> B) (beta : R) (s : kstate X B) (us : list (list R))
    (rand : Z -> step_rand X B) (normal : nat -> nat -> list R) (uniform : nat -> nat -> R) : Prop := {
  ph_env : exists rows, exact_env env d rows;
  ph_prior : prior_rows env lp;
  ph_like : like_rows env ll bl;
  ph_bounded : bounded_like ll;
  ph_input : exact_input env d n lp ll bl beta s us;
  ph_rand : exact_rand n rand normal uniform;
  ph_steps : (0 <= k_n_steps env)%Z }.
(** the fitted normal distribution has covariance [C], whose Cholesky factor is [L] *)
Record normal_fit {B} (env : kernel_env X B) (d : nat) (g : geometry X) (C L : list (list R)) : Prop := {
  nf_cov : normal_cov g = Some (Cov2 (fin_mat C));
  nf_cholesky : la_cholesky (k_linalg env) (fin_mat C) = Ok (fin_mat L) /\ cholesky_of d L C }.
(** the fitted Student-t distribution has location [mu], scale matrix [C] and
    [nu] degrees of freedom; [L] is the Cholesky factor and [Ci] the inverse of [C] *)
Record student_fit {B} (env : kernel_env X B) (d : nat) (g : geometry X) (C L Ci : list (list R)) (mu : list R) (nu : R) : Prop := {
  sf_cov : t_cov g = Some (fin_mat C);
  sf_mean : t_mean g = Some (map Fin mu) /\ length mu = d;
  sf_nu : t_nu g = Some (Fin nu) /\ 0 < nu;
  sf_cholesky : la_cholesky (k_linalg env) (fin_mat C) = Ok (fin_mat L) /\ cholesky_of d L C;
  sf_inverse : la_inv (k_linalg env) (fin_mat C) = Ok (fin_mat Ci) /\ inverse_of d Ci C }.

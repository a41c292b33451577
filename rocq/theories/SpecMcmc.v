(** * Small specification vocabulary for the MCMC kernels *)
From Coq Require Import Reals ZArith List Bool Floats.SpecFloat.
From Verif Require Import Num PyBase XReal FloatNum Scaler Geometry Mcmc.
Import ListNotations.

(** ** Numbers *)
(** An arithmetic in which -infinity and "not a number" behave as in IEEE-754:
    [undefined] is the set {-inf, NaN}, [random] the values a uniform generator
    on [0,1) can return. *)
Record ieee_like {T} {NT : NumT T} (undefined random : T -> Prop) : Prop := {
  il_ninf : undefined (nopp ninf);
  il_add : forall a b, undefined a -> undefined (nadd a b);
  il_sub : forall a b, undefined a -> undefined (nsub a b);
  il_mul : forall a b, undefined a -> nleb (nofZ 0) b = true -> undefined (nmul a b);
  il_exp : forall a, undefined a -> nisnan (nexp a) = true \/ nexp a = nofZ 0;
  il_01 : nltb (@nofZ T _ 0) (@nofZ T _ 1) = true /\ nisnan (@nofZ T _ 0) = false /\ nisnan (@nofZ T _ 1) = false;
  il_random : forall v, random v -> nltb v (nofZ 0) = false
}.

(** ** Kernels *)
(** the four kernels *)
Inductive kernel := PPCN | PRWM | PCN | RWM.
Definition kernel_fun {T B} {NT : NumT T} (k : kernel) : @kernel_env T B -> geometry T -> T -> @kstate T B -> (Z -> @step_rand T B) -> res (@mresult T B) :=
  match k with
  | PPCN => @preconditioned_pcn T B NT | PRWM => @preconditioned_rwm T B NT | PCN => @pcn T B NT | RWM => @rwm T B NT
  end.

(** the same environment with another likelihood *)
Definition with_like {T B} (env : @kernel_env T B) like : @kernel_env T B :=
  {| k_like := like; k_prior := k_prior env; k_scaler := k_scaler env; k_flow_forward := k_flow_forward env;
     k_flow_inverse := k_flow_inverse env; k_linalg := k_linalg env; k_none_blob := k_none_blob env;
     k_junk := k_junk env; k_bc_fuel := k_bc_fuel env; k_n_dim := k_n_dim env; k_n_max := k_n_max env; k_n_steps := k_n_steps env |}.
(** a likelihood that raises when it is asked for a point where [ok] is false *)
Definition guarded {T B} (ok : vec T -> bool) (like : mat T -> res (vec T * option (list B))) (xs : mat T) :=
  if forallb ok xs then like xs else Err RuntimeError.

(** finite coordinates and finite log-prior *)
Definition supported {T} {NT : NumT T} (lp : vec T -> T) (x : vec T) : bool := forallb nisfinite x && nisfinite (lp x).

(** a proposal: a point and its log-Jacobian; coordinates, log-Jacobian and log-prior finite *)
Definition defined {T} {NT : NumT T} (lp : vec T -> T) (p : vec T * T) : bool :=
  forallb nisfinite (fst p) && nisfinite (snd p) && nisfinite (lp (fst p)).

(** the prior and the likelihood work row by row *)
Definition prior_rows {T B} {NT : NumT T} (env : @kernel_env T B) (lp : vec T -> T) : Prop :=
  forall xs v, k_prior env xs = Ok v -> v = map lp xs.
Definition like_rows {T B} {NT : NumT T} (env : @kernel_env T B) (ll : vec T -> T) (bl : vec T -> B) : Prop :=
  forall xs l b, k_like env xs = Ok (l, b) -> l = map ll xs /\
    match b with Some b => b = map bl xs | None => True end.
(** blobs are returned whenever there is a point *)
Definition like_has_blobs {T B} {NT : NumT T} (env : @kernel_env T B) : Prop :=
  forall xs l, k_like env xs = Ok (l, None) -> xs = [].

(** a particle: one row of the arrays *)
Record particle T B := { pt_u : vec T; pt_x : vec T; pt_logdetj : T; pt_logl : T; pt_logp : T; pt_blob : option B }.
Arguments pt_u {T B}. Arguments pt_x {T B}. Arguments pt_logdetj {T B}. Arguments pt_logl {T B}. Arguments pt_logp {T B}. Arguments pt_blob {T B}.
Definition particle_at {T B} {NT : NumT T} (w : @walkers T B) (k : nat) : particle T B :=
  {| pt_u := nth k (w_u w) []; pt_x := nth k (w_x w) []; pt_logdetj := nth k (w_logdetj w) (nofZ 0);
     pt_logl := nth k (w_logl w) (nofZ 0); pt_logp := nth k (w_logp w) (nofZ 0);
     pt_blob := match w_blobs w with Some b => nth_error b k | None => None end |}.
(** the arrays have n rows each *)
Record rectangular {T B} (w : @walkers T B) (n : nat) : Prop := {
  re_u : length (w_u w) = n; re_x : length (w_x w) = n; re_logdetj : length (w_logdetj w) = n;
  re_logl : length (w_logl w) = n; re_logp : length (w_logp w) = n;
  re_blobs : match w_blobs w with Some b => length b = n | None => True end }.

(** everything stored with a particle belongs to its x: u is the point of the
    unconstrained space that maps to x with that log-Jacobian, the
    log-likelihood, log-prior and blob are those of x, and x, log-Jacobian and
    log-prior are finite *)
Record coherent {T B} {NT : NumT T} (sc : reparam T) (junk : vec T) (lp ll : vec T -> T) (bl : vec T -> B) (blobs : bool)
    (p : particle T B) : Prop := {
  co_inverse : inverse_row sc junk (pt_u p) = Ok (pt_x p, pt_logdetj p);
  co_logl : pt_logl p = ll (pt_x p);
  co_logp : pt_logp p = lp (pt_x p);
  co_blob : blobs = true -> pt_blob p = Some (bl (pt_x p));
  co_x : forallb nisfinite (pt_x p) = true;
  co_logdetj : nisfinite (pt_logdetj p) = true;
  co_support : nisfinite (pt_logp p) = true }.

Definition all_coherent {T B} {NT : NumT T} (env : @kernel_env T B) lp ll bl (w : @walkers T B) : Prop :=
  forall k, (k < length (w_x w))%nat ->
    coherent (k_scaler env) (k_junk env) lp ll bl (match w_blobs w with Some _ => true | None => false end) (particle_at w k).

(** the arrays handed to a kernel *)
Definition input_walkers {T B} (s : @kstate T B) : @walkers T B := walkers_of s [] [].

(** [step] is one pass of the loop of one of the four kernels, at inverse
    temperature [beta] *)
Definition is_step {T B} {NT : NumT T} (env : @kernel_env T B) (beta : T) (step : @step_rand T B -> Z -> @mstate T B -> res (@mstate T B * bool)) : Prop :=
  (exists nu inv_cov chol, step = ppcn_step env nu inv_cov chol beta) \/ (exists chol, step = prwm_step env chol beta) \/
  (exists nu inv_cov chol, step = pcn_step env nu inv_cov chol beta) \/ (exists chol, step = rwm_step env chol beta).

(** the same for a given kernel *)
Definition step_of {T B} {NT : NumT T} (k : kernel) (env : @kernel_env T B) (beta : T) (step : @step_rand T B -> Z -> @mstate T B -> res (@mstate T B * bool)) : Prop :=
  match k with
  | PPCN => exists nu inv_cov chol, step = ppcn_step env nu inv_cov chol beta
  | PRWM => exists chol, step = prwm_step env chol beta
  | PCN => exists nu inv_cov chol, step = pcn_step env nu inv_cov chol beta
  | RWM => exists chol, step = rwm_step env chol beta
  end.

(** the same random numbers; the content of uninitialised memory may differ *)
Definition same_random {T B} (r1 r2 : @step_rand T B) : Prop :=
  r_gamma r1 = r_gamma r2 /\ r_norm r1 = r_norm r2 /\ r_unif r1 = r_unif r2.
Definition with_junk {T B} (env : @kernel_env T B) junk : @kernel_env T B :=
  {| k_like := k_like env; k_prior := k_prior env; k_scaler := k_scaler env; k_flow_forward := k_flow_forward env;
     k_flow_inverse := k_flow_inverse env; k_linalg := k_linalg env; k_none_blob := k_none_blob env;
     k_junk := junk; k_bc_fuel := k_bc_fuel env; k_n_dim := k_n_dim env; k_n_max := k_n_max env; k_n_steps := k_n_steps env |}.

(** ** Termination and the range of the scale *)
(** the computation ends (with a value or an exception) *)
Definition returns {A} (m : res A) : Prop := m <> Err Diverge.
(** everything the kernels call ends *)
Definition env_returns {T B} {NT : NumT T} (env : @kernel_env T B) : Prop :=
  (forall x, returns (k_like env x)) /\ (forall x, returns (k_prior env x)) /\
  (forall m, returns (la_inv (k_linalg env) m)) /\ (forall m, returns (la_cholesky (k_linalg env) m)) /\
  (forall x, returns (apply_boundary_conditions_x (k_bc_fuel env) (k_scaler env) x)).
(** where the scale of each kernel stays *)
Definition in_range (k : kernel) (s : R) : Prop :=
  match k with PPCN | PCN => (0 <= s <= 99 / 100)%R | RWM => (0 <= s)%R | PRWM => True end.

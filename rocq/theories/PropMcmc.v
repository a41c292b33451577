(** * Property theorems for the MCMC kernels (C38, C40-C44) *)
From Coq Require Import Reals ZArith Bool Lia Lra Floats.SpecFloat.
From Coq Require Import List.
From Verif Require Import Num PyBase XReal FloatNum Scaler ScalerStruct Geometry SpecGeometry Mcmc SpecMcmc McmcFacts McmcInv McmcGuard McmcCoherent McmcJunk McmcNum McmcSigma
  SpecBalance BalanceFacts BalanceDensity McmcBalance ScalerCases McmcCases McmcRun.
Import ListNotations.
Open Scope R_scope.

(** ** C38 *)
(** Replacing the user's likelihood by one that raises outside the support
    (non-finite coordinate or non-finite log-prior) changes nothing, in any
    arithmetic and for every kernel. *)
Theorem C38_likelihood_in_support_mcmc {T B} {NT : NumT T} (env : kernel_env T B) lp k g scale s rand :
  prior_rows env lp ->
  kernel_fun k (with_like env (guarded (supported lp) (k_like env))) g scale s rand = kernel_fun k env g scale s rand.
Proof. exact (fun HP => kernel_guard_eq env (supported lp) lp HP (fun _ H => H) k g scale s rand). Qed.
Print Assumptions C38_likelihood_in_support_mcmc.
Example C38_case : @prior_rows B64 B64 demo_numT demo_env demo_lp /\ (forall k, exists o, demo_run k = Ok o /\ length (o_evals o) = 1%nat) /\
  @supported B64 demo_numT demo_lp [b64_ofZ 0; b64_ofZ 1] = true /\ @supported B64 demo_numT demo_lp [b64_ofZ 0; b64_ofZ 2] = false.
Proof.
  split; [exact demo_prior_rows|]. split; [|split; vm_compute; reflexivity]. intros k. destruct (demo_ok k) as [o [E [_ [_ [H _]]]]]. now exists o.
Qed.

(** ** C40 *)
(** The number of steps and of likelihood evaluations, in any arithmetic. *)
Theorem C40_steps_and_evaluations {T B} {NT : NumT T} (env : kernel_env T B) k g scale s rand o n :
  rectangular (input_walkers s) n -> kernel_fun k env g scale s rand = Ok o ->
  (1 <= o_steps o <= Z.max 1 (k_n_max env))%Z /\
  o_calls o = Z.of_nat (length (o_evals o)) /\ (0 <= o_calls o <= o_steps o * Z.of_nat n)%Z /\ rectangular (o_w o) n.
Proof.
  exact (fun R H => let K := kernel_counts env k g scale s rand o n H R in
    conj (proj1 K) (conj (proj1 (proj2 K)) (conj (proj1 (proj2 (proj2 K))) (proj1 (proj2 (proj2 (proj2 K))))))).
Qed.
Print Assumptions C40_steps_and_evaluations.
(** What the counter counts: the recorded points are exactly those handed to
    the likelihood.  A likelihood that raises on the points outside any set
    [ok] makes the run fail exactly when a recorded point is outside. *)
Theorem C40_evaluations_observable {T B} {NT : NumT T} (env : kernel_env T B) (ok : vec T -> bool) k g scale s rand o :
  kernel_fun k (with_like env (guarded ok (k_like env))) g scale s rand = Ok o <->
  kernel_fun k env g scale s rand = Ok o /\ forallb ok (o_evals o) = true.
Proof. exact (kernel_guard env ok k g scale s rand o). Qed.
Print Assumptions C40_evaluations_observable.
(** Every mutation ends when the functions it calls do. *)
Theorem C40_terminates {T B} {NT : NumT T} (env : kernel_env T B) k g scale s rand :
  env_returns env -> returns (kernel_fun k env g scale s rand).
Proof. exact (fun H => kernel_returns env H k g scale s rand). Qed.
Print Assumptions C40_terminates.
Example C40_case : rectangular (input_walkers demo_state) 2 /\ @env_returns B64 B64 demo_numT demo_env /\
  forall k, exists o, demo_run k = Ok o /\ o_steps o = 3%Z /\ o_calls o = 1%Z.
Proof.
  split; [exact demo_rectangular|]. split; [exact demo_returns|]. intros k. destruct (demo_ok k) as [o [E [E1 [E2 _]]]]. now exists o.
Qed.

(** ** C41 *)
(** Crank-Nicolson kernels: the scale is real and within [0, 0.99]; random walk:
    real and non-negative; preconditioned random walk: real. *)
Theorem C41_scale_range {B} (env : kernel_env X B) k g p s rand o n :
  (0 < k_n_dim env)%nat -> rectangular (input_walkers s) n -> (0 < n)%nat -> 0 <= p ->
  kernel_fun k env g (Fin p) s rand = Ok o ->
  exists sigma, o_sigma o = Fin sigma /\
    match k with PPCN | PCN => 0 <= sigma <= 99 / 100 | RWM => 0 <= sigma | PRWM => True end.
Proof. exact (fun Hd R Hn Hp H => kernel_sigma env Hd k g p s rand o n H R Hn Hp). Qed.
Print Assumptions C41_scale_range.
(** The same for every intermediate step. *)
Theorem C41_scale_range_step {B} (env : kernel_env X B) k step beta r i st st' stop s :
  (0 < k_n_dim env)%nat -> step_of k env beta step -> step r i st = Ok (st', stop) -> (1 <= i)%Z -> w_x (m_w st) <> [] ->
  m_sigma st = Fin s -> in_range k s -> exists s', m_sigma st' = Fin s' /\ in_range k s'.
Proof. exact (fun Hd => step_sigma_range env Hd k step beta r i st st' stop s). Qed.
Print Assumptions C41_scale_range_step.
(** Finding: the preconditioned random walk can return a negative scale. *)
Theorem C41_preconditioned_rwm_negative_refuted :
  exists o s, preconditioned_rwm reject_env reject_geometry (Fin (1 / 10)) reject_state reject_rand = Ok o /\ o_sigma o = Fin s /\ s < 0.
Proof. exact reject_run. Qed.
Print Assumptions C41_preconditioned_rwm_negative_refuted.
(** When nothing is accepted it decreases by 0.234/(i+1), at every step. *)
Theorem C41_preconditioned_rwm_decreases {B} (env : kernel_env X B) chol beta r i st st' stop s :
  (0 < k_n_dim env)%nat -> prwm_step env chol beta r i st = Ok (st', stop) -> (1 <= i)%Z -> w_x (m_w st) <> [] ->
  m_sigma st = Fin s -> (forall a, In a (m_alpha st') -> a = Fin 0) -> m_sigma st' = Fin (s - 234 / 1000 / IZR (i + 1)).
Proof. exact (fun Hd => prwm_sigma_decreases env Hd chol beta r i st st' stop s). Qed.
Print Assumptions C41_preconditioned_rwm_decreases.
Example C41_case : (0 < k_n_dim case_env)%nat /\ w_x (m_w case_state) <> [] /\ m_sigma case_state = Fin (1/2) /\ in_range PPCN (1/2) /\
  (exists st' stop, ppcn_step case_env (Fin 4) (fin_mat case_Ci) (fin_mat case_L) (Fin (1/2)) case_rand 1 case_state = Ok (st', stop)).
Proof.
  split; [cbn; lia|]. split; [|split; [reflexivity|split; [cbn; lra|exact case_ppcn]]].
  intros E. pose proof (re_x _ _ case_rectangular) as R. change (m_w case_state) with case_walkers in E. rewrite E in R. discriminate.
Qed.

(** ** C42 *)
(** The kernel rwm moves each walker by the Metropolis-Hastings rule with the
    log-density [t] of the tempered posterior in the unconstrained space. *)
Theorem C42_rwm_step {B} (env : kernel_env X B) d rows lp ll bl beta L s r i st st' stop n us zs k :
  exact_env env d rows -> prior_rows env lp -> like_rows env ll bl ->
  rwm_step env (fin_mat L) (Fin beta) r i st = Ok (st', stop) -> rectangular (m_w st) n -> m_sigma st = Fin s -> length L = d ->
  w_u (m_w st) = map (map Fin) us -> Forall (fun u => length u = d) us -> (forall j, (j < n)%nat -> r_norm r j = map Fin (zs j)) ->
  (k < n)%nat -> (exists hb, coherent (k_scaler env) (k_junk env) lp ll bl hb (particle_at (m_w st) k)) ->
  let u := nth k us [] in let u' := walk s L u (zs k) in
  forall t t' v, log_target env lp ll beta u t -> log_target env lp ll beta u' t' -> r_unif r k = Fin v ->
  nth k (m_alpha st') (Fin 0) = Fin (mh (t' - t)) /\
  nth k (w_u (m_w st')) [] = map Fin (if Rlt_dec v (mh (t' - t)) then u' else u).
Proof. exact (fun HE HP HL => rwm_move env d rows HE lp ll bl HP HL beta L s r i st st' stop n us zs k). Qed.
Print Assumptions C42_rwm_step.
(** The kernel preconditioned_rwm: the same in the latent space of the flow,
    the density including the Jacobian of the flow. *)
Theorem C42_preconditioned_rwm_step {B} (env : kernel_env X B) d rows lp ll bl beta L s r i st st' stop n ths zs k :
  exact_env env d rows -> prior_rows env lp -> like_rows env ll bl -> flow_total env d ->
  prwm_step env (fin_mat L) (Fin beta) r i st = Ok (st', stop) -> rectangular (m_w st) n -> latent_rectangular (m_w st) n ->
  m_sigma st = Fin s -> length L = d ->
  w_theta (m_w st) = map (map Fin) ths -> Forall (fun u => length u = d) ths -> (forall j, (j < n)%nat -> r_norm r j = map Fin (zs j)) ->
  (k < n)%nat -> (exists hb, coherent (k_scaler env) (k_junk env) lp ll bl hb (particle_at (m_w st) k)) -> latent_coherent env (m_w st) k ->
  let th := nth k ths [] in let th' := walk s L th (zs k) in
  forall t t' v, log_target_latent env lp ll beta th t -> log_target_latent env lp ll beta th' t' -> r_unif r k = Fin v ->
  nth k (m_alpha st') (Fin 0) = Fin (mh (t' - t)) /\
  nth k (w_theta (m_w st')) [] = map Fin (if Rlt_dec v (mh (t' - t)) then th' else th) /\ latent_coherent env (m_w st') k.
Proof. exact (fun HE HP HL HF => prwm_move env d rows HE lp ll bl HP HL beta HF L s r i st st' stop n ths zs k). Qed.
Print Assumptions C42_preconditioned_rwm_step.
(** pi(u) q(u -> u') alpha(u, u') = pi(u') q(u' -> u) alpha(u', u), where q is
    the density of the random walk and pi = exp t. *)
Theorem C42_detailed_balance d L C Ci sigma u u' t t' :
  cholesky_of d L C -> inverse_of d Ci C -> 0 < sigma -> length u = d -> length u' = d ->
  exp t * gaussian_density d L Ci sigma u u' * mh (t' - t) = exp t' * gaussian_density d L Ci sigma u' u * mh (t - t').
Proof. exact (fun HL HI => walk_density d L C Ci HL HI sigma u u' t t'). Qed.
Print Assumptions C42_detailed_balance.
(** q is the density of the move made with standard normal noise: the density
    of the noise divided by the determinant sigma^d det L of the move. *)
Theorem C42_proposal_density d L C Ci sigma u z :
  cholesky_of d L C -> inverse_of d Ci C -> 0 < sigma -> length u = d -> length z = d ->
  gaussian_density d L Ci sigma u (walk sigma L u z) * (sigma ^ d * diag_product d L) = normal_density z.
Proof. exact (fun HL HI => gaussian_noise d L C Ci HL HI sigma u z). Qed.
Print Assumptions C42_proposal_density.
(** Every move can be undone with the opposite noise, for every scale. *)
Theorem C42_reversible_noise d sigma L u z t t' : square d L -> length u = d -> length z = d ->
  walk sigma L (walk sigma L u z) (vneg z) = u /\
  exp t * normal_density z * mh (t' - t) = exp t' * normal_density (vneg z) * mh (t - t').
Proof. exact (fun H1 H2 H3 => conj (walk_reverse d sigma L u z H1 H2 H3) (walk_balance t t' z)). Qed.
Print Assumptions C42_reversible_noise.
Example C42_case : exact_env case_env 2 case_rows_per /\ prior_rows case_env case_lp /\ like_rows case_env case_ll case_ll /\ flow_total case_env 2 /\
  rectangular (m_w case_state) 2 /\ latent_rectangular (m_w case_state) 2 /\ m_sigma case_state = Fin (1/2) /\
  w_u (m_w case_state) = map (map Fin) case_us /\ w_theta (m_w case_state) = map (map Fin) case_ths /\
  (forall k, (k < 2)%nat -> coherent (k_scaler case_env) (k_junk case_env) case_lp case_ll case_ll true (particle_at (m_w case_state) k) /\ latent_coherent case_env (m_w case_state) k) /\
  (forall u, length u = 2%nat -> (exists t, log_target case_env case_lp case_ll (1/2) u t) /\ (exists t, log_target_latent case_env case_lp case_ll (1/2) u t)) /\
  (exists st' stop, rwm_step case_env (fin_mat case_L) (Fin (1/2)) case_rand 1 case_state = Ok (st', stop)) /\
  (exists st' stop, prwm_step case_env (fin_mat case_L) (Fin (1/2)) case_rand 1 case_state = Ok (st', stop)) /\
  cholesky_of 2 case_L case_C /\ inverse_of 2 case_Ci case_C.
Proof.
  split; [exact case_exact|]. split; [exact case_prior_rows|]. split; [exact case_like_rows|]. split; [exact case_flow_total|].
  split; [exact case_rectangular|]. split; [split; reflexivity|]. split; [reflexivity|]. split; [reflexivity|]. split; [reflexivity|].
  split; [intros k Hk; split; [exact (case_coherent k Hk)|exact (case_latent k Hk)]|].
  split; [intros u Hu; split; [exact (case_target u Hu)|exact (case_target_latent u Hu)]|].
  split; [exact case_rwm|]. split; [exact case_prwm|]. split; [exact case_cholesky|exact case_inverse_of].
Qed.

(** ** C43 *)
(** The kernel pcn: Crank-Nicolson move with a gamma-distributed inverse
    variance, Metropolis-Hastings rule with the tempered posterior relative to
    the Student-t density. *)
Theorem C43_pcn_step {B} (env : kernel_env X B) d rows lp ll bl beta L C Ci mu nu s r i st st' stop n us zs gs k :
  exact_env env d rows -> prior_rows env lp -> like_rows env ll bl ->
  cholesky_of d L C -> inverse_of d Ci C -> length mu = d -> 0 < nu -> 0 <= s <= 1 ->
  pcn_step env (Fin nu) (fin_mat Ci) (fin_mat L) (Fin beta) r i st = Ok (st', stop) -> rectangular (m_w st) n ->
  m_sigma st = Fin s -> m_mu st = map Fin mu -> w_u (m_w st) = map (map Fin) us -> Forall (fun u => length u = d) us ->
  (forall j, (j < n)%nat -> r_norm r j = map Fin (zs j)) ->
  (forall j, (j < n)%nat -> r_gamma r j (Fin ((INR d + nu) / 2)) (Fin (2 / (nu + quadratic Ci (vminus (nth j us []) mu)))) = Fin (gs j) /\ 0 < gs j) ->
  (k < n)%nat -> (exists hb, coherent (k_scaler env) (k_junk env) lp ll bl hb (particle_at (m_w st) k)) ->
  let u := nth k us [] in let u' := crank_nicolson mu s L (gs k) u (zs k) in
  forall t t' v, log_target env lp ll beta u t -> log_target env lp ll beta u' t' -> r_unif r k = Fin v ->
  let l := t' - t - student_log_density (INR d) nu (quadratic Ci (vminus u' mu)) + student_log_density (INR d) nu (quadratic Ci (vminus u mu)) in
  nth k (m_alpha st') (Fin 0) = Fin (mh l) /\ nth k (w_u (m_w st')) [] = map Fin (if Rlt_dec v (mh l) then u' else u).
Proof. exact (fun HE HP HL HC HI Hm Hn Hs => pcn_move env d rows HE lp ll bl HP HL beta L C Ci mu nu s HC HI Hm Hn Hs r i st st' stop n us zs gs k). Qed.
Print Assumptions C43_pcn_step.
(** The kernel preconditioned_pcn: the same in the latent space of the flow. *)
Theorem C43_preconditioned_pcn_step {B} (env : kernel_env X B) d rows lp ll bl beta L C Ci mu nu s r i st st' stop n ths zs gs k :
  exact_env env d rows -> prior_rows env lp -> like_rows env ll bl -> flow_total env d ->
  cholesky_of d L C -> inverse_of d Ci C -> length mu = d -> 0 < nu -> 0 <= s <= 1 ->
  ppcn_step env (Fin nu) (fin_mat Ci) (fin_mat L) (Fin beta) r i st = Ok (st', stop) -> rectangular (m_w st) n -> latent_rectangular (m_w st) n ->
  m_sigma st = Fin s -> m_mu st = map Fin mu -> w_theta (m_w st) = map (map Fin) ths -> Forall (fun u => length u = d) ths ->
  (forall j, (j < n)%nat -> r_norm r j = map Fin (zs j)) ->
  (forall j, (j < n)%nat -> r_gamma r j (Fin ((INR d + nu) / 2)) (Fin (2 / (nu + quadratic Ci (vminus (nth j ths []) mu)))) = Fin (gs j) /\ 0 < gs j) ->
  (k < n)%nat -> (exists hb, coherent (k_scaler env) (k_junk env) lp ll bl hb (particle_at (m_w st) k)) -> latent_coherent env (m_w st) k ->
  let th := nth k ths [] in let th' := crank_nicolson mu s L (gs k) th (zs k) in
  forall t t' v, log_target_latent env lp ll beta th t -> log_target_latent env lp ll beta th' t' -> r_unif r k = Fin v ->
  let l := t' - t - student_log_density (INR d) nu (quadratic Ci (vminus th' mu)) + student_log_density (INR d) nu (quadratic Ci (vminus th mu)) in
  nth k (m_alpha st') (Fin 0) = Fin (mh l) /\
  nth k (w_theta (m_w st')) [] = map Fin (if Rlt_dec v (mh l) then th' else th) /\ latent_coherent env (m_w st') k.
Proof. exact (fun HE HP HL HF HC HI Hm Hn Hs => ppcn_move env d rows HE lp ll bl HP HL beta HF L C Ci mu nu s HC HI Hm Hn Hs r i st st' stop n ths zs gs k). Qed.
Print Assumptions C43_preconditioned_pcn_step.
(** Detailed balance: for every inverse variance g,
    pi(u) p(g | u) q(u -> u' | g) alpha(u, u') is symmetric in u and u', where
    p is the gamma density (G its normalising constant) and q the density of
    the Crank-Nicolson move. *)
Theorem C43_detailed_balance d L C Ci mu sigma nu g G u u' t t' :
  cholesky_of d L C -> inverse_of d Ci C -> length mu = d -> 0 < sigma <= 1 -> 0 < nu -> 0 < g -> length u = d -> length u' = d ->
  let m2 := quadratic Ci (vminus u mu) in let m2' := quadratic Ci (vminus u' mu) in
  let l := t' - t - student_log_density (INR d) nu m2' + student_log_density (INR d) nu m2 in
  exp t * gamma_density G ((INR d + nu) / 2) (2 / (nu + m2)) g * gaussian_density d L Ci (sigma * sqrt (1 / g)) (pulled mu sigma u) u' * mh l =
  exp t' * gamma_density G ((INR d + nu) / 2) (2 / (nu + m2')) g * gaussian_density d L Ci (sigma * sqrt (1 / g)) (pulled mu sigma u') u * mh (- l).
Proof. exact (fun HL HI Hm Hs Hn Hg => cn_density d L C Ci HL HI mu sigma nu g G Hm Hs Hn Hg u u' t t'). Qed.
Print Assumptions C43_detailed_balance.
Theorem C43_proposal_density d L C Ci mu sigma g u z :
  cholesky_of d L C -> inverse_of d Ci C -> 0 < sigma * sqrt (1 / g) -> length (pulled mu sigma u) = d -> length z = d ->
  gaussian_density d L Ci (sigma * sqrt (1 / g)) (pulled mu sigma u) (crank_nicolson mu sigma L g u z) * ((sigma * sqrt (1 / g)) ^ d * diag_product d L) = normal_density z.
Proof. exact (fun HL HI => gaussian_noise d L C Ci HL HI (sigma * sqrt (1 / g)) (pulled mu sigma u) z). Qed.
Print Assumptions C43_proposal_density.
(** For fixed g the move is undone by the reverse noise, and the map
    (u, z) -> (u', z') undoes itself; this also covers sigma = 0. *)
Theorem C43_reversible_noise d L C Ci mu sigma nu g G u z t t' :
  cholesky_of d L C -> inverse_of d Ci C -> length mu = d -> 0 <= sigma <= 1 -> 0 < nu -> 0 < g -> length u = d -> length z = d ->
  let u' := crank_nicolson mu sigma L g u z in let z' := reverse_noise d mu sigma L Ci g u z in
  let m2 := quadratic Ci (vminus u mu) in let m2' := quadratic Ci (vminus u' mu) in
  let l := t' - t - student_log_density (INR d) nu m2' + student_log_density (INR d) nu m2 in
  crank_nicolson mu sigma L g u' z' = u /\ reverse_noise d mu sigma L Ci g u' z' = z /\
  exp t * gamma_density G ((INR d + nu) / 2) (2 / (nu + m2)) g * normal_density z * mh l =
  exp t' * gamma_density G ((INR d + nu) / 2) (2 / (nu + m2')) g * normal_density z' * mh (- l).
Proof.
  exact (fun HL HI Hm Hs Hn Hg Hu Hz => conj (cn_reverse d L C Ci HL HI mu sigma g Hm Hs Hg u z Hu Hz)
    (conj (reverse_noise_involutive d L C Ci HL HI mu sigma g Hm Hs Hg u z Hu Hz) (cn_balance d L C Ci HL HI mu sigma nu g G Hm Hs Hn Hg u z t t' Hu Hz))).
Qed.
Print Assumptions C43_reversible_noise.
Example C43_case : (exists st' stop, pcn_step case_env (Fin 4) (fin_mat case_Ci) (fin_mat case_L) (Fin (1/2)) case_rand 1 case_state = Ok (st', stop)) /\
  (exists st' stop, ppcn_step case_env (Fin 4) (fin_mat case_Ci) (fin_mat case_L) (Fin (1/2)) case_rand 1 case_state = Ok (st', stop)) /\
  m_mu case_state = map Fin case_mu /\ cholesky_of 2 case_L case_C /\ inverse_of 2 case_Ci case_C /\ length case_mu = 2%nat /\
  (forall j a b, r_gamma case_rand j a b = Fin 1) /\ (forall j, r_norm case_rand j = map Fin case_z) /\ (forall j, r_unif case_rand j = Fin (1/2)).
Proof.
  split; [exact case_pcn|]. split; [exact case_ppcn|]. split; [reflexivity|]. split; [exact case_cholesky|]. split; [exact case_inverse_of|]. repeat split.
Qed.

(** ** C44 *)
(** Every acceptance probability is a real number in [0,1], whatever the
    values of the log densities. *)
Theorem C44_probability {B} (env : kernel_env X B) beta step r i st st' stop :
  is_step env beta step -> step r i st = Ok (st', stop) ->
  length (m_alpha st') = length (w_x (m_w st)) /\ forall a, In a (m_alpha st') -> exists p, a = Fin p /\ 0 <= p <= 1.
Proof. exact (step_probability env beta step r i st st' stop). Qed.
Print Assumptions C44_probability.
(** In binary64, with an exp that is never negative. *)
Theorem C44_probability_binary64 exp log pow erf erfinv pi {B} (env : kernel_env B64 B) beta step r i st st' stop :
  (forall x, exp x = S754_nan \/ SFleb (b64_ofZ 0) (exp x) = true) ->
  @is_step B64 B (B64NumT exp log pow erf erfinv pi) env beta step -> step r i st = Ok (st', stop) ->
  length (m_alpha st') = length (w_x (m_w st)) /\ forall a, In a (m_alpha st') -> SFleb (b64_ofZ 0) a = true /\ SFleb a (b64_ofZ 1) = true.
Proof. exact (step_probability_b64 exp log pow erf erfinv pi env beta step r i st st' stop). Qed.
Print Assumptions C44_probability_binary64.
(** Every walker keeps its row, or gets the row of a point with finite
    coordinates, log-Jacobian and log-prior and a log-likelihood that is neither
    NaN nor -infinity.  In any arithmetic with the special values of IEEE-754. *)
Theorem C44_undefined_rejected {T B} {NT : NumT T} undefined random (env : kernel_env T B) beta step r i st st' stop n lp ll bl :
  ieee_like undefined random -> nleb (nofZ 0) beta = true -> is_step env beta step -> step r i st = Ok (st', stop) ->
  rectangular (m_w st) n -> (forall k, random (r_unif r k)) -> prior_rows env lp -> like_rows env ll bl -> (w_blobs (m_w st) <> None -> like_has_blobs env) ->
  forall k, (k < n)%nat ->
    particle_at (m_w st') k = particle_at (m_w st) k \/
    (coherent (k_scaler env) (k_junk env) lp ll bl (match w_blobs (m_w st) with Some _ => true | None => false end) (particle_at (m_w st') k) /\
     ~ undefined (ll (pt_x (particle_at (m_w st') k)))).
Proof. exact (fun L Hb HS H => core_rows undefined random L env beta Hb r st st' n lp ll bl (is_step_core env beta step HS r i st st' stop H)). Qed.
Print Assumptions C44_undefined_rejected.
(** There is one proposal per walker; the likelihood is evaluated exactly at
    the proposals with finite coordinates, log-Jacobian and log-prior; the
    others, and those with log-likelihood NaN or -infinity, have acceptance
    probability zero; a walker keeps its row or moves to its proposal, the
    latter only if the uniform number is below its acceptance probability. *)
Theorem C44_undefined_zero {T B} {NT : NumT T} undefined random (env : kernel_env T B) beta step r i st st' stop n lp ll bl :
  ieee_like undefined random -> nleb (nofZ 0) beta = true -> is_step env beta step -> step r i st = Ok (st', stop) ->
  rectangular (m_w st) n -> (forall k, random (r_unif r k)) -> prior_rows env lp -> like_rows env ll bl ->
  exists props : list (vec T * T), length props = n /\
    m_evals st' = m_evals st ++ map fst (filter (defined lp) props) /\
    forall k, (k < n)%nat -> let p := nth k props ([], nofZ 0) in
      (defined lp p = false \/ undefined (ll (fst p)) -> nth k (m_alpha st') (nofZ 0) = nofZ 0) /\
      (particle_at (m_w st') k = particle_at (m_w st) k \/
       (nltb (r_unif r k) (nth k (m_alpha st') (nofZ 0)) = true /\ pt_x (particle_at (m_w st') k) = fst p /\ pt_logdetj (particle_at (m_w st') k) = snd p)).
Proof. exact (step_proposals undefined random env beta step r i st st' stop n lp ll bl). Qed.
Print Assumptions C44_undefined_zero.
(** Uninitialised memory never reaches the output: the result does not depend
    on the content of any np.empty array. *)
Theorem C44_no_uninitialised_memory {T B} {NT : NumT T} undefined random k (env : kernel_env T B) junk g scale s rand1 rand2 n :
  ieee_like undefined random -> wf (k_scaler env) -> length (k_junk env) = ndim (k_scaler env) -> length junk = ndim (k_scaler env) ->
  nleb (nofZ 0) (s_beta s) = true -> (forall i, same_random (rand1 i) (rand2 i)) -> (forall i k, random (r_unif (rand1 i) k)) -> rectangular (input_walkers s) n ->
  kernel_fun k (with_junk env junk) g scale s rand1 = kernel_fun k env g scale s rand2.
Proof. exact (fun L => kernel_junk undefined random L k env junk g scale s rand1 rand2 n). Qed.
Print Assumptions C44_no_uninitialised_memory.
Example C44_case_exact : @ieee_like X XNumT x_undefined x_random.
Proof. exact X_ieee. Qed.
Example C44_case : @ieee_like B64 demo_numT b64_undefined b64_random /\ (forall i k, b64_random (r_unif (demo_rand i) k)) /\
  @prior_rows B64 B64 demo_numT demo_env demo_lp /\ @like_rows B64 B64 demo_numT demo_env demo_ll demo_ll /\ @like_has_blobs B64 B64 demo_numT demo_env /\
  @all_coherent B64 B64 demo_numT demo_env demo_lp demo_ll demo_ll (input_walkers demo_state) /\
  @wf B64 demo_numT (k_scaler demo_env) /\ rectangular (input_walkers demo_state) 2 /\ (forall k, exists o, demo_run k = Ok o /\ w_x (o_w o) <> demo_x) /\
  (forall x, demo_exp x = S754_nan \/ SFleb (b64_ofZ 0) (demo_exp x) = true).
Proof.
  split; [exact demo_ieee|]. split; [exact demo_random|]. split; [exact demo_prior_rows|]. split; [exact demo_like_rows|]. split; [exact demo_has_blobs|].
  split; [exact demo_coherent|]. split; [repeat split|]. split; [exact demo_rectangular|]. split.
  - intros k. destruct (demo_ok k) as [o [E [_ [_ [_ H]]]]]. now exists o.
  - intros x. destruct x as [[]|[]| |[] ? ?]; auto; right; reflexivity.
Qed.

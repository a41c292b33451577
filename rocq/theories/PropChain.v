(** * Property theorems for whole MCMC phases (C80-C83) *)
From Coq Require Import Reals ZArith Bool Lia Lra.
From Coq Require Import List.
From Verif Require Import Num PyBase XReal Scaler Geometry SpecGeometry Mcmc SpecMcmc SpecBalance McmcCases SpecChain ChainCases.
Import ListNotations.
Open Scope R_scope.

(** ** C80-C82: every kernel is a set of parallel Metropolis-Hastings chains *)
(** In exact arithmetic, what a kernel returns is the last time of [n] chains
    started at the given particles.  Every step of every chain is a
    Metropolis-Hastings step for the tempered posterior density (C80); the phase
    ends at the first long enough plateau of the mean log-posterior, or at the
    maximal number of steps (C81); the scale and location of the proposals
    follow the stated laws (C82). *)
Theorem C80_rwm_chain {B} (env : kernel_env X B) d n lp ll bl beta s us rand normal uniform p g C L o :
  phase env d n lp ll bl beta s us rand normal uniform -> normal_fit env d g C L -> 0 <= p ->
  rwm env g (Fin p) s rand = Ok o ->
  exists c, result_of o n c /\ rwm_law env d n lp ll beta normal uniform p us c (w_u (o_w o)) L.
Proof. exact (fun H => rwm_phase env d n lp ll bl beta s us rand normal uniform H p g C L o). Qed.
Print Assumptions C80_rwm_chain.
Theorem C80_preconditioned_rwm_chain {B} (env : kernel_env X B) d n lp ll bl beta s us rand normal uniform p g C L o :
  phase env d n lp ll bl beta s us rand normal uniform -> normal_fit env d g C L -> flow_bijection env d ->
  preconditioned_rwm env g (Fin p) s rand = Ok o ->
  exists c, result_of o n c /\ preconditioned_rwm_law env d n lp ll beta normal uniform p us c (w_u (o_w o)) L.
Proof. exact (fun H => prwm_phase env d n lp ll bl beta s us rand normal uniform H p g C L o). Qed.
Print Assumptions C80_preconditioned_rwm_chain.
Theorem C80_pcn_chain {B} (env : kernel_env X B) d n lp ll bl beta s us rand normal uniform p g C L Ci mu nu gamma o :
  phase env d n lp ll bl beta s us rand normal uniform -> student_fit env d g C L Ci mu nu -> exact_gamma rand gamma -> 0 <= p ->
  pcn env g (Fin p) s rand = Ok o ->
  exists c, result_of o n c /\ pcn_law env d n lp ll beta normal uniform p us c (w_u (o_w o)) L Ci mu nu gamma.
Proof. exact (fun H => pcn_phase env d n lp ll bl beta s us rand normal uniform H p g C L Ci mu nu gamma o). Qed.
Print Assumptions C80_pcn_chain.
Theorem C80_preconditioned_pcn_chain {B} (env : kernel_env X B) d n lp ll bl beta s us rand normal uniform p g C L Ci mu nu gamma o :
  phase env d n lp ll bl beta s us rand normal uniform -> student_fit env d g C L Ci mu nu -> exact_gamma rand gamma -> flow_bijection env d -> 0 <= p ->
  preconditioned_pcn env g (Fin p) s rand = Ok o ->
  exists c, result_of o n c /\ preconditioned_pcn_law env d n lp ll beta normal uniform p us c (w_u (o_w o)) L Ci mu nu gamma.
Proof. exact (fun H => ppcn_phase env d n lp ll bl beta s us rand normal uniform H p g C L Ci mu nu gamma o). Qed.
Print Assumptions C80_preconditioned_pcn_chain.

(** ** C81: at least n_steps steps *)
(** Up to 292 dimensions the Crank-Nicolson kernels make at least
    min(n_steps, n_max_steps) steps: the adapted scale never exceeds the optimal
    one.  (In more dimensions the absolute value taken after a large negative
    correction can exceed it.) *)
Theorem C81_pcn_at_least_n_steps {B} (env : kernel_env X B) d n lp ll bl beta s us rand normal uniform p g C L Ci mu nu gamma o :
  phase env d n lp ll bl beta s us rand normal uniform -> student_fit env d g C L Ci mu nu -> exact_gamma rand gamma -> 0 <= p -> (d <= 292)%nat -> pcn env g (Fin p) s rand = Ok o ->
  (Z.min (k_n_steps env) (k_n_max env) <= o_steps o)%Z.
Proof. exact (fun H => pcn_at_least env d n lp ll bl beta s us rand normal uniform H p g C L Ci mu nu gamma o). Qed.
Print Assumptions C81_pcn_at_least_n_steps.
Theorem C81_preconditioned_pcn_at_least_n_steps {B} (env : kernel_env X B) d n lp ll bl beta s us rand normal uniform p g C L Ci mu nu gamma o :
  phase env d n lp ll bl beta s us rand normal uniform -> student_fit env d g C L Ci mu nu -> exact_gamma rand gamma -> flow_bijection env d -> 0 <= p -> (d <= 292)%nat ->
  preconditioned_pcn env g (Fin p) s rand = Ok o -> (Z.min (k_n_steps env) (k_n_max env) <= o_steps o)%Z.
Proof. exact (fun H => ppcn_at_least env d n lp ll bl beta s us rand normal uniform H p g C L Ci mu nu gamma o). Qed.
Print Assumptions C81_preconditioned_pcn_at_least_n_steps.

(** ** C83: the kernels return *)
(** If the prior and the likelihood return for all points, with blobs if the
    particles carry blobs, then no kernel raises. *)
Theorem C83_rwm_returns {B} (env : kernel_env X B) d n lp ll bl beta s us rand normal uniform p g C L blobs :
  phase env d n lp ll bl beta s us rand normal uniform -> model_returns env lp ll bl blobs -> (s_blobs s <> None -> blobs = true) -> normal_fit env d g C L -> 0 <= p ->
  exists o, rwm env g (Fin p) s rand = Ok o.
Proof. exact (fun H => rwm_returns env d n lp ll bl beta s us rand normal uniform H p g C L blobs). Qed.
Print Assumptions C83_rwm_returns.
Theorem C83_preconditioned_rwm_returns {B} (env : kernel_env X B) d n lp ll bl beta s us rand normal uniform p g C L blobs :
  phase env d n lp ll bl beta s us rand normal uniform -> model_returns env lp ll bl blobs -> (s_blobs s <> None -> blobs = true) -> normal_fit env d g C L -> flow_bijection env d ->
  exists o, preconditioned_rwm env g (Fin p) s rand = Ok o.
Proof. exact (fun H => prwm_returns env d n lp ll bl beta s us rand normal uniform H p g C L blobs). Qed.
Print Assumptions C83_preconditioned_rwm_returns.
Theorem C83_pcn_returns {B} (env : kernel_env X B) d n lp ll bl beta s us rand normal uniform p g C L Ci mu nu gamma blobs :
  phase env d n lp ll bl beta s us rand normal uniform -> model_returns env lp ll bl blobs -> (s_blobs s <> None -> blobs = true) -> student_fit env d g C L Ci mu nu -> exact_gamma rand gamma -> 0 <= p ->
  exists o, pcn env g (Fin p) s rand = Ok o.
Proof. exact (fun H => pcn_returns env d n lp ll bl beta s us rand normal uniform H p g C L Ci mu nu gamma blobs). Qed.
Print Assumptions C83_pcn_returns.
Theorem C83_preconditioned_pcn_returns {B} (env : kernel_env X B) d n lp ll bl beta s us rand normal uniform p g C L Ci mu nu gamma blobs :
  phase env d n lp ll bl beta s us rand normal uniform -> model_returns env lp ll bl blobs -> (s_blobs s <> None -> blobs = true) -> student_fit env d g C L Ci mu nu -> exact_gamma rand gamma ->
  flow_bijection env d -> 0 <= p -> exists o, preconditioned_pcn env g (Fin p) s rand = Ok o.
Proof. exact (fun H => ppcn_returns env d n lp ll bl beta s us rand normal uniform H p g C L Ci mu nu gamma blobs). Qed.
Print Assumptions C83_preconditioned_pcn_returns.

(** two particles with blobs in two dimensions, one of them periodic, at inverse
    temperature 1/2, step size 1, at most ten steps; a flow that doubles *)
Example C80_case :
  phase case_env 2 2 case_lp case_ll case_ll (1/2) case_input case_us (fun _ => case_rand) (fun _ _ => case_z) (fun _ _ => 1/2) /\
  normal_fit case_env 2 case_fit case_C case_L /\ student_fit case_env 2 case_fit case_C case_L case_Ci case_mu 4 /\
  exact_gamma (fun _ : Z => case_rand) (fun _ _ _ _ => 1) /\ flow_bijection case_env 2 /\ model_returns case_env case_lp case_ll case_ll true /\
  (exists o, rwm case_env case_fit (Fin 1) case_input (fun _ => case_rand) = Ok o) /\
  (exists o, preconditioned_rwm case_env case_fit (Fin 1) case_input (fun _ => case_rand) = Ok o) /\
  (exists o, pcn case_env case_fit (Fin 1) case_input (fun _ => case_rand) = Ok o) /\
  (exists o, preconditioned_pcn case_env case_fit (Fin 1) case_input (fun _ => case_rand) = Ok o).
Proof.
  split; [exact case_phase|]. split; [exact case_normal_fit|]. split; [exact case_student_fit|]. split; [exact case_exact_gamma|].
  split; [exact case_bijection|]. split; [exact case_model_returns|]. assert (P : 0 <= 1) by lra.
  split; [exact (C83_rwm_returns _ _ _ _ _ _ _ _ _ _ _ _ _ _ _ _ _ case_phase case_model_returns (fun _ => eq_refl) case_normal_fit P)|].
  split; [exact (C83_preconditioned_rwm_returns _ _ _ _ _ _ _ _ _ _ _ _ _ _ _ _ _ case_phase case_model_returns (fun _ => eq_refl) case_normal_fit case_bijection)|].
  split; [exact (C83_pcn_returns _ _ _ _ _ _ _ _ _ _ _ _ _ _ _ _ _ _ _ _ _ case_phase case_model_returns (fun _ => eq_refl) case_student_fit case_exact_gamma P)|].
  exact (C83_preconditioned_pcn_returns _ _ _ _ _ _ _ _ _ _ _ _ _ _ _ _ _ _ _ _ _ case_phase case_model_returns (fun _ => eq_refl) case_student_fit case_exact_gamma case_bijection P).
Qed.

(** * Property of runs: what the warm-up stores (C93) *)
From Coq Require Import ZArith List Bool PeanoNat.
From Verif Require Import Num PyBase Scaler Particles Mcmc SpecMcmc Sampler SpecReach SpecRun SpecWarmup WarmRun FloatNum RunCase RunCaseFacts LoopCase.
Import ListNotations.
Local Open Scope nat_scope.

(** ** C93 *)
(** The first run of a new sampler asks the prior for n_prior points, fits the
    scaler to all of them, and stores them in their order as n_prior / n_active
    entries of n_active particles; those entries are still there, as they were
    stored, when the run returns.  Whatever the number type. *)
Theorem C93_warm_up {T C P Opt} {NT : NumT T} (W : world T C P Opt) lp ll bl o (s0 : sampler T C P) a R s' :
  regular W lp ll bl -> new_sampler W o = Ok s0 -> maps (s_pool s0) -> (forall n ps, rn_prior R n = Ok ps -> length ps = n) ->
  snd (run W a R s0) = Ok s' ->
  let n := c_n_active (s_cfg s0) in let batches := c_n_prior (s_cfg s0) / n in
  exists draws, rn_prior R (c_n_prior (s_cfg s0)) = Ok draws /\
    fit (wd_linalg W) (s_scaler s0) (wd_junk W) draws = Ok (s_scaler s') /\
    batches <= iterations (history_of s') /\
    forall t, t < batches ->
      warm_up_entry W lp ll (blobs_of (s_cfg s0) bl) (s_scaler s') n (s_n_effective s0) (rn_pick R (Z.of_nat t))
        (firstn n (skipn (t * n) draws)) (history_of s') t.
Proof. exact (fun RG => run_warm_up W lp ll bl RG o s0 a R s'). Qed.
Print Assumptions C93_warm_up.
(** Two batches of four; in the second batch the row 1 has an infinite
    log-likelihood, and is replaced by row 2. *)
Example C93_case : regular world64 prior64 like64 (Some blob64) /\ new_sampler world64 (options64 true) = Ok start64 /\ maps (s_pool start64) /\
  (forall n ps, rn_prior rand64 n = Ok ps -> length ps = n) /\ snd (run world64 args64 rand64 start64) = Ok final64 /\
  c_n_prior (s_cfg start64) = 8 /\ c_n_active (s_cfg start64) = 4 /\
  map (fun t => map (replacement like64 (rn_pick rand64 (Z.of_nat t)) (firstn 4 (skipn (t * 4) draws64))) (seq 0 4)) [0; 1] = [[0; 1; 2; 3]; [0; 2; 2; 3]].
Proof. exact warm_case. Qed.

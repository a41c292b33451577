(** * The proposal distribution throughout a run (C85, continued) *)
From Coq Require Import Reals ZArith List Lra Lia.
From Coq Require Import List.
From Verif Require Import Num PyBase XReal Scaler SpecScaler Particles LogLike Geometry SpecGeometry GeometryFacts Mcmc SpecMcmc SpecBalance SpecChain Flow Sampler
  SpecReach SpecRun SpecExact SpecIterate SpecLater ConfigFacts LoopExact IterateFacts IterateFit IterateLater IterateCase ExactRun.
Import ListNotations.
Local Open Scope R_scope.

(** ** C85 *)
(** After every iteration of a run, the flow being untrained at its beginning,
    the distribution that the kernel used is a proper one, whether or not the flow
    was trained in that iteration, if every effective sample size recorded so far
    exceeds 100/99. *)
Theorem C85_throughout {C P Opt} (W : world X C P Opt) lp ll bl rows interrupts rnd s s' :
  exact_model W lp ll bl rows -> exact_draws rows rnd -> reachable W (exact_draws rows) interrupts s -> exact_sampler rows s -> later W rnd s s' ->
  good_solve (length rows) (wd_fit W) -> good_bisect (wd_fit W) -> good_linalg (length rows) (wd_linalg W) -> c_metric (s_cfg s) = ESS -> enough_recorded s s' ->
  (c_preconditioned (s_cfg s) = true -> s_untrained s = true /\ forall s, flow_bijection (kernel_env_of W s) (length rows)) ->
  proper_proposal W (length rows) s'.
Proof. exact (fun EM => proper_throughout W lp ll bl rows EM interrupts rnd s s'). Qed.
Print Assumptions C85_throughout.
(** The run of a new sampler consists of such iterations, ... *)
Theorem C85_iterations {C P Opt} (W : world X C P Opt) rows interrupts rnd a s evs s' :
  reachable W (exact_draws rows) interrupts s -> exact_draws rows rnd -> exact_sampler rows s -> s_warmup s = true -> s_current s = None -> run W a rnd s = (evs, Ok s') ->
  exists s0 s1, s_warmup s0 = false /\ s_untrained s0 = s_untrained s /\ s_cfg s0 = s_cfg s /\ exact_sampler rows s0 /\ reachable W (exact_draws rows) interrupts s0 /\
    length (h_ess (history_of s0)) = (length (h_ess (history_of s)) + n_batches (s_cfg s))%nat /\ later W rnd s0 s1 /\ final_evidence W rnd s1 = Ok s'.
Proof. exact (run_later W rows interrupts rnd a s evs s'). Qed.
Print Assumptions C85_iterations.
(** ... so the last of them used a proper distribution. *)
Theorem C85_run {C P Opt} (W : world X C P Opt) lp ll bl rows rnd a o s evs s' :
  exact_model W lp ll bl rows -> new_sampler W o = Ok s -> maps (s_pool s) -> exact_sampler rows s -> exact_draws rows rnd -> run W a rnd s = (evs, Ok s') ->
  good_solve (length rows) (wd_fit W) -> good_bisect (wd_fit W) -> good_linalg (length rows) (wd_linalg W) -> c_metric (s_cfg s) = ESS ->
  (forall e, In e (skipn (n_batches (s_cfg s)) (h_ess (history_of s'))) -> exists r, e = Fin r /\ 100 / 99 < r) ->
  (c_preconditioned (s_cfg s) = true -> forall s, flow_bijection (kernel_env_of W s) (length rows)) -> proper_proposal W (length rows) s'.
Proof. exact (fun EM => proper_run W lp ll bl rows EM false rnd a o s evs s'). Qed.
Print Assumptions C85_run.
(** the exact run of one iteration, with or without preconditioning *)
Example C85_run_case pre : exists o a s evs s', exact_model world1 flat1 like1 None rows1 /\ new_sampler world1 o = Ok s /\ c_preconditioned (s_cfg s) = pre /\ maps (s_pool s) /\
  exact_sampler rows1 s /\ exact_draws rows1 rand1 /\ run world1 a rand1 s = (evs, Ok s') /\
  good_solve (length rows1) (wd_fit world1) /\ good_bisect (wd_fit world1) /\ good_linalg (length rows1) (wd_linalg world1) /\ c_metric (s_cfg s) = ESS /\
  (forall e, In e (skipn (n_batches (s_cfg s)) (h_ess (history_of s'))) -> exists r, e = Fin r /\ 100 / 99 < r) /\ forall s, flow_bijection (kernel_env_of world1 s) (length rows1).
Proof.
  destruct (case1_run_of pre) as (s0 & bfuel & s' & N0 & P0 & _ & RUN & _ & (e0 & EE) & _). destruct oracles1_good as (G1 & G2 & _).
  destruct (start1 pre) as (s00 & H0 & F1 & _ & _ & F4 & F5 & F6 & _ & _ & _ & SI & _ & _ & ME & _ & _ & NS & _). rewrite N0 in H0. apply Ok_inj in H0. subst s00.
  exists (options1 pre), (args1 pre bfuel), s0, [], s'. split; [exact world1_exact|]. split; [exact N0|]. split; [exact P0|]. split; [rewrite F1; exact I|].
  split. { apply init_reparam_facts in SI as (_ & S1 & S2 & _). constructor; [exact F4|rewrite F5; lia|exact NS|rewrite S1; exact I|rewrite S2; exact I]. }
  split; [exact rand1_fair|]. split; [exact RUN|]. split; [exact G1|]. split; [exact G2|]. split; [exact linalg1_good|]. split; [exact ME|]. split; [|exact identity1].
  unfold n_batches. rewrite F5, F6, EE. cbn. intros e [<-|[]]. exists 2. split; [reflexivity|lra].
Qed.

(** * With the flow, an iteration returns; a loop of iterations raises nothing (C86, continued) *)
From Coq Require Import Reals ZArith List Lra Lia.
From Coq Require Import List.
From Verif Require Import Num PyBase XReal Scaler SpecScaler Particles LogLike Geometry SpecGeometry GeometryFacts Mcmc SpecMcmc SpecBalance SpecChain Flow Sampler
  SpecReach SpecRun SpecExact SpecIterate SpecPosterior IterateFit IterateCase SpecLater SpecReturn ReturnFacts ReturnCase SpecTrainReturn TrainReturn SpecFlowReturn FlowReturn SpecLoopReturn LoopReturn FlowReturnCase.
Import ListNotations.
Local Open Scope R_scope.

(** ** C72: training returns *)
(** Training on one or more real points returns, whatever the network and the
    optimiser are, if the split leaves something to train on and to validate on and,
    when noise is added, two of the points differ. *)
Theorem C72_training_returns {P Opt} (o : flow_oracles X P Opt) c rnd p d (xs : list (list R)) w :
  Forall (fun x => length x = d) xs -> xs <> [] -> training_options c (length xs) -> training_numbers c rnd (length xs) ->
  (forall v, w = Some v -> length v = length xs) -> (c_noise c <> None -> two_samples xs) ->
  exists p' history early, flow_fit o c rnd p (map (map Fin) xs) w = Ok (p', history, early).
Proof. exact (training_returns o c rnd p d xs w). Qed.
Print Assumptions C72_training_returns.
(** two points, half of them to validate on *)
Example C72_returns_case (a b : R) : exists (c : fit_config X) rnd, Forall (fun x => length x = 1%nat) [[a]; [b]] /\ [[a]; [b]] <> [] /\ training_options c (length [[a]; [b]]) /\ training_numbers c rnd (length [[a]; [b]]) /\ c_noise c = None /\
  c_validation_split c = Fin (1 / 2) /\ c_shuffle c = true.
Proof.
  destruct half1 as (v & E & ->). exists (train_config 1 1 (Some [TC_epochs 1; TC_batch_size 4])), (ir_fit (rn_iter rand1 0)).
  split; [now repeat constructor|]. split; [discriminate|]. split; [|split; [exact (permutations1 0)|split; [reflexivity|split; [exact E|reflexivity]]]].
  constructor; [exists (1 / 2); split; [exact E|right; cbn; lra]|reflexivity|left; cbn; lia].
Qed.

(** ** C86: with the flow *)
(** Nothing is assumed of the training or of the fit themselves: an iteration that
    trains the flow, and one that does not, return if np.linalg and scipy answer on
    symmetric positive definite matrices, the flow is a bijection whatever its
    parameters, the proposal distribution that an earlier iteration left is proper,
    and the sampled survivors are not all in one hyperplane, nor are their images.
    The proposal distribution is proper again afterwards. *)
Theorem C86_flow_iteration_returns {C P Opt} (W : world X C P Opt) lp ll bl rows interrupts s :
  exact_model W lp ll bl rows -> reachable W (exact_draws rows) interrupts s -> exact_sampler rows s -> iterations (history_of s) <> 0%nat ->
  (s_have_blobs s = true -> blobs_of (s_cfg s) bl <> None) -> returning W lp bl ->
  c_preconditioned (s_cfg s) = true -> (c_sample (s_cfg s) = RWMH -> (2 <= length rows)%nat) -> c_train_frequency (s_cfg s) <> 0%Z -> flow_options (c_train (s_cfg s)) ->
  good_solve (length rows) (wd_fit W) -> good_bisect (wd_fit W) -> total_fit (length rows) (wd_fit W) ->
  good_linalg (length rows) (wd_linalg W) -> total_linalg (length rows) (wd_linalg W) ->
  (forall s, flow_bijection (kernel_env_of W s) (length rows)) -> proper_latent (length rows) s ->
  exists halvings, forall fuel, (halvings <= fuel)%nat -> exists s1, reweight fuel s = Ok s1 /\
    forall rnd normal uniform gamma, well_spread (length rows) rnd s1 -> well_spread_latent W rnd (length rows) s1 -> fit_permutations rnd s1 -> fit_number rnd (s_t s1) -> resampling_numbers rnd (s_t s1) ->
      exact_rand (c_n_active (s_cfg s)) (step_numbers rnd s1) normal uniform -> exact_gamma (step_numbers rnd s1) gamma ->
      exists s', iteration W fuel rnd s = Ok s' /\ proper_latent (length rows) s'.
Proof. exact (fun EM => flow_returns W lp ll bl rows EM interrupts s). Qed.
Print Assumptions C86_flow_iteration_returns.

(** ** C86: the loop *)
(** The loop after the warm-up, from any state that it can begin in and whatever the
    number [n] of iterations that are waited for, either stops by itself within [n]
    iterations or has gone through [n] of them; it raises nothing. *)
Theorem C86_loop_raises_nothing {C P Opt} (W : world X C P Opt) lp ll bl rows interrupts rnd s N :
  exact_model W lp ll bl rows -> exact_draws rows rnd -> reachable W (exact_draws rows) interrupts s -> exact_sampler rows s -> s_warmup s = false -> iterations (history_of s) <> 0%nat -> s_n_total s = Some N ->
  (s_have_blobs s = true -> blobs_of (s_cfg s) bl <> None) -> returning W lp bl ->
  (c_sample (s_cfg s) = RWMH -> (2 <= length rows)%nat) ->
  (c_preconditioned (s_cfg s) = true -> c_train_frequency (s_cfg s) <> 0%Z /\ flow_options (c_train (s_cfg s)) /\
    (forall s, flow_bijection (kernel_env_of W s) (length rows)) /\ proper_latent (length rows) s) ->
  good_solve (length rows) (wd_fit W) -> good_bisect (wd_fit W) -> total_fit (length rows) (wd_fit W) -> good_linalg (length rows) (wd_linalg W) -> total_linalg (length rows) (wd_linalg W) ->
  good_loop W rnd (length rows) s ->
  forall n, exists halvings, forall bfuel, (halvings <= bfuel)%nat -> forall save t0, save <> Some 0%Z ->
    (exists s', snd (smc_loop W n bfuel save t0 rnd s) = Ok s') \/ (snd (smc_loop W n bfuel save t0 rnd s) = Err Diverge /\ gone_through W rnd n s).
Proof. exact (fun EM => loop_raises_nothing W lp ll bl rows EM interrupts rnd s N). Qed.
Print Assumptions C86_loop_raises_nothing.

(** the exact example after the warm-up, with or without preconditioning, meets the
    hypotheses of both; its flow has not been trained *)
Example C86_loop_case pre : exists s s1 fuel, exact_model world1 flat1 like1 None rows1 /\ exact_draws rows1 rand1 /\ reachable world1 (exact_draws rows1) false s /\ exact_sampler rows1 s /\ s_warmup s = false /\
  iterations (history_of s) <> 0%nat /\ s_n_total s = Some 2%Z /\ (s_have_blobs s = true -> blobs_of (s_cfg s) (@None (vec X -> list unit)) <> None) /\ returning world1 flat1 None /\
  c_preconditioned (s_cfg s) = pre /\ c_sample (s_cfg s) = TPCN /\ c_train_frequency (s_cfg s) <> 0%Z /\ flow_options (c_train (s_cfg s)) /\ (forall s, flow_bijection (kernel_env_of world1 s) 1) /\ proper_latent 1 s /\
  good_solve 1 (wd_fit world1) /\ good_bisect (wd_fit world1) /\ total_fit 1 (wd_fit world1) /\ good_linalg 1 (wd_linalg world1) /\ total_linalg 1 (wd_linalg world1) /\
  good_loop world1 rand1 1 s /\ not_termination s = Ok true /\
  reweight fuel s = Ok s1 /\ well_spread 1 rand1 s1 /\ well_spread_latent world1 rand1 1 s1 /\ fit_permutations rand1 s1 /\ fit_number rand1 (s_t s1) /\ resampling_numbers rand1 (s_t s1) /\
  exact_rand (c_n_active (s_cfg s)) (step_numbers rand1 s1) (fun _ _ => [1]) (fun _ _ => 1/2) /\ exact_gamma (step_numbers rand1 s1) (fun _ _ _ _ => 1).
Proof.
  destruct (case1 pre) as (s & s1 & s2 & HW & fuel & H1 & _). exists s, s1, fuel. destruct (spread_latent1 pre s fuel s1 HW H1) as (L1 & L2 & L3). pose proof (good_loop1 pre s HW) as GL.
  destruct (case1_iteration_of pre s HW) as (s' & f & HI & _). destruct (case1_stops pre s f s' HW HI) as [NT _].
  destruct oracles1_good as (A & B & C & D). destruct HW as [W1 W2 [W3 [W3' [_ [_ [W6 _]]]]] [T1 [T2 T3]] W4 [X1 [_ [X2 _]]] [W5 _]].
  split; [exact world1_exact|]. split; [exact rand1_fair|]. split; [exact W1|]. split; [exact W2|]. split; [exact X1|]. split; [rewrite W5; discriminate|]. split; [exact X2|]. split; [rewrite W4; discriminate|]. split; [exact returning1|].
  split; [exact W3'|]. split; [exact W6|]. split; [exact T2|]. split; [rewrite T1; exact options1_flow|]. split; [exact identity1|]. split; [intros Q; congruence|].
  split; [exact A|]. split; [exact B|]. split; [split; [exact C|exact D]|]. split; [exact linalg1_good|]. split; [exact linalg1_total|].
  split; [exact GL|]. split; [exact NT|]. split; [exact H1|]. split; [exact L3|]. split; [exact L1|]. split; [exact L2|]. split; [exists (1/2); split; [reflexivity|lra]|]. split; [exact (numbers1 _)|].
  split; [exact (steps1 _ s1)|exact (gamma1 s1)].
Qed.

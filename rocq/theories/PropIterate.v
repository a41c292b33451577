(** * The MCMC phase of an iteration of the sampler (C84, C85, C86) *)
From Coq Require Import Reals ZArith List Lra Lia.
From Coq Require Import List.
From Verif Require Import Num PyBase XReal Scaler SpecScaler Particles LogLike Geometry SpecGeometry GeometryFacts Mcmc SpecMcmc SpecBalance SpecChain Flow Sampler
  SpecReach SpecRun SpecExact SpecIterate LoopExact HistoryExact IterateFacts IterateFit IterateTotal IterateCase.
Import ListNotations.
Local Open Scope R_scope.

(** ** C84: whatever happened before, an iteration that returns has moved
    [n_active] stored particles along chains that follow the law of the chosen
    kernel, at the inverse temperature it recorded.  The particles were resampled
    from those that remain after trimming, by the method of the options
    ([moved], field [mv_selected]). *)
Theorem C84_random_walk {C P Opt} (W : world X C P Opt) lp ll bl rows interrupts fuel rnd s s' normal uniform V L :
  exact_model W lp ll bl rows -> reachable W (exact_draws rows) interrupts s -> exact_sampler rows s -> iteration W fuel rnd s = Ok s' ->
  exact_rand (c_n_active (s_cfg s)) (step_numbers rnd s') normal uniform ->
  c_preconditioned (s_cfg s) = false -> c_sample (s_cfg s) = RWMH -> normal_fit (kernel_env_of W s') (length rows) (geometry_in_use s') V L ->
  exists beta p us c final, moved rnd s s' beta p us c final /\
    rwm_law (kernel_env_of W s') (length rows) (c_n_active (s_cfg s)) lp ll beta normal uniform p us c final L.
Proof. exact (fun EM HR HS HI HU => iteration_rwm W lp ll bl rows EM interrupts fuel rnd s s' normal uniform HR HS HI HU V L). Qed.
Print Assumptions C84_random_walk.
Theorem C84_preconditioned_random_walk {C P Opt} (W : world X C P Opt) lp ll bl rows interrupts fuel rnd s s' normal uniform V L :
  exact_model W lp ll bl rows -> reachable W (exact_draws rows) interrupts s -> exact_sampler rows s -> iteration W fuel rnd s = Ok s' ->
  exact_rand (c_n_active (s_cfg s)) (step_numbers rnd s') normal uniform ->
  c_preconditioned (s_cfg s) = true -> c_sample (s_cfg s) = RWMH -> normal_fit (kernel_env_of W s') (length rows) (geometry_in_use s') V L ->
  flow_bijection (kernel_env_of W s') (length rows) ->
  exists beta p us c final, moved rnd s s' beta p us c final /\
    preconditioned_rwm_law (kernel_env_of W s') (length rows) (c_n_active (s_cfg s)) lp ll beta normal uniform p us c final L.
Proof. exact (fun EM HR HS HI HU => iteration_prwm W lp ll bl rows EM interrupts fuel rnd s s' normal uniform HR HS HI HU V L). Qed.
Print Assumptions C84_preconditioned_random_walk.
Theorem C84_crank_nicolson {C P Opt} (W : world X C P Opt) lp ll bl rows interrupts fuel rnd s s' normal uniform V L Vi mu nu gamma :
  exact_model W lp ll bl rows -> reachable W (exact_draws rows) interrupts s -> exact_sampler rows s -> iteration W fuel rnd s = Ok s' ->
  exact_rand (c_n_active (s_cfg s)) (step_numbers rnd s') normal uniform ->
  c_preconditioned (s_cfg s) = false -> c_sample (s_cfg s) = TPCN -> student_fit (kernel_env_of W s') (length rows) (geometry_in_use s') V L Vi mu nu ->
  exact_gamma (step_numbers rnd s') gamma ->
  exists beta p us c final, moved rnd s s' beta p us c final /\
    pcn_law (kernel_env_of W s') (length rows) (c_n_active (s_cfg s)) lp ll beta normal uniform p us c final L Vi mu nu gamma.
Proof. exact (fun EM HR HS HI HU => iteration_pcn W lp ll bl rows EM interrupts fuel rnd s s' normal uniform HR HS HI HU V L Vi mu nu gamma). Qed.
Print Assumptions C84_crank_nicolson.
Theorem C84_preconditioned_crank_nicolson {C P Opt} (W : world X C P Opt) lp ll bl rows interrupts fuel rnd s s' normal uniform V L Vi mu nu gamma :
  exact_model W lp ll bl rows -> reachable W (exact_draws rows) interrupts s -> exact_sampler rows s -> iteration W fuel rnd s = Ok s' ->
  exact_rand (c_n_active (s_cfg s)) (step_numbers rnd s') normal uniform ->
  c_preconditioned (s_cfg s) = true -> c_sample (s_cfg s) = TPCN -> student_fit (kernel_env_of W s') (length rows) (geometry_in_use s') V L Vi mu nu ->
  exact_gamma (step_numbers rnd s') gamma -> flow_bijection (kernel_env_of W s') (length rows) ->
  exists beta p us c final, moved rnd s s' beta p us c final /\
    preconditioned_pcn_law (kernel_env_of W s') (length rows) (c_n_active (s_cfg s)) lp ll beta normal uniform p us c final L Vi mu nu gamma.
Proof. exact (fun EM HR HS HI HU => iteration_ppcn W lp ll bl rows EM interrupts fuel rnd s s' normal uniform HR HS HI HU V L Vi mu nu gamma). Qed.
Print Assumptions C84_preconditioned_crank_nicolson.

(** ** C85: the distribution that the kernel of an iteration uses is a proper one
    if at least two particles survived the trimming and, with preconditioning,
    the flow was trained in this iteration. *)
Theorem C85_fitted_geometry {C P Opt} (W : world X C P Opt) lp ll bl rows interrupts fuel rnd s s' :
  exact_model W lp ll bl rows -> reachable W (exact_draws rows) interrupts s -> exact_sampler rows s -> iteration W fuel rnd s = Ok s' ->
  good_solve (length rows) (wd_fit W) -> good_bisect (wd_fit W) -> good_linalg (length rows) (wd_linalg W) -> (2 <= kept s')%nat ->
  (c_preconditioned (s_cfg s) = true -> trained_in s s' /\ flow_bijection (kernel_env_of W s') (length rows)) ->
  match c_sample (s_cfg s) with
  | RWMH => exists V L, normal_fit (kernel_env_of W s') (length rows) (geometry_in_use s') V L
  | TPCN => exists V L Vi mu nu, student_fit (kernel_env_of W s') (length rows) (geometry_in_use s') V L Vi mu nu
  end.
Proof. exact (fun EM => fitted_geometry W lp ll bl rows EM interrupts fuel rnd s s'). Qed.
Print Assumptions C85_fitted_geometry.
(** Two particles survive if the effective sample size that was recorded exceeds 100/99. *)
Theorem C85_survivors {C P Opt} (W : world X C P Opt) lp ll bl rows interrupts fuel rnd s s' es e :
  exact_model W lp ll bl rows -> reachable W (exact_draws rows) interrupts s -> exact_sampler rows s -> iteration W fuel rnd s = Ok s' ->
  c_metric (s_cfg s) = ESS -> h_ess (history_of s') = es ++ [Fin e] -> 100 / 99 < e -> (2 <= kept s')%nat.
Proof. exact (fun EM => enough_survivors W lp ll bl rows EM interrupts fuel rnd s s' es e). Qed.
Print Assumptions C85_survivors.

(** ** C86: an iteration returns, with enough halvings allowed to the search of
    the next inverse temperature, if the fit returns and is proper, the prior
    returns, and the random numbers are in their ranges. *)
Theorem C86_iteration_returns {C P Opt} (W : world X C P Opt) lp ll bl rows interrupts s :
  exact_model W lp ll bl rows -> reachable W (exact_draws rows) interrupts s -> exact_sampler rows s -> iterations (history_of s) <> 0%nat ->
  (s_have_blobs s = true -> blobs_of (s_cfg s) bl <> None) -> returning W lp bl ->
  exists halvings, forall fuel, (halvings <= fuel)%nat -> exists s1, reweight fuel s = Ok s1 /\
    forall rnd s2 normal uniform, train W rnd s1 = Ok s2 -> resampling_numbers rnd (s_t s2) ->
      exact_rand (c_n_active (s_cfg s)) (step_numbers rnd s2) normal uniform -> ready W (length rows) s2 (step_numbers rnd s2) ->
      exists s', iteration W fuel rnd s = Ok s'.
Proof. exact (fun EM => always_returns W lp ll bl rows EM interrupts s). Qed.
Print Assumptions C86_iteration_returns.

(** one parameter between 0 and 1 and a constant likelihood: two prior draws, two
    survivors, a fitted Student-t distribution, and one iteration that returns;
    with or without preconditioning *)
Example C84_case pre : exists s s' fuel V L Vi mu nu,
  exact_model world1 flat1 like1 None rows1 /\ reachable world1 (exact_draws rows1) false s /\ exact_sampler rows1 s /\ iteration world1 fuel rand1 s = Ok s' /\
  exact_rand (c_n_active (s_cfg s)) (step_numbers rand1 s') (fun _ _ => [1]) (fun _ _ => 1/2) /\
  c_preconditioned (s_cfg s) = pre /\ c_sample (s_cfg s) = TPCN /\ student_fit (kernel_env_of world1 s') (length rows1) (geometry_in_use s') V L Vi mu nu /\
  exact_gamma (step_numbers rand1 s') (fun _ _ _ _ => 1) /\ flow_bijection (kernel_env_of world1 s') (length rows1).
Proof.
  destruct (case1_iteration pre) as (s & s' & fuel & HW & HI & K). destruct oracles1_good as (A & B & _).
  pose proof (C85_fitted_geometry world1 flat1 like1 None rows1 false fuel rand1 s s' world1_exact (w1_reach _ s HW) (w1_sampler _ s HW) HI A B linalg1_good (eq_ind_r (fun n => 2 <= n)%nat (le_n 2) K)) as F.
  destruct (w1_config _ s HW) as (C1 & C2 & C3 & C4 & C5 & C6). rewrite C2, C5 in F. destruct F as (V & L & Vi & mu & nu & F); [intros _; split; [left; apply (w1_training _ s HW)|exact (identity1 s')]|].
  exists s, s', fuel, V, L, Vi, mu, nu. split; [exact world1_exact|]. split; [exact (w1_reach _ s HW)|]. split; [exact (w1_sampler _ s HW)|]. split; [exact HI|].
  split; [exact (steps1 _ s')|]. split; [exact C2|]. split; [exact C5|]. split; [exact F|]. split; [|exact (identity1 s')]. intros i k a b _ _. split; [reflexivity|lra].
Qed.
Example C86_case pre : exists s s1 s2 fuel, c_preconditioned (s_cfg s) = pre /\ exact_model world1 flat1 like1 None rows1 /\ reachable world1 (exact_draws rows1) false s /\ exact_sampler rows1 s /\
  iterations (history_of s) <> 0%nat /\ (s_have_blobs s = true -> blobs_of (s_cfg s) (@None (vec X -> list unit)) <> None) /\ returning world1 flat1 None /\
  reweight fuel s = Ok s1 /\ train world1 rand1 s1 = Ok s2 /\ resampling_numbers rand1 (s_t s2) /\
  exact_rand (c_n_active (s_cfg s)) (step_numbers rand1 s2) (fun _ _ => [1]) (fun _ _ => 1/2) /\ ready world1 (length rows1) s2 (step_numbers rand1 s2).
Proof.
  destruct (case1 pre) as (s & s1 & s2 & HW & fuel & H1 & H2 & _ & RD). exists s, s1, s2, fuel. split; [apply (w1_config _ s HW)|]. destruct HW as [W1 W2 _ _ W4 _ [W5 _]].
  split; [exact world1_exact|]. split; [exact W1|]. split; [exact W2|]. split; [rewrite W5; discriminate|]. split; [rewrite W4; discriminate|]. split; [exact returning1|].
  split; [exact H1|]. split; [exact H2|]. split; [exact (numbers1 _)|]. split; [exact (steps1 _ s2)|exact RD].
Qed.
Example C85_case pre : exists s s' fuel es e, exact_model world1 flat1 like1 None rows1 /\ reachable world1 (exact_draws rows1) false s /\ exact_sampler rows1 s /\
  iteration world1 fuel rand1 s = Ok s' /\ c_metric (s_cfg s) = ESS /\ h_ess (history_of s') = es ++ [Fin e] /\ 100 / 99 < e /\
  good_solve (length rows1) (wd_fit world1) /\ good_bisect (wd_fit world1) /\ good_linalg (length rows1) (wd_linalg world1) /\ c_preconditioned (s_cfg s) = pre /\ trained_in s s' /\ flow_bijection (kernel_env_of world1 s') (length rows1).
Proof.
  destruct (case1_ess pre) as (s & s' & fuel & HW & HI & HE). destruct oracles1_good as (A & B & _). destruct (w1_config _ s HW) as (_ & C2 & _ & C4 & _).
  exists s, s', fuel, (h_ess (history_of s)), 2. split; [exact world1_exact|]. split; [exact (w1_reach _ s HW)|]. split; [exact (w1_sampler _ s HW)|].
  split; [exact HI|]. split; [exact C4|]. split; [exact HE|]. split; [lra|]. split; [exact A|]. split; [exact B|]. split; [exact linalg1_good|]. split; [exact C2|]. split; [left; apply (w1_training _ s HW)|exact (identity1 s')].
Qed.

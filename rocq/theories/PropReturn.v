(** * Without the flow, an iteration returns (C86) *)
From Coq Require Import Reals ZArith List Lra Lia.
From Coq Require Import List.
From Verif Require Import Num PyBase XReal Scaler SpecScaler Particles LogLike Geometry SpecGeometry GeometryFacts Mcmc SpecMcmc SpecBalance SpecChain Flow Sampler
  SpecReach SpecRun SpecExact SpecIterate SpecPosterior IterateFit IterateCase SpecReturn ReturnFacts ReturnCase.
Import ListNotations.
Local Open Scope R_scope.

(** ** C86: without the flow, nothing is assumed of the fit itself: it is enough
    that np.linalg and scipy answer on symmetric positive definite matrices and
    that the sampled survivors are not all in one hyperplane.  The random-walk
    kernel needs at least two parameters (C69). *)
Theorem C86_plain_iteration_returns {C P Opt} (W : world X C P Opt) lp ll bl rows interrupts s :
  exact_model W lp ll bl rows -> reachable W (exact_draws rows) interrupts s -> exact_sampler rows s -> iterations (history_of s) <> 0%nat ->
  (s_have_blobs s = true -> blobs_of (s_cfg s) bl <> None) -> returning W lp bl ->
  c_preconditioned (s_cfg s) = false -> (c_sample (s_cfg s) = RWMH -> (2 <= length rows)%nat) ->
  good_solve (length rows) (wd_fit W) -> good_bisect (wd_fit W) -> total_fit (length rows) (wd_fit W) ->
  good_linalg (length rows) (wd_linalg W) -> total_linalg (length rows) (wd_linalg W) ->
  exists halvings, forall fuel, (halvings <= fuel)%nat -> exists s1, reweight fuel s = Ok s1 /\
    forall rnd normal uniform gamma, well_spread (length rows) rnd s1 -> fit_number rnd (s_t s1) -> resampling_numbers rnd (s_t s1) ->
      exact_rand (c_n_active (s_cfg s)) (step_numbers rnd s1) normal uniform -> exact_gamma (step_numbers rnd s1) gamma ->
      exists s', iteration W fuel rnd s = Ok s'.
Proof. exact (fun EM => plain_returns W lp ll bl rows EM interrupts s). Qed.
Print Assumptions C86_plain_iteration_returns.

(** the example of C86 without preconditioning: the two survivors are drawn once each *)
Example C86_plain_case : exists s s1 fuel, exact_model world1 flat1 like1 None rows1 /\ reachable world1 (exact_draws rows1) false s /\ exact_sampler rows1 s /\
  iterations (history_of s) <> 0%nat /\ (s_have_blobs s = true -> blobs_of (s_cfg s) (@None (vec X -> list unit)) <> None) /\ returning world1 flat1 None /\
  c_preconditioned (s_cfg s) = false /\ c_sample (s_cfg s) = TPCN /\
  good_solve 1 (wd_fit world1) /\ good_bisect (wd_fit world1) /\ total_fit 1 (wd_fit world1) /\ good_linalg 1 (wd_linalg world1) /\ total_linalg 1 (wd_linalg world1) /\
  reweight fuel s = Ok s1 /\ well_spread 1 rand1 s1 /\ fit_number rand1 (s_t s1) /\ resampling_numbers rand1 (s_t s1) /\
  exact_rand (c_n_active (s_cfg s)) (step_numbers rand1 s1) (fun _ _ => [1]) (fun _ _ => 1/2) /\ exact_gamma (step_numbers rand1 s1) (fun _ _ _ _ => 1).
Proof.
  destruct (case1 false) as (s & s1 & s2 & HW & fuel & H1 & _). exists s, s1, fuel. destruct (case1_survivors false s fuel s1 HW H1) as (c1 & a & b & Hc & Eu & AB & Ew & _).
  destruct oracles1_good as (A & B & C & D). destruct HW as [W1 W2 [W3 [W3' [_ [_ [W6 _]]]]] _ W4 _ [W5 _]].
  split; [exact world1_exact|]. split; [exact W1|]. split; [exact W2|]. split; [rewrite W5; discriminate|]. split; [rewrite W4; discriminate|]. split; [exact returning1|].
  split; [exact W3'|]. split; [exact W6|]. split; [exact A|]. split; [exact B|]. split; [split; [exact C|exact D]|]. split; [exact linalg1_good|]. split; [exact linalg1_total|].
  split; [exact H1|]. split; [|split; [exists (1/2); split; [reflexivity|lra]|split; [exact (numbers1 _)|split; [exact (steps1 _ s1)|]]]].
  - exact (spread1 s1 c1 a b Hc Eu AB Ew).
  - intros i k x y _ _. split; [reflexivity|lra].
Qed.

(** * Property of runs: the step size goes on from one iteration to the next (C94) *)
From Coq Require Import Reals ZArith List Bool PeanoNat.
From Verif Require Import Num XReal PyBase Particles Sampler SpecReach SpecExact SpecChain SpecIterate StepSize IterateCase FloatNum McmcNum RunCase RunCaseFacts PropIterate.
Import ListNotations.
Local Open Scope R_scope.

(** ** C94 *)
(** In every reachable state, whatever the number type: until the first
    iteration the step size is 2.38 / sqrt n_dim and the recorded efficiencies
    are 1; afterwards the last recorded efficiency is the ratio of the step size
    to 2.38 / sqrt n_dim.  So also after saving, loading and exceptions. *)
Theorem C94_step_size_recorded {T C P Opt} {NT : NumT T} (W : world T C P Opt) (fair : rand T C P -> Prop) interrupts (s : sampler T C P) :
  reachable W fair interrupts s ->
  let best := ndiv (nfrac 238 100) (npow (nofZ (Z.of_nat (c_n_dim (s_cfg s)))) (nfrac 1 2)) in
  (exists k, h_efficiency (history_of s) = repeat (nofZ 1) k /\ s_scale s = best) \/
  (s_warmup s = false /\ exists es, h_efficiency (history_of s) = es ++ [ndiv (s_scale s) best]).
Proof. exact (step_size_recorded W fair interrupts s). Qed.
Print Assumptions C94_step_size_recorded.
(** In real numbers: the step size is the last recorded efficiency times
    2.38 / sqrt n_dim, ... *)
Theorem C94_step_size {C P Opt} (W : world X C P Opt) lp ll bl rows interrupts (s : sampler X C P) :
  exact_model W lp ll bl rows -> reachable W (exact_draws rows) interrupts s -> exact_sampler rows s ->
  exists p, s_scale s = Fin p /\ let best := optimal_scale (length rows) in
    (h_efficiency (history_of s) = [] /\ p = best \/ exists es, h_efficiency (history_of s) = es ++ [Fin (p / best)]).
Proof. exact (exact_step_size W lp ll bl rows interrupts s). Qed.
Print Assumptions C94_step_size.
(** ... and [p], from which the first step size of the next iteration is derived
    (C84: [p] itself, or at most 0.99 for tpcn), is that one. *)
Theorem C94_next_iteration {C P Opt} (W : world X C P Opt) lp ll bl rows interrupts rnd (s s' : sampler X C P) beta p us c final :
  exact_model W lp ll bl rows -> reachable W (exact_draws rows) interrupts s -> exact_sampler rows s -> moved rnd s s' beta p us c final ->
  let best := optimal_scale (length rows) in
  h_efficiency (history_of s) = [] /\ p = best \/ exists es, h_efficiency (history_of s) = es ++ [Fin (p / best)].
Proof. exact (next_step_size W lp ll bl rows interrupts rnd s s' beta p us c final). Qed.
Print Assumptions C94_next_iteration.
(** a completed run in binary64: two entries of the warm-up, two iterations with a smaller step size *)
Example C94_case : reachable world64 (good_draws b64_random drawn64) true final64 /\ s_warmup final64 = false /\
  map (fun a => (nltb a (nofZ 1), nltb (nofZ 0) a)) (h_efficiency (history_of final64)) = [(false, true); (false, true); (true, true); (true, true)].
Proof. split; [exact final64_reachable|]. split; [vm_compute; reflexivity|]. vm_compute. reflexivity. Qed.
(** one iteration in real numbers *)
Example C94_case_exact : exists s s' beta p us c final,
  exact_model world1 flat1 like1 None rows1 /\ reachable world1 (exact_draws rows1) false s /\ exact_sampler rows1 s /\ moved rand1 s s' beta p us c final.
Proof.
  destruct (C84_case false) as (s & s' & fuel & V & L & Vi & mu & nu & H1 & H2 & H3 & H4 & H5 & H6 & H7 & H8 & H9 & _).
  destruct (C84_crank_nicolson world1 flat1 like1 None rows1 false fuel rand1 s s' _ _ V L Vi mu nu _ H1 H2 H3 H4 H5 H6 H7 H8 H9) as (beta & p & us & c & final & M & _).
  exists s, s', beta, p, us, c, final. auto.
Qed.

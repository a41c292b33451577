(** * C90: an unnormalised prior

    [rescale_world c W] is the problem W with c added to the log-prior density,
    the prior samples being the same; [differ_in_prior c flow s s'] says what
    then differs (SpecRescale.v).  The arithmetic is exact; likelihood and prior
    density may be anything, also infinite or NaN. *)
From Coquelicot Require Import Coquelicot.
From Coq Require Import ZArith Reals Lra.
From Coq Require Import String List Bool.
From Verif Require Import Num PyBase XReal Tools Scaler Particles LogLike Geometry Mcmc Flow Sampler SpecReach SpecMcmc SpecRescale SpecIterate SpecExact RescaleRun IterateCase ExactRun.
Import ListNotations.
Local Open Scope R_scope.

(** ** C90 *)
(** Two samplers are built with the same options and run with the same
    arguments and random numbers, the second with c added to the log-prior.
    Both raise the same exception, or both return; they have then written the
    same files and have the same particles, weights, inverse temperatures,
    counters and log-likelihoods.  The log-evidence is larger by c if it was
    estimated with the flow (n_evidence > 0 and preconditioning), and the same
    otherwise. *)
Theorem C90_run {C P Opt} (c : R) (W : world X C P Opt) o a R0 s : new_sampler W o = Ok s ->
  new_sampler (rescale_world c W) o = Ok s /\
  match run W a R0 s, run (rescale_world c W) a R0 s with
  | (evs, Ok s1), (evs', Ok s2) => map ev_file evs' = map ev_file evs /\ differ_in_prior c ((0 <? ra_n_evidence a)%Z && a_precondition o) s1 s2
  | (evs, Err e), (evs', Err e') => map ev_file evs' = map ev_file evs /\ e' = e
  | _, _ => False
  end.
Proof. exact (run_rescale c W o a R0 s). Qed.
Print Assumptions C90_run.

(** The same from any state, with any number of runs, saved and loaded states
    and exceptions before *)
Theorem C90_state {C P Opt} (c : R) (W : world X C P Opt) a R0 s :
  run (rescale_world c W) a R0 (rescale_sampler c s) = rescale_traced c (run W a R0 s).
Proof. exact (run_from_rescale c W a R0 s). Qed.
Print Assumptions C90_state.

(** The run of C88_case has log-evidence 3, and also with a log-prior larger by 2 *)
Example C90_case : exists s0 bfuel s1 s2, new_sampler world1 (options1 false) = Ok s0 /\
  run world1 (args1 false bfuel) rand1 s0 = ([], Ok s1) /\ evidence s1 = (Some (Fin 3), None) /\
  run (rescale_world 2 world1) (args1 false bfuel) rand1 s0 = ([], Ok s2) /\ evidence s2 = (Some (Fin 3), None) /\
  h_logp (history_of s2) = map (map (fun l => xadd l (Fin 2))) (h_logp (history_of s1)).
Proof.
  destruct case1_run as (s0 & bfuel & s1 & A & _ & D & E & F). exists s0, bfuel, s1.
  destruct (C90_run 2 world1 (options1 false) (args1 false bfuel) rand1 s0 A) as [_ H]. rewrite D in H. destruct (run (rescale_world 2 world1) (args1 false bfuel) rand1 s0) as [evs' [s2|]]; [|contradiction].
  destruct H as [Hf H]. exists s2. split; [exact A|]. split; [exact D|]. split; [exact E|]. destruct evs'; [|discriminate]. split; [reflexivity|].
  split.
  - rewrite (dp_evidence _ _ _ _ H), E. reflexivity.
  - exact (dp_logp _ _ _ _ H).
Qed.

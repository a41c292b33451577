(** * C89: a constant added to the log-likelihood

    [shift_world c W] is the problem W with c added to the log-likelihood;
    [differ_by c s s'] says what then differs (SpecShift.v).  The arithmetic is
    exact; the likelihood may be anything, also infinite or NaN. *)
From Coquelicot Require Import Coquelicot.
From Coq Require Import ZArith Reals Lra.
From Coq Require Import String List Bool.
From Verif Require Import Num PyBase XReal Tools Scaler Particles LogLike Geometry Mcmc Flow Sampler SpecReach SpecMcmc SpecShift SpecIterate SpecExact ShiftLoop IterateCase ExactRun.
Import ListNotations.
Local Open Scope R_scope.

(** ** C89 *)
(** Two samplers are built with the same options and run with the same
    arguments and random numbers, the second with c added to the log-likelihood.
    Both raise the same exception, or both return; they have then written the
    same files and have the same particles, weights, inverse temperatures and
    counters, and the second log-evidence is larger by c. *)
Theorem C89_run {C P Opt} (c : R) (W : world X C P Opt) o a R0 s : new_sampler W o = Ok s -> maps (s_pool s) ->
  new_sampler (shift_world c W) o = Ok s /\
  match run W a R0 s, run (shift_world c W) a R0 s with
  | (evs, Ok s1), (evs', Ok s2) => map ev_file evs' = map ev_file evs /\ differ_by c s1 s2
  | (evs, Err e), (evs', Err e') => map ev_file evs' = map ev_file evs /\ e' = e
  | _, _ => False
  end.
Proof. exact (run_shift c W o a R0 s). Qed.
Print Assumptions C89_run.

(** The same from any state that the sampler can reach, with any number of runs,
    saved and loaded states and exceptions before *)
Theorem C89_state {C P Opt} (c : R) (W : world X C P Opt) fair interrupts a R0 s : reachable W fair interrupts s ->
  run (shift_world c W) a R0 (shift_sampler c s) = shift_traced c (run W a R0 s).
Proof. exact (state_shift c W fair interrupts a R0 s). Qed.
Print Assumptions C89_state.

(** The run of C88_case has log-evidence 3; with 2 added to the log-likelihood, 5 *)
Example C89_case : exists s0 bfuel s1 s2, new_sampler world1 (options1 false) = Ok s0 /\ maps (s_pool s0) /\
  run world1 (args1 false bfuel) rand1 s0 = ([], Ok s1) /\ evidence s1 = (Some (Fin 3), None) /\
  run (shift_world 2 world1) (args1 false bfuel) rand1 s0 = ([], Ok s2) /\ evidence s2 = (Some (Fin 5), None) /\ h_beta (history_of s2) = [Fin 0; Fin 1].
Proof.
  destruct case1_run as (s0 & bfuel & s1 & A & B & D & E & F). exists s0, bfuel, s1.
  assert (HM : maps (s_pool s0)) by exact (proj2 (reachable_good 2%R world1 _ _ s0 B)).
  destruct (C89_run 2 world1 (options1 false) (args1 false bfuel) rand1 s0 A HM) as [_ H]. rewrite D in H. destruct (run (shift_world 2 world1) (args1 false bfuel) rand1 s0) as [evs' [s2|]]; [|contradiction].
  destruct H as [Hf H]. exists s2. split; [exact A|]. split; [exact HM|]. split; [exact D|]. split; [exact E|]. destruct evs'; [|discriminate]. split; [reflexivity|].
  split.
  - rewrite (df_evidence _ _ _ H), E. cbn. do 3 f_equal. lra.
  - unfold history_of in *. rewrite (df_beta _ _ _ H). exact F.
Qed.

(** * Properties of runs: temperatures (C31) *)
From Coq Require Import ZArith Reals String List Bool Floats.SpecFloat.
From Verif Require Import Num XReal FloatNum PyBase Tools Scaler Particles LogLike Geometry Mcmc SpecMcmc Flow Sampler
  SpecReach SamplerFacts Reach SpecRun BetaFacts B64Facts XUnit RunCase RunCaseFacts.
Import ListNotations.

(** ** C31 *)
(** In binary64, for every libm, user functions, random numbers and API history. *)
Theorem C31_temperatures_binary64 {C P Opt} exp log pow erf erfinv pi :
  let _ := B64NumT exp log pow erf erfinv pi in
  forall (W : world B64 C P Opt) (fair : rand B64 C P -> Prop) (interrupts : bool) (s : sampler B64 C P),
  reachable W fair interrupts s ->
  temperatures (h_beta (history_of s)) /\ (s_warmup s = true -> Forall (eq (b64_ofZ 0)) (h_beta (history_of s))).
Proof. exact (binary64_ladder exp log pow erf erfinv pi). Qed.
Print Assumptions C31_temperatures_binary64.

(** In exact arithmetic. *)
Theorem C31_temperatures_exact {C P Opt} (W : world X C P Opt) (fair : rand X C P -> Prop) (interrupts : bool) (s : sampler X C P) :
  reachable W fair interrupts s ->
  temperatures (h_beta (history_of s)) /\ (s_warmup s = true -> Forall (eq (Fin 0%R)) (h_beta (history_of s))).
Proof. exact (exact_ladder W fair interrupts s). Qed.
Print Assumptions C31_temperatures_exact.

(** Whatever run returns or writes is such a state. *)
Theorem C31_run {T C P Opt} {NT : NumT T} (W : world T C P Opt) fair interrupts a R s evs r :
  reachable W fair interrupts s -> fair R -> run W a R s = (evs, r) ->
  (forall e, In e evs -> reachable W fair interrupts (ev_state e)) /\ (forall s', r = Ok s' -> reachable W fair interrupts s').
Proof. exact (run_reachable W fair interrupts a R s evs r). Qed.
Print Assumptions C31_run.
Theorem C31_resumed_run {T C P Opt} {NT : NumT T} (W : world T C P Opt) fair interrupts a R saved self evs r :
  reachable W fair interrupts saved -> reachable W fair interrupts self -> fair R -> run_resumed W a R saved self = (evs, r) ->
  (forall e, In e evs -> reachable W fair interrupts (ev_state e)) /\ (forall s', r = Ok s' -> reachable W fair interrupts s').
Proof. exact (resumed_reachable W fair interrupts a R saved self evs r). Qed.
Print Assumptions C31_resumed_run.

Example C31_case : reachable world64 (fun _ => True) true final64 /\
  h_beta (history_of final64) = [b64_ofZ 0; b64_ofZ 0; nfrac 1 2; b64_ofZ 1].
Proof. exact (conj (proj2 (trace64_reachable _ _ I)) final64_betas). Qed.

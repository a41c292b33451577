(** * Properties of NaN log-likelihoods (C49) *)
From Coq Require Import ZArith Reals Floats.SpecFloat.
From Coq Require Import String List Bool.
From Verif Require Import Num PyBase XReal FloatNum Tools Scaler Particles LogLike Geometry Mcmc SpecMcmc McmcNum Flow Sampler
  SpecReach SpecRun RunCase RunCaseFacts RunSteps SpecNan NanFacts NanCase.
Import ListNotations.

(** ** C49 *)
(** Both arithmetics have the NaN of IEEE-754. *)
Theorem C49_exact_nan : @nan_like X XNumT.
Proof. exact X_nan. Qed.
Print Assumptions C49_exact_nan.
Theorem C49_binary64_nan exp log pow erf erfinv pi : exp S754_nan = S754_nan -> @nan_like B64 (B64NumT exp log pow erf erfinv pi).
Proof. exact (B64_nan exp log pow erf erfinv pi). Qed.
Print Assumptions C49_binary64_nan.

(** One NaN among the stored log-likelihoods makes every importance weight and
    the evidence NaN, at every inverse temperature. *)
Theorem C49_weights {T C} {NT : NumT T} (p : past T (list C)) b logw logz : nan_like T ->
  (exists l, In l (concat (h_logl p)) /\ nisnan l = true) -> compute_logw_and_logz p b true = Ok (logw, logz) ->
  Forall (fun v => nisnan v = true) logw /\ nisnan logz = true.
Proof. exact (fun N => main_history N p b logw logz). Qed.
Print Assumptions C49_weights.
(** No iteration returns, whatever the draws, however long the search. *)
Theorem C49_iteration_fails {T C P Opt} {NT : NumT T} (W : world T C P Opt) fuel R (s : sampler T C P) :
  nan_like T -> stores_nan s -> exists e, iteration W fuel R s = Err e.
Proof. exact (fun N => iteration_nan W N fuel R s). Qed.
Print Assumptions C49_iteration_fails.
(** posterior() does not return if it has to trim; otherwise all its weights are NaN. *)
Theorem C49_posterior {T C P} {NT : NumT T} a us offset (s : sampler T C P) o :
  nan_like T -> stores_nan s -> posterior a us offset s = Ok o ->
  pa_trim a = false /\ forall w, po_w o = Some w -> Forall (fun v => nisnan v = true) w.
Proof. exact (fun N => posterior_nan N a us offset s o). Qed.
Print Assumptions C49_posterior.
(** A sampler whose run() has returned holds no NaN log-likelihood. *)
Theorem C49_returned {T C P Opt} {NT : NumT T} (undefined random : T -> Prop) (W : world T C P Opt) lp ll bl drawn interrupts a R (s s' : sampler T C P) evs :
  float_like undefined random -> nan_like T -> (forall v : T, nisnan v = true -> undefined v) -> regular W lp ll bl ->
  reachable W (good_draws random drawn) interrupts s -> good_draws random drawn R -> run W a R s = (evs, Ok s') ->
  Forall (Forall (fun l => nisnan l = false)) (h_logl (history_of s')).
Proof. exact (fun FL N UN => main_returned undefined random FL N UN W lp ll bl drawn interrupts a R s s' evs). Qed.
Print Assumptions C49_returned.

(** Binary64: the temperature search halves its way from 0 to 1.0 in 54 steps
    and the iteration raises ValueError (int(nan), sampler.py:772). *)
Theorem C49_iteration_raises {C P Opt} exp log pow erf erfinv pi :
  let _ := B64NumT exp log pow erf erfinv pi in
  exp (S754_infinity true) = S754_zero false -> exp S754_nan = S754_nan ->
  forall (W : world B64 C P Opt) lp ll bl drawn interrupts fuel R (s : sampler B64 C P), regular W lp ll bl ->
  reachable W (good_draws b64_random drawn) interrupts s -> stores_nan s -> (54 <= fuel)%nat -> iteration W fuel R s = Err ValueError.
Proof. exact (fun E1 E2 W => main_iteration64 exp log pow erf erfinv pi E1 E2 W). Qed.
Print Assumptions C49_iteration_raises.
(** So does run(), if the warm-up [s1 -> s2] has stored a NaN. *)
Theorem C49_run_raises {C P Opt} exp log pow erf erfinv pi :
  let _ := B64NumT exp log pow erf erfinv pi in
  exp (S754_infinity true) = S754_zero false -> exp S754_nan = S754_nan ->
  forall (W : world B64 C P Opt) lp ll bl drawn interrupts a R (s s1 s2 : sampler B64 C P), regular W lp ll bl ->
  reachable W (good_draws b64_random drawn) interrupts s -> good_draws b64_random drawn R ->
  (54 <= ra_bfuel a)%nat -> (1 <= ra_fuel a)%nat -> ra_save_every a <> Some 0%Z ->
  draw_prior W R (set_targets (ra_n_total a) (ra_n_evidence a) s) = Ok s1 -> snd (warmup W (ra_save_every a) (s_t s) R s1) = Ok s2 -> stores_nan s2 ->
  snd (run W a R s) = Err ValueError.
Proof. exact (fun E1 E2 W => main_run64 exp log pow erf erfinv pi E1 E2 W). Qed.
Print Assumptions C49_run_raises.

Example C49_case : regular nan_world prior64 nan_like64 (Some blob64) /\ reachable nan_world (good_draws b64_random drawn64) true nan_warm64 /\ stores_nan nan_warm64 /\
  draw_prior nan_world rand64 (set_targets 8 0 start64) = Ok drawn_state64 /\ snd (warmup nan_world (Some 1%Z) (s_t start64) rand64 drawn_state64) = Ok nan_warm64.
Proof. exact (conj nan_regular (conj (proj1 (nan_warm64_reachable true)) (conj nan_warm64_nan nan_case_run))). Qed.
Example C49_posterior_case : exists o w, posterior plain64 (fun _ => nofZ 0) (nofZ 0) nan_warm64 = Ok o /\ po_w o = Some w /\ length w = 8%nat.
Proof. exact nan_posterior64. Qed.
Example C49_returned_case : reachable world64 (good_draws b64_random drawn64) true start64 /\ good_draws b64_random drawn64 rand64 /\ run world64 args64 rand64 start64 = (fst trace64, Ok final64).
Proof. exact nan_returned. Qed.

(** * Properties of runs: the iterations and the evidence (C32-C34, C38, C39, C45, C46, C52, C53, C66, C67) *)
From Coq Require Import ZArith Reals Sorted Floats.SpecFloat.
From Coq Require Import String List Bool.
From Verif Require Import Num PyBase XReal FloatNum Tools SpecTools Scaler Particles SpecParticles LogLike Geometry Mcmc SpecMcmc McmcNum Flow Sampler
  SpecReach SpecRun SpecExact SpecEss SpecLoop SpecEvidence SpecSupport LoopFacts LoopExact CounterFacts SupportFacts EvidenceFacts LoopMain
  ExactCase RunCase RunCaseFacts RunSteps StuckCase HaltCase LoopCase.
Import ListNotations.
Local Open Scope R_scope.

(** ** C32 *)
(** Exact arithmetic.  [ls], [bs], [zs]: the stored log-likelihoods, inverse
    temperatures and log-evidences; [size b]: the ESS (or USS) at [b].  HN: the
    log-likelihood is a number at prior draws.  HI: it is nowhere +infinity. *)
Theorem C32_temperature_step {C P Opt} (W : world X C P Opt) lp ll bl (drawn : vec X -> Prop) interrupts fuel R (s s' : sampler X C P) :
  regular W lp ll bl -> (forall x, drawn x -> ll x <> NaN) -> (forall x, ll x <> PInf) ->
  reachable W (good_draws x_random drawn) interrupts s -> iteration W fuel R s = Ok s' ->
  exists ls bs zs rest previous beta,
    history (history_of s) ls bs zs /\ bs = rest ++ [previous] /\ previous <= beta <= 1 /\
    h_beta (history_of s') = map Fin (bs ++ [beta]) /\
    let size b := sample_size (c_metric (s_cfg s)) (weights_at ls bs zs b) in
    h_ess (history_of s') = h_ess (history_of s) ++ [Fin (size beta)] /\
    let n := IZR (s_n_effective s) in
    ((size previous <= n /\ beta = previous) \/ (n < size previous /\ n <= size 1 /\ beta = 1) \/
     (n < size previous /\ size 1 < n /\ beta < 1 /\ Rabs (size beta - n) < 1 / 100 * n)).
Proof. exact (fun RG HN HI => exact_step W lp ll bl RG drawn HN HI interrupts fuel R s s'). Qed.
Print Assumptions C32_temperature_step.
(** Any arithmetic, any likelihood: the same three cases for the computed sample
    sizes, except that the search also ends at 1. *)
Theorem C32_any_arithmetic {T C P Opt} {NT : NumT T} (W : world T C P Opt) fuel R (s s' : sampler T C P) :
  iteration W fuel R s = Ok s' ->
  let m := c_metric (s_cfg s) in let p := history_of s in let n := @nofZ T _ (s_n_effective s) in
  exists rest previous beta e0 e1 ess,
    h_beta p = rest ++ [previous] /\ h_beta (history_of s') = h_beta p ++ [beta] /\ h_ess (history_of s') = h_ess p ++ [ess] /\
    ess_at m p previous = Ok e0 /\ ess_at m p (nofZ 1) = Ok e1 /\ ess_at m p beta = Ok ess /\
    ((nleb e0 n = true /\ beta = previous) \/ (nleb e0 n = false /\ nleb n e1 = true /\ beta = nofZ 1) \/
     (nleb e0 n = false /\ nleb n e1 = false /\
      (nltb (nabs (nsub ess n)) (nmul (nfrac 1 100) n) = true \/ neqb beta (nofZ 1) = true))).
Proof. exact (step_cases W fuel R s s'). Qed.
Print Assumptions C32_any_arithmetic.
Example C32_case_exact : exists s, reachable worldX (good_draws x_random (strictly_inside rowsX)) true s /\ iterations (history_of s) <> 0%nat /\
  regular worldX (fun _ => Fin 0) likeX None /\ (forall x, likeX x <> NaN) /\ (forall x, likeX x <> PInf) /\
  exists fuel s1, reweight fuel s = Ok s1.
Proof. exact exact_case. Qed.
Example C32_case : reachable world64 (good_draws b64_random drawn64) true warm64 /\ iteration world64 60 rand64 warm64 = Ok iterated64.
Proof. exact (conj (warm64_reachable true) iterated64_ok). Qed.

(** ** C33 *)
(** Exact arithmetic: the search ends after a number of halvings that depends on
    the history only. *)
Theorem C33_search_terminates {C P Opt} (W : world X C P Opt) lp ll bl (drawn : vec X -> Prop) interrupts (s : sampler X C P) :
  regular W lp ll bl -> (forall x, drawn x -> ll x <> NaN) -> (forall x, ll x <> PInf) ->
  reachable W (good_draws x_random drawn) interrupts s -> iterations (history_of s) <> 0%nat ->
  exists halvings, forall fuel, (halvings <= fuel)%nat ->
    exists r, next_beta fuel (c_metric (s_cfg s)) (history_of s) (nofZ (s_n_effective s)) = Ok r.
Proof. exact (fun RG HN HI => exact_search W lp ll bl RG drawn HN HI interrupts s). Qed.
Print Assumptions C33_search_terminates.
Example C33_case : exists s, reachable worldX (good_draws x_random (strictly_inside rowsX)) true s /\ iterations (history_of s) <> 0%nat /\
  regular worldX (fun _ => Fin 0) likeX None /\ (forall x, likeX x <> NaN) /\ (forall x, likeX x <> PInf) /\
  exists fuel s1, reweight fuel s = Ok s1.
Proof. exact exact_case. Qed.
(** In binary64 it need not end: a sampler state reached by two warm-up batches
    and an iteration, finite log-likelihoods, on which it never does. *)
Theorem C33_binary64_refuted : exists (W : world B64 B64 nat unit) (s : sampler B64 B64 nat),
  reachable W (good_draws b64_random drawn64) false s /\ iterations (history_of s) = 3%nat /\
  forallb (forallb nisfinite) (h_logl (history_of s)) = true /\
  forall fuel, reweight fuel s = Err Diverge.
Proof. exact stuck_case. Qed.
Print Assumptions C33_binary64_refuted.

(** ** C34 *)
(** When run returns, in any arithmetic. *)
Theorem C34_converged_any_arithmetic {T C P Opt} {NT : NumT T} (W : world T C P Opt) a R (s : sampler T C P) evs s' :
  run W a R s = (evs, Ok s') -> converged s' (ra_n_total a).
Proof. exact (run_converged W a R s evs s'). Qed.
Print Assumptions C34_converged_any_arithmetic.
(** In exact arithmetic. *)
Theorem C34_converged {C P Opt} (W : world X C P Opt) lp ll bl (drawn : vec X -> Prop) interrupts a R (s : sampler X C P) evs s' :
  regular W lp ll bl -> (forall x, drawn x -> ll x <> NaN) -> (forall x, ll x <> PInf) ->
  reachable W (good_draws x_random drawn) interrupts s -> good_draws x_random drawn R -> run W a R s = (evs, Ok s') ->
  exists ls bs zs c b, history (history_of s') ls bs zs /\ s_current s' = Some c /\ cu_beta c = Fin b /\ b <= 1 /\ 1 - b < 1 / 10000 /\
    IZR (ra_n_total a) <= sample_size (c_metric (s_cfg s')) (weights_at ls bs zs 1).
Proof. exact (run_converged_exact W lp ll bl drawn interrupts a R s evs s'). Qed.
Print Assumptions C34_converged.
(** A second run with the same target (any arithmetic), or a smaller one (exact
    arithmetic), stores nothing. *)
Theorem C34_second_run {T C P Opt} {NT : NumT T} (W : world T C P Opt) a a' R R' (s : sampler T C P) evs s' evs' s'' :
  run W a R s = (evs, Ok s') -> ra_n_total a' = ra_n_total a -> run W a' R' s' = (evs', Ok s'') ->
  history_of s'' = history_of s' /\ s_t s'' = s_t s' /\ s_current s'' = s_current s' /\ s_evals s'' = s_evals s' /\ (forall e, In e evs' -> ev_file e = Final).
Proof. exact (run_twice W a a' R R' s evs s' evs' s''). Qed.
Print Assumptions C34_second_run.
Theorem C34_second_run_smaller {C P Opt} (W : world X C P Opt) lp ll bl (drawn : vec X -> Prop) interrupts a a' R R' (s : sampler X C P) evs s' evs' s'' :
  regular W lp ll bl -> (forall x, drawn x -> ll x <> NaN) -> (forall x, ll x <> PInf) ->
  reachable W (good_draws x_random drawn) interrupts s -> good_draws x_random drawn R -> run W a R s = (evs, Ok s') ->
  (ra_n_total a' <= ra_n_total a)%Z -> run W a' R' s' = (evs', Ok s'') ->
  history_of s'' = history_of s' /\ s_t s'' = s_t s' /\ s_current s'' = s_current s' /\ s_evals s'' = s_evals s' /\ (forall e, In e evs' -> ev_file e = Final).
Proof. exact (run_twice_exact W lp ll bl drawn interrupts a a' R R' s evs s' evs' s''). Qed.
Print Assumptions C34_second_run_smaller.
Example C34_case : run world64 args64 rand64 start64 = (fst trace64, Ok final64) /\ exists evs s'', run world64 args64 rand64 final64 = (evs, Ok s'').
Proof. exact (conj run64_ok again64_ok). Qed.

(** ** C38 *)
(** (The kernels alone: PropMcmc.v.)  A likelihood that differs from the user's
    outside the support (finite coordinates, finite log-prior) gives the same
    iterations. *)
Theorem C38_likelihood_in_support_iterations {T C P Opt} {NT : NumT T} (W : world T C P Opt) (fair : rand T C P -> Prop) interrupts lp like vlike fuel bfuel save t0 R s :
  (forall xs v, wd_logpdf W xs = Ok v -> v = map lp xs) -> reachable W fair interrupts s ->
  agrees W (supported lp) like vlike ->
  smc_loop (with_likelihood W like vlike) fuel bfuel save t0 R s = smc_loop W fuel bfuel save t0 R s.
Proof.
  exact (fun HP Hr HA => loop_same W lp HP (supported lp) like vlike HA (fun x H => H) fuel bfuel save t0 R s (maps_pool W fair interrupts s Hr)).
Qed.
Print Assumptions C38_likelihood_in_support_iterations.
(** The evidence estimate: a likelihood that differs where the log-prior is not
    finite gives the same estimate.  If the log-prior is finite at finite points
    only, this is the support again. *)
Theorem C38_likelihood_in_support_evidence {T C P Opt} {NT : NumT T} (W : world T C P Opt) (fair : rand T C P -> Prop) interrupts lp like vlike R s :
  (forall xs v, wd_logpdf W xs = Ok v -> v = map lp xs) -> reachable W fair interrupts s ->
  agrees W (possible lp) like vlike \/ ((forall x, nisfinite (lp x) = true -> forallb nisfinite x = true) /\ agrees W (supported lp) like vlike) ->
  final_evidence (with_likelihood W like vlike) R s = final_evidence W R s.
Proof. exact (evidence_support W fair interrupts lp like vlike R s). Qed.
Print Assumptions C38_likelihood_in_support_evidence.
(** A whole run: only prior draws and points of finite log-prior matter. *)
Theorem C38_run {T C P Opt} {NT : NumT T} (W : world T C P Opt) (fair : rand T C P -> Prop) interrupts lp (ok : vec T -> bool) like vlike a R s :
  (forall xs v, wd_logpdf W xs = Ok v -> v = map lp xs) -> reachable W fair interrupts s ->
  agrees W ok like vlike -> (forall x, possible lp x = true -> ok x = true) ->
  (forall n ps, rn_prior R n = Ok ps -> forallb ok ps = true) -> (forall ps, s_prior_samples s = Some ps -> forallb ok ps = true) ->
  run (with_likelihood W like vlike) a R s = run W a R s.
Proof. exact (fun HP Hr HA Hok => run_same W lp HP ok like vlike HA a R s Hok (maps_pool W fair interrupts s Hr)). Qed.
Print Assumptions C38_run.
Example C38_case_run : reachable world64 (good_draws b64_random drawn64) true start64 /\
  (forall xs v, wd_logpdf world64 xs = Ok v -> v = map prior64 xs) /\
  (forall n ps, rn_prior rand64 n = Ok ps -> forallb (possible prior64) ps = true) /\ s_prior_samples start64 = None /\
  agrees world64 (possible prior64) trap64 (map (fun x => if possible prior64 x then like64 x else S754_nan)) /\
  (forall x, nisfinite (prior64 x) = true -> forallb nisfinite x = true) /\
  trap64 [b64_ofZ 0; b64_ofZ 2] = RTuple S754_nan [] /\
  run world64 args64 rand64 start64 = (fst trace64, Ok final64) /\
  reachable world64 (good_draws b64_random drawn64) true (set_targets 8 6 final64) /\
  exists s', final_evidence world64 rand64 (set_targets 8 6 final64) = Ok s' /\ length (s_evidence_evals s') = 6%nat.
Proof. exact support_case. Qed.

(** ** C39 *)
(** [s_evals], [s_evidence_evals]: the points at which the likelihood has been
    evaluated (C40_evaluations_observable for the kernels).  Any arithmetic. *)
Theorem C39_calls_counted {T C P Opt} {NT : NumT T} (W : world T C P Opt) (fair : rand T C P -> Prop) interrupts lp ll bl :
  regular W lp ll bl -> (forall R, fair R -> sized R) -> (forall R, fair R -> flow_sized R) ->
  forall s, reachable W fair interrupts s ->
  s_calls s = (Z.of_nat (length (s_evals s)) + Z.of_nat (length (s_evidence_evals s)))%Z /\
  StronglySorted Z.le (h_calls (history_of s)) /\ Forall (fun k => 0 <= k <= s_calls s)%Z (h_calls (history_of s)).
Proof. exact (calls_exact W fair interrupts lp ll bl). Qed.
Print Assumptions C39_calls_counted.
(** An iteration adds the points it evaluates, records the total of the
    iterations, and forgets those of an earlier evidence estimate. *)
Theorem C39_iteration {T C P Opt} {NT : NumT T} (W : world T C P Opt) (fair : rand T C P -> Prop) interrupts lp ll bl :
  regular W lp ll bl -> (forall R, fair R -> sized R) -> (forall R, fair R -> flow_sized R) ->
  forall fuel R s s', reachable W fair interrupts s -> fair R -> s_warmup s = false -> not_termination s = Ok true -> iteration W fuel R s = Ok s' ->
  exists points, s_evals s' = s_evals s ++ points /\ s_evidence_evals s' = [] /\ s_calls s' = Z.of_nat (length (s_evals s')) /\
    h_calls (history_of s') = h_calls (history_of s) ++ [s_calls s'].
Proof. exact (iteration_calls W fair interrupts lp ll bl). Qed.
Print Assumptions C39_iteration.
Example C39_case : regular world64 prior64 like64 (Some blob64) /\ reachable world64 (fun R => sized R /\ flow_sized R) true warm64 /\ (sized rand64 /\ flow_sized rand64) /\
  s_warmup warm64 = false /\ not_termination warm64 = Ok true /\ iteration world64 60 rand64 warm64 = Ok iterated64 /\
  h_calls (history_of iterated64) = [4; 8; 16]%Z.
Proof. exact calls_case. Qed.

(** ** C45 *)
(** The record of the property results['iter'] in every reachable state: the
    indices of the warm-up batches, then the last of them repeated. *)
Theorem C45_iter_record {T C P Opt} {NT : NumT T} (W : world T C P Opt) (fair : rand T C P -> Prop) interrupts (s : sampler T C P) :
  reachable W fair interrupts s ->
  exists warmup later, h_iter (history_of s) = map Z.of_nat (seq 0 warmup) ++ repeat (Z.of_nat (warmup - 1)) later /\ (s_warmup s = true -> later = 0%nat).
Proof. exact (iter_record W fair interrupts s). Qed.
Print Assumptions C45_iter_record.
Theorem C45_iteration {T C P Opt} {NT : NumT T} (W : world T C P Opt) (fair : rand T C P -> Prop) interrupts fuel R (s s' : sampler T C P) :
  reachable W fair interrupts s -> iteration W fuel R s = Ok s' ->
  exists rest last, h_iter (history_of s) = rest ++ [last] /\ h_iter (history_of s') = h_iter (history_of s) ++ [last].
Proof. exact (iter_iteration W fair interrupts fuel R s s'). Qed.
Print Assumptions C45_iteration.
Example C45_case : reachable world64 (good_draws b64_random drawn64) true final64 /\ h_iter (history_of final64) = [0; 1; 1; 1]%Z.
Proof. exact (conj final64_reachable final64_iter). Qed.

(** ** C46 *)
(** Exact arithmetic; [adjusted] is in SpecEss.v.  The target is the expected
    number of distinct particles for equal weights and the initial n_effective. *)
Theorem C46_dynamic_adjustment {C P Opt} (W : world X C P Opt) lp ll bl (drawn : vec X -> Prop) interrupts fuel R (s s' : sampler X C P) :
  regular W lp ll bl -> (forall x, drawn x -> ll x <> NaN) -> (forall x, ll x <> PInf) ->
  reachable W (good_draws x_random drawn) interrupts s -> iteration W fuel R s = Ok s' ->
  let k := c_n_active (s_cfg s) in
  exists ls bs zs beta, history (history_of s) ls bs zs /\ h_beta (history_of s') = map Fin (bs ++ [beta]) /\
  (c_dynamic (s_cfg s) = false -> s_n_effective s' = s_n_effective s) /\
  (c_dynamic (s_cfg s) = true -> exists o s0, new_sampler W o = Ok s0 /\ s_cfg s = s_cfg s0 /\
     let target := expected_distinct k (repeat 1 (Z.to_nat (s_n_effective s0))) in
     adjusted k target (expected_distinct k (weights_at ls bs zs beta)) (s_n_effective s) (s_n_effective s')).
Proof. exact (fun RG HN HI => exact_adjustment W lp ll bl RG drawn HN HI interrupts fuel R s s'). Qed.
Print Assumptions C46_dynamic_adjustment.
Example C46_case : exists s, reachable worldX (good_draws x_random (strictly_inside rowsX)) true s /\ iterations (history_of s) <> 0%nat /\
  regular worldX (fun _ => Fin 0) likeX None /\ (forall x, likeX x <> NaN) /\ (forall x, likeX x <> PInf) /\
  exists fuel s1, reweight fuel s = Ok s1.
Proof. exact exact_case. Qed.

(** ** C52 *)
(** Exact arithmetic.  [ds]: the draws from the flow, with the log-Jacobians of
    the scaler and the log-densities of the flow; [ws]: their importance weights,
    0 where the prior is. *)
Theorem C52_importance_evidence {C P Opt} (W : world X C P Opt) lp ll bl (fair : rand X C P -> Prop) interrupts a R (s : sampler X C P) evs s' theta logq xq ldj :
  regular W lp ll bl -> reachable W fair interrupts s -> fair R -> run W a R s = (evs, Ok s') ->
  (0 < ra_n_evidence a)%Z -> c_preconditioned (s_cfg s) = true ->
  rn_flow R (s_flow s') (Z.to_nat (ra_n_evidence a)) = (theta, logq) -> length logq = length theta ->
  inverse (s_scaler s') (wd_junk W) theta = Ok (xq, ldj) ->
  let ds := combine xq (combine ldj logq) in
  let ws := map (importance_weight lp ll) ds in
  Forall (evaluable lp ll) ds ->
  (0 < total ws -> exists z err, evidence s' = (Some (Fin z), Some err) /\ exp z = total ws / INR (kept lp ds) /\
     z = ln (mean ws) + ln (INR (length ds) / INR (kept lp ds))) /\
  (kept lp ds = 0%nat -> exists err, evidence s' = (Some NaN, Some err)).
Proof. exact (run_evidence_mean W lp ll bl fair interrupts a R s evs s' theta logq xq ldj). Qed.
Print Assumptions C52_importance_evidence.

(** ** C53 *)
Theorem C53_smc_evidence {C P Opt} (W : world X C P Opt) lp ll bl (drawn : vec X -> Prop) interrupts a R (s : sampler X C P) evs s' :
  regular W lp ll bl -> (forall x, drawn x -> ll x <> NaN) -> (forall x, ll x <> PInf) ->
  reachable W (good_draws x_random drawn) interrupts s -> good_draws x_random drawn R -> run W a R s = (evs, Ok s') ->
  (ra_n_evidence a <= 0)%Z \/ c_preconditioned (s_cfg s) = false ->
  exists ls bs zs z, history (history_of s') ls bs zs /\ evidence s' = (Some (Fin z), None) /\ exp z = mean (weights_at ls bs zs 1).
Proof. exact (run_evidence_smc W lp ll bl drawn interrupts a R s evs s'). Qed.
Print Assumptions C53_smc_evidence.
Theorem C53_any_arithmetic {T C P Opt} {NT : NumT T} (W : world T C P Opt) a R (s : sampler T C P) evs s' : run W a R s = (evs, Ok s') ->
  (ra_n_evidence a <= 0)%Z \/ c_preconditioned (s_cfg s) = false ->
  exists lw logz, compute_logw_and_logz (history_of s') (nofZ 1) true = Ok (lw, logz) /\ evidence s' = (Some logz, None).
Proof. exact (run_evidence_none W a R s evs s'). Qed.
Print Assumptions C53_any_arithmetic.
Theorem C53_before_run {T C P Opt} {NT : NumT T} (W : world T C P Opt) o (s : sampler T C P) : new_sampler W o = Ok s -> evidence s = (None, None).
Proof. exact (new_evidence W o s). Qed.
Print Assumptions C53_before_run.
Example C53_case : new_sampler world64 (options64 true) = Ok start64 /\ run world64 args64 rand64 start64 = (fst trace64, Ok final64) /\ (ra_n_evidence args64 <= 0)%Z.
Proof. exact (conj start64_ok (conj run64_ok (Z.le_refl 0))). Qed.

(** ** C66 *)
(** If no exception interrupts the training of the flow (interrupts = false):
    whenever the Markov chains start, all attributes of the geometry they use are
    set; through any number of runs, saves, loads and other exceptions. *)
Theorem C66_geometry_fitted {T C P Opt} {NT : NumT T} (W : world T C P Opt) (fair : rand T C P -> Prop) fuel R (s s1 s2 s3 : sampler T C P) :
  reachable W fair false s -> reweight fuel s = Ok s1 -> train W R s1 = Ok s2 -> resample R s2 = Ok s3 -> fitted (geometry_in_use s3).
Proof. exact (mutation_geometry W fair fuel R s s1 s2 s3). Qed.
Print Assumptions C66_geometry_fitted.
Example C66_case : reachable world64 (good_draws b64_random drawn64) false warm64 /\ reweight 60 warm64 = Ok reweighted64 /\
  train world64 rand64 reweighted64 = Ok trained64 /\ resample rand64 trained64 = Ok resampled64.
Proof. exact (conj (warm64_reachable false) (conj reweighted64_ok (conj trained64_ok resampled64_ok))). Qed.
(** If the training of the flow is interrupted, the flow counts as trained; the
    next run starts the Markov chains with a geometry that was never fitted. *)
Theorem C66_interrupted_refuted : exists (s s1 s2 s3 : sampler B64 B64 nat),
  reachable world64 (good_draws b64_random drawn64) true s /\ reweight 60 s = Ok s1 /\ train world64 rand64 s1 = Ok s2 /\ resample rand64 s2 = Ok s3 /\
  geometry_in_use s3 = new_geometry /\ mutate world64 rand64 s3 = Err LinAlgError.
Proof. exact halt_case. Qed.
Print Assumptions C66_interrupted_refuted.

(** ** C67 *)
Theorem C67_training_schedule {T C P Opt} {NT : NumT T} (W : world T C P Opt) fuel R (s s' : sampler T C P) :
  iteration W fuel R s = Ok s' ->
  exists beta, h_beta (history_of s') = h_beta (history_of s) ++ [beta] /\ s_t s' = (s_t s + 1)%Z /\
  let due := training_due (c_preconditioned (s_cfg s)) (s_untrained s) (c_train_frequency (s_cfg s)) (s_t s') beta in
  (due /\ s_untrained s' = false /\
   exists options u w history stop, flow_fit (wd_train W) options (ir_fit (rn_iter R (s_t s'))) (s_flow s) u w = Ok (s_flow s', history, stop)) \/
  (~ due /\ s_flow s' = s_flow s /\ s_untrained s' = s_untrained s).
Proof. exact (iteration_schedule W fuel R s s'). Qed.
Print Assumptions C67_training_schedule.
Example C67_case : iteration world64 60 rand64 warm64 = Ok iterated64 /\ s_untrained warm64 = true /\ s_flow iterated64 <> s_flow warm64 /\
  exists s', iteration world64 60 rand64 plain64 = Ok s' /\ s_flow s' = s_flow plain64.
Proof. exact schedule_case. Qed.

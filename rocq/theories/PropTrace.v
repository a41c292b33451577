(** * Properties of checkpoints and resumed runs (C57-C60) *)
From Coq Require Import ZArith Floats.SpecFloat.
From Coq Require Import String List Bool.
From Verif Require Import Num PyBase XReal FloatNum Tools Scaler Particles LogLike Geometry Mcmc SpecMcmc McmcNum Flow Sampler
  SpecReach SpecRun SpecTrace TraceFacts ResumeFacts WarmFacts TraceMain RunCase RunCaseFacts TraceCase.
Import ListNotations.

(** ** C57 *)
(** [starts]: the states in which the warm-up batches and iterations start. *)
Theorem C57_checkpoints {T C P Opt} {NT : NumT T} (W : world T C P Opt) k a R (s : sampler T C P) evs r :
  ra_save_every a = Some k -> (1 <= k)%Z -> run W a R s = (evs, r) ->
  match draw_prior W R (set_targets (ra_n_total a) (ra_n_evidence a) s) with
  | Err e => evs = [] /\ r = Err e
  | Ok s0 => exists starts r0, passes W (ra_bfuel a) R s0 starts r0 /\
      map s_t starts = map (fun j => s_t s + Z.of_nat j)%Z (seq 0 (length starts)) /\
      r = match r0 with Ok s1 => final_evidence W R s1 | Err e => Err e end /\
      (forall s1, r0 = Ok s1 -> s_warmup s1 = false /\ not_termination s1 = Ok false) /\
      evs = map saved_at (filter (due k (s_t s)) starts) ++ match r with Ok s' => [{| ev_file := Final; ev_state := s' |}] | Err _ => [] end
  end.
Proof. exact (run_saves W k a R s evs r). Qed.
Print Assumptions C57_checkpoints.
Theorem C57_nothing_written {T C P Opt} {NT : NumT T} (W : world T C P Opt) a R (s : sampler T C P) evs r :
  ra_save_every a = None -> run W a R s = (evs, r) -> evs = [].
Proof. exact (run_saves_nothing W a R s evs r). Qed.
Print Assumptions C57_nothing_written.
Example C57_case : ra_save_every args64 = Some 1%Z /\ run world64 args64 rand64 start64 = trace64 /\
  map ev_file (fst trace64) = [Checkpoint 1; Checkpoint 2; Checkpoint 3; Final].
Proof. exact (conj eq_refl (conj trace64_ok eq_refl)). Qed.

(** ** C58 *)
(** [a'] may differ from [a] in save_every, and in a larger bound on the number of
    iterations.  Only the pool differs in the end: it is that of the sampler that
    resumes, unless the state was saved without a pool (C55). *)
Theorem C58_resumed_run_continues {T C P Opt} {NT : NumT T} (W : world T C P Opt) a a' R (s : sampler T C P) evs r e self :
  run W a R s = (evs, r) -> r <> Err Diverge -> maps (s_pool s) -> maps (s_pool self) ->
  In e evs -> ev_file e <> Final -> s_warmup (ev_state e) = false ->
  ra_n_total a' = ra_n_total a -> ra_n_evidence a' = ra_n_evidence a -> ra_bfuel a' = ra_bfuel a -> (ra_fuel a <= ra_fuel a')%nat -> ra_save_every a' <> Some 0%Z ->
  snd (run_resumed W a' R (ev_state e) self) =
  rmap (fun s' => with_pool s' (match s_pool (ev_state e) with None => None | Some _ => s_pool self end)) r.
Proof. exact (resume_continues W a a' R s evs r e self). Qed.
Print Assumptions C58_resumed_run_continues.
Example C58_case : exists e, In e (fst trace64) /\ ev_file e = Checkpoint 3 /\ s_warmup (ev_state e) = false /\
  run world64 args64 rand64 start64 = (fst trace64, Ok final64).
Proof. exact late_case. Qed.

(** ** C59 *)
(** [h]: number of iterations stored before the run; [k]: batches made before the
    checkpoint; [n]: prior batches. *)
Theorem C59_prior_batches_are_repeated {T C P Opt} {NT : NumT T} (undefined random : T -> Prop) (W : world T C P Opt) lp ll bl drawn interrupts
    a R (s : sampler T C P) evs r e a' R' self evs' s' :
  float_like undefined random -> regular W lp ll bl ->
  reachable W (good_draws random drawn) interrupts s -> reachable W (good_draws random drawn) interrupts self ->
  good_draws random drawn R -> good_draws random drawn R' ->
  run W a R s = (evs, r) -> In e evs -> s_warmup (ev_state e) = true -> run_resumed W a' R' (ev_state e) self = (evs', Ok s') ->
  let n := n_batches (s_cfg s) in let h := iterations (history_of s) in let n_active := c_n_active (s_cfg s) in
  exists k, (1 <= k < n)%nat /\ iterations (history_of (ev_state e)) = (h + k)%nat /\
    warmed_up s s' n_active (k + n) /\ (forall s1, r = Ok s1 -> warmed_up s s1 n_active n) /\
    (forall j, (j < k)%nat -> particles_of (history_of s') (h + k + j) n_active = particles_of (history_of s') (h + j) n_active).
Proof. exact (resume_repeats undefined random W lp ll bl drawn interrupts a R s evs r e a' R' self evs' s'). Qed.
Print Assumptions C59_prior_batches_are_repeated.
Example C59_case : exists e, In e (fst trace64) /\ s_warmup (ev_state e) = true /\ ev_state e = early64 /\
  run world64 args64 rand64 start64 = (fst trace64, Ok final64) /\ run_resumed world64 args64 rand64 early64 start64 = (fst resumed64, Ok twice64).
Proof. exact early_case. Qed.
Example C59_hypotheses : @float_like B64 _ b64_undefined b64_random /\ regular world64 prior64 like64 (Some blob64) /\
  reachable world64 (good_draws b64_random drawn64) true start64 /\ good_draws b64_random drawn64 rand64.
Proof. exact trace_hypotheses. Qed.

(** ** C60 *)
Theorem C60_pre_run_state {T C P Opt} {NT : NumT T} (W : world T C P Opt) fair interrupts a R (saved self : sampler T C P) :
  reachable W fair interrupts saved -> reachable W fair interrupts self -> iterations (history_of saved) = 0%nat ->
  run_resumed W a R saved self = ([], Err IndexError) /\
  run W a R (load saved self) = tmap (fun s => with_pool s (match s_pool saved with None => None | Some _ => s_pool self end)) (run W a R saved).
Proof. exact (pre_run_state W fair interrupts a R saved self). Qed.
Print Assumptions C60_pre_run_state.
Example C60_case : reachable world64 (good_draws b64_random drawn64) true start64 /\ reachable world64 (good_draws b64_random drawn64) true pooled64 /\
  iterations (history_of start64) = 0%nat /\ snd (run world64 args64 rand64 start64) = Ok final64.
Proof. exact pre_run_case. Qed.

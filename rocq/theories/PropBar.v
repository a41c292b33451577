(** * The progress bar (C97) *)
From Coq Require Import Reals ZArith List Bool.
From Coq Require Import List.
From Verif Require Import Num PyBase XReal FloatNum Particles Mcmc Sampler SpecReach RunCase TraceCase Bar SpecBar BarFacts BarCase.
Import ListNotations.

(** The first run of a sampler: whenever [run] returns, the same run with its bar
    returns the same sampler (the bar raises nothing), the bar has counted the
    iterations that were added, and shows the last recorded values and the number
    of likelihood calls. *)
Theorem C97_first_run {T C P Opt} {NT : NumT T} (W : world T C P Opt) a R (s s' : sampler T C P) :
  s_warmup s = true -> n_batches (s_cfg s) <> 0%nat -> ntrunc (nofZ (s_n_effective s) : T) <> None ->
  snd (run W a R s) = Ok s' ->
  exists b, run_bar W a R s = Ok (s', b) /\ bar_count b = (s_t s' - s_t s)%Z /\
    (s_t s' <> s_t s -> (displays (history_of s') b /\ displays_efficiency (c_n_dim (s_cfg s')) (history_of s') b) /\ calls_shown b (s_calls s')).
Proof. exact (first_run_with_bar W a R s s'). Qed.
Print Assumptions C97_first_run.

Example C97_first_run_case : s_warmup start64 = true /\ n_batches (s_cfg start64) <> 0%nat /\ ntrunc (nofZ (s_n_effective start64) : B64) <> None /\
  snd (run world64 args64 rand64 start64) = Ok final64 /\ s_t final64 <> s_t start64.
Proof. exact first_case. Qed.

(** In exact arithmetic the square root on the bar and the one of the record agree, so
    the efficiency shown is the recorded one. *)
Theorem C97_efficiency_exact (n_dim : nat) : let n : X := nofZ (Z.of_nat n_dim) in npow n (nfrac 1 2) = nsqrt n.
Proof. exact (roots_agree n_dim). Qed.
Print Assumptions C97_efficiency_exact.

(** A later run.  If the evidence is computed with the flow, the bar ends at the
    number of calls of the sampler.  If not, it exceeds that number by the calls
    which the counter of the sampler had in excess of the last recorded number when
    the run began. *)
Theorem C97_later_run {T C P Opt} {NT : NumT T} (W : world T C P Opt) a R (s s' : sampler T C P) :
  s_warmup s = false -> snd (run W a R s) = Ok s' ->
  exists b, run_bar W a R s = Ok (s', b) /\ bar_count b = (s_t s' - s_t s)%Z /\
    (s_t s' <> s_t s -> (displays (history_of s') b /\ displays_efficiency (c_n_dim (s_cfg s')) (history_of s') b) /\
      exists c, s_current s = Some c /\
        calls_shown b (if (0 <? ra_n_evidence a)%Z && c_preconditioned (s_cfg s) then s_calls s' else s_calls s' + (s_calls s - cu_calls c))).
Proof. exact (later_run_with_bar W a R s s'). Qed.
Print Assumptions C97_later_run.

(** So the number on the bar is not always the recorded one: a new sampler runs, runs
    again for an importance estimate of the evidence (six calls), and runs a third
    time.  There have been 38 calls, which is what the bar shows; the sampler and
    its history count 32. *)
Theorem C97_recorded_calls_refuted : exists o s0 s1 s2 s3 b, new_sampler world64 o = Ok s0 /\ snd (run world64 args64 rand64 s0) = Ok s1 /\
  snd (run world64 more64 rand64 s1) = Ok s2 /\ run_bar world64 third64 rand64 s2 = Ok (s3, b) /\
  (length (s_evals s3) + length (s_evidence_evals s2) = 38)%nat /\ calls_shown b 38 /\ s_calls s3 = 32%Z /\ latest (h_calls (history_of s3)) = Some 32%Z.
Proof. exact bar_refuted. Qed.
Print Assumptions C97_recorded_calls_refuted.

(** A later run that adds no iteration, because the sampler has enough samples: the bar
    is left with the values that it starts with, inverse temperature 0 and
    log-evidence 0, whatever the history says; only the number of calls is right. *)
Theorem C97_nothing_added {T C P Opt} {NT : NumT T} (W : world T C P Opt) a R (s s' : sampler T C P) :
  s_warmup s = false -> snd (run W a R s) = Ok s' -> s_t s' = s_t s ->
  exists b, run_bar W a R s = Ok (s', b) /\ bar_count b = 0%Z /\ history_of s' = history_of s /\
    bar_info b Bbeta = Some (Float (nofZ 0)) /\ bar_info b BlogZ = Some (Float (nofZ 0)) /\ bar_info b BESS = Some (Int (s_n_effective s)) /\ calls_shown b (s_calls s').
Proof. exact (still_with_bar W a R s s'). Qed.
Print Assumptions C97_nothing_added.

(** the inverse temperature in the history is 1 *)
Example C97_nothing_added_case : s_warmup final64 = false /\
  exists s', snd (run world64 more64 rand64 final64) = Ok s' /\ s_t s' = s_t final64 /\ latest (h_beta (history_of s')) = Some (b64_ofZ 1).
Proof. exact still_case. Qed.

(** A run resumed from a file: the bar continues the number of iterations. *)
Theorem C97_resumed_run {T C P Opt} {NT : NumT T} (W : world T C P Opt) fair interrupts a R (saved self s' : sampler T C P) :
  reachable W fair interrupts saved -> (s_warmup saved = true -> n_batches (s_cfg saved) <> 0%nat /\ ntrunc (nofZ (s_n_effective saved) : T) <> None) ->
  snd (run_resumed W a R saved self) = Ok s' ->
  exists b, run_resumed_bar W a R saved self = Ok (s', b) /\ bar_count b = s_t s' /\
    (s_t s' <> s_t saved -> (displays (history_of s') b /\ displays_efficiency (c_n_dim (s_cfg s')) (history_of s') b) /\ calls_shown b (s_calls s')).
Proof. exact (fun H => resumed_with_bar W a R saved self s' (reachable_counted W fair interrupts saved H)). Qed.
Print Assumptions C97_resumed_run.

Example C97_resumed_run_case : s_warmup early64 = true /\ n_batches (s_cfg early64) <> 0%nat /\ ntrunc (nofZ (s_n_effective early64) : B64) <> None /\
  snd (run_resumed world64 args64 rand64 early64 start64) = Ok twice64 /\ s_t twice64 <> s_t early64.
Proof. exact resumed_bar_case. Qed.

(** If it adds no iteration, the bar shows the values recorded in the file; there the
    effective sample size is not cut to an integer, and the number of calls, when the
    evidence is not computed with the flow, is the last recorded one. *)
Theorem C97_resumed_nothing_added {T C P Opt} {NT : NumT T} (W : world T C P Opt) a R (saved self s' : sampler T C P) :
  s_warmup saved = false -> snd (run_resumed W a R saved self) = Ok s' -> s_t s' = s_t saved ->
  exists b, run_resumed_bar W a R saved self = Ok (s', b) /\ bar_count b = s_t s' /\ history_of s' = history_of saved /\
    (exists x, latest (h_beta (history_of s')) = Some x /\ bar_info b Bbeta = Some (Float x)) /\
    (exists x, latest (h_ess (history_of s')) = Some x /\ bar_info b BESS = Some (Float x)) /\
    (exists x, latest (h_logz (history_of s')) = Some x /\ bar_info b BlogZ = Some (Float x)) /\
    (exists x, latest (h_accept (history_of s')) = Some x /\ bar_info b Bacc = Some (Float x)) /\
    (exists z, latest (h_steps (history_of s')) = Some z /\ bar_info b Bsteps = Some (Int z)) /\
    (exists x, latest (h_efficiency (history_of s')) = Some x /\ bar_info b Beff = Some (Float x)) /\
    (exists z, latest (h_calls (history_of s')) = Some z /\
      calls_shown b (if (0 <? ra_n_evidence a)%Z && c_preconditioned (s_cfg saved) then s_calls s' else z)).
Proof. exact (resumed_still W a R saved self s'). Qed.
Print Assumptions C97_resumed_nothing_added.

Example C97_resumed_nothing_added_case : s_warmup final64 = false /\ exists s', snd (run_resumed world64 args64 rand64 final64 start64) = Ok s' /\ s_t s' = s_t final64.
Proof. exact resumed_still_case. Qed.

(** The bar changes nothing: the sampler that a run with a bar returns is the one
    that it returns without. *)
Theorem C97_display_only {T C P Opt} {NT : NumT T} (W : world T C P Opt) a R (s saved self s' : sampler T C P) b :
  (run_bar W a R s = Ok (s', b) -> snd (run W a R s) = Ok s') /\
  (run_resumed_bar W a R saved self = Ok (s', b) -> snd (run_resumed W a R saved self) = Ok s').
Proof. exact (conj (run_from_bar_only W a R s (first_bar s) s' b) (resumed_bar_only W a R saved self s' b)). Qed.
Print Assumptions C97_display_only.

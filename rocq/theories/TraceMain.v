(** * The theorems about checkpoints, in the form stated as properties *)
From Coq Require Import ZArith List Bool Lia Floats.SpecFloat.
From Verif Require Import Num PyBase PyBaseFacts FloatNum Tools Scaler Particles LogLike Geometry Mcmc SpecMcmc McmcNum Flow Sampler ConfigFacts SpecReach Reach SpecRun
  RowFacts ParticleInv HistoryFacts EvidenceFacts SpecTrace PoolSwap TraceFacts ResumeFacts WarmFacts HistoryMain RunCase RunCaseFacts TraceCase.
Import ListNotations.
Set Bullet Behavior "Strict Subproofs".

Lemma resume_continues {T C P Opt} {NT : NumT T} (W : world T C P Opt) a a' R (s : sampler T C P) evs r e self :
  run W a R s = (evs, r) -> r <> Err Diverge -> maps (s_pool s) -> maps (s_pool self) ->
  In e evs -> ev_file e <> Final -> s_warmup (ev_state e) = false ->
  ra_n_total a' = ra_n_total a -> ra_n_evidence a' = ra_n_evidence a -> ra_bfuel a' = ra_bfuel a -> (ra_fuel a <= ra_fuel a')%nat -> ra_save_every a' <> Some 0%Z ->
  snd (run_resumed W a' R (ev_state e) self) =
  rmap (fun s' => with_pool s' (match s_pool (ev_state e) with None => None | Some _ => s_pool self end)) r.
Proof. intros. eapply run_resumes; eauto. Qed.
Lemma resume_repeats {T C P Opt} {NT : NumT T} (undefined random : T -> Prop) (W : world T C P Opt) lp ll bl drawn interrupts
    a R (s : sampler T C P) evs r e a' R' self evs' s' :
  float_like undefined random -> regular W lp ll bl ->
  reachable W (good_draws random drawn) interrupts s -> reachable W (good_draws random drawn) interrupts self ->
  good_draws random drawn R -> good_draws random drawn R' ->
  run W a R s = (evs, r) -> In e evs -> s_warmup (ev_state e) = true -> run_resumed W a' R' (ev_state e) self = (evs', Ok s') ->
  let n := n_batches (s_cfg s) in let h := iterations (history_of s) in let n_active := c_n_active (s_cfg s) in
  exists k, (1 <= k < n)%nat /\ iterations (history_of (ev_state e)) = (h + k)%nat /\
    warmed_up s s' n_active (k + n) /\ (forall s1, r = Ok s1 -> warmed_up s s1 n_active n) /\
    (forall j, (j < k)%nat -> particles_of (history_of s') (h + k + j) n_active = particles_of (history_of s') (h + j) n_active).
Proof. intros [L [good U]] RG. exact (resumed_in_warmup W undefined random good L U lp ll bl RG drawn interrupts a R s evs r e a' R' self evs' s'). Qed.
Lemma pre_run_state {T C P Opt} {NT : NumT T} (W : world T C P Opt) fair interrupts a R (saved self : sampler T C P) :
  reachable W fair interrupts saved -> reachable W fair interrupts self -> iterations (history_of saved) = 0%nat ->
  run_resumed W a R saved self = ([], Err IndexError) /\
  run W a R (load saved self) = tmap (fun s => with_pool s (match s_pool saved with None => None | Some _ => s_pool self end)) (run W a R saved).
Proof.
  intros H1 H2 H3. split; [|apply loaded_run; eapply maps_pool; eassumption]. apply resumed_empty.
  pose proof (reachable_even W fair interrupts saved H1) as E. unfold even, counts, iterations in *. rewrite H3 in E. cbn [repeat] in E.
  assert (Q : length (h_beta (history_of saved)) = 0%nat) by congruence. now apply length_zero_iff_nil.
Qed.
Lemma trace_hypotheses : @float_like B64 _ b64_undefined b64_random /\ regular world64 prior64 like64 (Some blob64) /\
  reachable world64 (good_draws b64_random drawn64) true start64 /\ good_draws b64_random drawn64 rand64.
Proof. split; [apply float_like_b64; reflexivity|]. split; [exact regular64|]. split; [apply start64_reachable|exact rand64_good]. Qed.
Lemma pre_run_case : reachable world64 (good_draws b64_random drawn64) true start64 /\ reachable world64 (good_draws b64_random drawn64) true pooled64 /\
  iterations (history_of start64) = 0%nat /\ snd (run world64 args64 rand64 start64) = Ok final64.
Proof. split; [apply start64_reachable|]. split; [apply pooled64_reachable|]. split; [reflexivity|]. rewrite trace64_ok. exact final64_ok. Qed.

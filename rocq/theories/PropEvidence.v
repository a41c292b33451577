(** * C87, C88: the recorded log-evidences and the range of the evidence

    The sampler is in any state it can reach ([reachable], SpecReach.v); the
    arithmetic is exact.  [weights_at ls bs zs beta] are the importance weights
    at beta of the particles of the history (balance heuristic,
    SpecParticles.v); [sample_size] is the effective sample size the sampler is
    configured to use. *)
From Coquelicot Require Import Coquelicot.
From Coq Require Import ZArith Reals Lra Lia.
From Coq Require Import String List Bool.
From Verif Require Import Num PyBase XReal Tools SpecTools Scaler Particles SpecParticles LogLike Geometry Mcmc SpecMcmc McmcNum Flow Sampler SpecReach SpecRun SpecEss SpecScaler SpecExact
  TrimFacts BetaFacts XUnit SpecEvidence SpecIterate HistoryExact EvidenceRange IterateCase ExactRun.
Import ListNotations.
Local Open Scope R_scope.

(** ** C87 *)
(** The log-evidence that an iteration records belongs to the inverse
    temperature it records: it is the logarithm of the mean importance weight,
    at that inverse temperature, of all particles stored before the iteration.
    When the inverse temperature cannot be increased (the effective sample size
    at the last one is already at or below n_effective), both are repeated. *)
Theorem C87_recorded_evidence {C P Opt} (W : world X C P Opt) lp ll bl (drawn : vec X -> Prop) interrupts fuel R (s s' : sampler X C P) :
  regular W lp ll bl -> (forall x, drawn x -> ll x <> NaN) -> (forall x, ll x <> PInf) ->
  reachable W (good_draws x_random drawn) interrupts s -> iteration W fuel R s = Ok s' ->
  exists ls bs zs rest previous rest' before beta z,
    history (history_of s) ls bs zs /\ bs = rest ++ [previous] /\ zs = rest' ++ [before] /\
    h_beta (history_of s') = map Fin (bs ++ [beta]) /\ h_logz (history_of s') = map Fin (zs ++ [z]) /\
    let size b := sample_size (c_metric (s_cfg s)) (weights_at ls bs zs b) in
    ((size previous <= IZR (s_n_effective s) /\ beta = previous /\ z = before) \/
     (IZR (s_n_effective s) < size previous /\ exp z = mean (weights_at ls bs zs beta))).
Proof. exact (fun RG HN HI => recorded_evidence W lp ll bl RG drawn HN HI interrupts fuel R s s'). Qed.
Print Assumptions C87_recorded_evidence.

(** ** C88 *)
(** An evidence estimate is an average of likelihood values: each recorded
    log-evidence lies between beta times the smallest and beta times the largest
    stored log-likelihood. *)
Theorem C88_recorded_range {C P Opt} (W : world X C P Opt) lp ll bl (drawn : vec X -> Prop) interrupts (s : sampler X C P) ls bs zs lo hi :
  regular W lp ll bl -> (forall x, drawn x -> ll x <> NaN) -> (forall x, ll x <> PInf) ->
  reachable W (good_draws x_random drawn) interrupts s -> history (history_of s) ls bs zs ->
  (forall l, In l (concat ls) -> lo <= l <= hi) ->
  Forall2 (fun b z => b * lo <= z <= b * hi) bs zs.
Proof. exact (fun RG HN HI => evidences_in_range W lp ll bl RG drawn HN HI interrupts s ls bs zs lo hi). Qed.
Print Assumptions C88_recorded_range.

(** Without the importance-sampling estimate from the flow, the evidence that a
    run reports lies between the bounds of the log-likelihood.  In particular,
    it is exact for a constant likelihood. *)
Theorem C88_evidence_range {C P Opt} (W : world X C P Opt) lp ll bl (drawn : vec X -> Prop) interrupts a R (s : sampler X C P) evs s' lo hi :
  regular W lp ll bl -> (forall x, drawn x -> ll x <> NaN) -> (forall x, ll x <> PInf) ->
  reachable W (good_draws x_random drawn) interrupts s -> good_draws x_random drawn R -> run W a R s = (evs, Ok s') ->
  (ra_n_evidence a <= 0)%Z \/ c_preconditioned (s_cfg s) = false ->
  (forall x l, ll x = Fin l -> lo <= l <= hi) ->
  exists z, evidence s' = (Some (Fin z), None) /\ lo <= z <= hi.
Proof. exact (run_range W lp ll bl drawn interrupts a R s evs s' lo hi). Qed.
Print Assumptions C88_evidence_range.

(** A run from construction to the evidence: log-likelihood 3 everywhere *)
Example C88_case : exists s0 bfuel s', regular world1 flat1 like1 None /\ new_sampler world1 (options1 false) = Ok s0 /\
  reachable world1 (good_draws x_random (strictly_inside rows1)) false s0 /\ good_draws x_random (strictly_inside rows1) rand1 /\
  run world1 (args1 false bfuel) rand1 s0 = ([], Ok s') /\ evidence s' = (Some (Fin 3), None) /\ h_beta (history_of s') = [Fin 0; Fin 1].
Proof.
  destruct case1_run as (s0 & bfuel & s' & A & B & D & E & F). exists s0, bfuel, s'. exact (conj world1_regular (conj A (conj B (conj (ed_draws _ _ rand1_fair) (conj D (conj E F)))))).
Qed.
Example C87_case : exists s s' fuel, regular world1 flat1 like1 None /\ reachable world1 (good_draws x_random (strictly_inside rows1)) false s /\ iteration world1 fuel rand1 s = Ok s'.
Proof.
  destruct (case1_iteration false) as (s & s' & fuel & HW & HI & _). exists s, s', fuel. exact (conj world1_regular (conj (weaken world1 false rows1 s (w1_reach _ s HW)) HI)).
Qed.

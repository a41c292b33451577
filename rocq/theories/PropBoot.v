(** * C95: the error of the evidence

    A run with the flow and [n_evidence > 0] estimates the evidence from draws
    of the flow (C52); its error is the standard deviation of the log-evidence
    over bootstrap samples of their importance weights.  Exact arithmetic. *)
From Coquelicot Require Import Coquelicot.
From Coq Require Import ZArith Reals Lra Lia.
From Coq Require Import String List Bool.
From Verif Require Import Num PyBase XReal Tools SpecTools Scaler SpecScaler ScalerSpecFacts Particles SpecParticles LogLike Geometry Mcmc SpecMcmc Flow Sampler SpecReach SpecRun SpecExact XUnit SpecEvidence TrimFacts McmcNum BetaFacts HistoryExact BootFacts
  PropLoop IterateCase ExactRun.
Import ListNotations.
Local Open Scope R_scope.

(** [ds]: the draws from the flow, with the log-Jacobians of the scaler and the
    log-densities of the flow.  Bootstrap sample [j] takes as many weights as
    there are draws of finite log-prior, with replacement ([again j]); there are
    [n_evidence] bootstrap samples, but at least 1000. *)
Theorem C95_evidence_error {C P Opt} (W : world X C P Opt) lp ll bl (fair : rand X C P -> Prop) interrupts a R0 (s : sampler X C P) evs s' theta logq xq ldj :
  regular W lp ll bl -> reachable W fair interrupts s -> fair R0 -> run W a R0 s = (evs, Ok s') ->
  (0 < ra_n_evidence a)%Z -> c_preconditioned (s_cfg s) = true ->
  rn_flow R0 (s_flow s') (Z.to_nat (ra_n_evidence a)) = (theta, logq) -> length logq = length theta ->
  inverse (s_scaler s') (wd_junk W) theta = Ok (xq, ldj) ->
  let ds := combine xq (combine ldj logq) in
  let again j := redrawn (rn_boot R0 j) (kept_weights lp ll ds) in
  let repeats := Nat.max (Z.to_nat (ra_n_evidence a)) 1000 in
  Forall (evaluable lp ll) ds -> (forall j, (j < repeats)%nat -> 0 < total (again j)) ->
  exists z, evidence s' = (z, Some (Fin (deviation (map (fun j => ln (mean (again j))) (seq 0 repeats))))).
Proof. exact (run_evidence_error W lp ll bl fair interrupts a R0 s evs s' theta logq xq ldj). Qed.
Print Assumptions C95_evidence_error.

(** A run with the flow, from construction to the evidence, meets the hypotheses
    of C52_importance_evidence and of C95_evidence_error: the flow is trained for one epoch,
    and two points are drawn from it. *)
Example C95_case : exists s0 bfuel s' theta logq xq ldj, regular world1 flat1 like1 None /\ new_sampler world1 (options1 true) = Ok s0 /\
  reachable world1 (good_draws x_random (strictly_inside rows1)) false s0 /\ good_draws x_random (strictly_inside rows1) rand1 /\
  run world1 (args1 true bfuel) rand1 s0 = ([], Ok s') /\ (0 < ra_n_evidence (args1 true bfuel))%Z /\ c_preconditioned (s_cfg s0) = true /\
  rn_flow rand1 (s_flow s') 2 = (theta, logq) /\ length logq = length theta /\ length theta = 2%nat /\
  inverse (s_scaler s') (wd_junk world1) theta = Ok (xq, ldj) /\
  let ds := combine xq (combine ldj logq) in
  Forall (evaluable flat1 like1) ds /\ kept flat1 ds = 2%nat /\ 0 < total (map (importance_weight flat1 like1) ds) /\
  forall j, 0 < total (redrawn (rn_boot rand1 j) (kept_weights flat1 like1 ds)).
Proof.
  destruct (case1_run_of true) as (s0 & bfuel & s' & A & PC & B & D & _ & _ & F1 & F2). exists s0, bfuel, s'.
  destruct (jacobian (s_scaler s') 1 rows1 (wd_junk world1) [[0]; [1]] F1 F2 eq_refl ltac:(repeat constructor)) as (g & d & _ & EI).
  do 4 eexists. repeat (split; [first [exact world1_regular|exact A|exact B|exact (ed_draws _ _ rand1_fair)|exact D|exact PC|reflexivity|exact EI]|]).
  assert (IP : forall x j q, 0 < importance_weight flat1 like1 (x, (Fin j, Fin q))).
  { intros x j q. cbn. apply Rdiv_lt_0_compat; [|apply exp_pos]. repeat apply Rmult_lt_0_compat; apply exp_pos. }
  split; [|split; [reflexivity|split]].
  - repeat (apply Forall_cons; [intros _; split; [left; eexists; reflexivity|split; eexists; reflexivity]|]). apply Forall_nil.
  - match goal with |- 0 < total (map _ [?d1; ?d2]) => idtac | |- 0 < total (map ?w ?l) => let l' := eval cbn [combine map seq] in l in change (0 < total (map w l')) end. unfold total. cbn [map fold_left].
    rewrite Rplus_0_l. apply Rplus_lt_0_compat; apply IP.
  - intros j. assert (N : forall k v w, 0 < v -> 0 < w -> 0 < nth (Nat.modulo k 2) [v; w] 0).
    { intros k v w Hv Hw. pose proof (Nat.mod_upper_bound k 2 ltac:(lia)) as L. destruct (Nat.modulo k 2) as [|[|]]; [exact Hv|exact Hw|lia]. }
    match goal with |- 0 < total (redrawn ?p (kept_weights _ _ ?l)) => let l' := eval cbn [combine map seq] in l in change (0 < total (redrawn p (map (importance_weight flat1 like1) l'))) end.
    unfold total, redrawn. cbn [map length seq fold_left]. rewrite Rplus_0_l. apply Rplus_lt_0_compat; apply N; apply IP.
Qed.

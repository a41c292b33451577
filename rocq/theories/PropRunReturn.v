(** * A run raises nothing (C86, concluded) *)
From Coq Require Import Reals ZArith List Lra Lia.
From Coq Require Import List.
From Verif Require Import Num PyBase XReal Scaler SpecScaler Particles LogLike Geometry SpecGeometry GeometryFacts Mcmc SpecMcmc SpecBalance SpecChain Flow Sampler ConfigFacts
  SpecReach SpecRun SpecExact SpecIterate SpecPosterior IterateFit IterateCase SpecLater SpecReturn ReturnFacts ReturnCase SpecTrainReturn TrainReturn SpecFlowReturn FlowReturn SpecLoopReturn LoopReturn FlowReturnCase SpecRunReturn RunReturn RunAgain.
Import ListNotations.
Local Open Scope R_scope.

(** The run of a new sampler, whatever the number [n] of iterations that are waited
    for, returns or has gone through [n] iterations after the warm-up: it raises
    nothing.  Assumed: the prior and the likelihood are real functions inside the
    ranges and do not raise; every batch of the warm-up has a point where the
    likelihood is not zero; np.linalg, scipy and the flow answer; the points that
    the proposal distribution is fitted to are never all in one hyperplane. *)
Theorem C86_run_raises_nothing {C P Opt} (W : world X C P Opt) lp ll bl rows rnd o s n_total n_evidence save n :
  exact_model W lp ll bl rows -> exact_draws rows rnd -> returning W lp bl ->
  new_sampler W o = Ok s -> maps (s_pool s) -> exact_sampler rows s -> save <> Some 0%Z ->
  (s_have_blobs s = true -> blobs_of (s_cfg s) bl <> None) -> good_prior rnd ll s ->
  (c_sample (s_cfg s) = RWMH -> (2 <= length rows)%nat) ->
  (c_preconditioned (s_cfg s) = true -> c_train_frequency (s_cfg s) <> 0%Z /\ flow_options (c_train (s_cfg s)) /\
    (forall s, flow_bijection (kernel_env_of W s) (length rows)) /\ flow_samples rnd (length rows)) ->
  good_solve (length rows) (wd_fit W) -> good_bisect (wd_fit W) -> total_fit (length rows) (wd_fit W) -> good_linalg (length rows) (wd_linalg W) -> total_linalg (length rows) (wd_linalg W) ->
  (forall s0, warmed W rnd n_total n_evidence save s s0 -> good_loop W rnd (length rows) s0) ->
  exists s0 halvings, warmed W rnd n_total n_evidence save s s0 /\ forall bfuel, (halvings <= bfuel)%nat ->
    let outcome := snd (run W {| ra_n_total := n_total; ra_n_evidence := n_evidence; ra_save_every := save; ra_fuel := n; ra_bfuel := bfuel |} rnd s) in
    (exists s', outcome = Ok s') \/ (outcome = Err Diverge /\ gone_through W rnd n s0).
Proof.
  exact (fun EM HR RT NS MP ES SV => run_raises_nothing W lp ll bl rows EM false rnd HR RT s n_total n_evidence save n SV (rc_new W (exact_draws rows) false o s NS MP) ES
    (proj1 (new_facts W o s NS)) (proj1 (proj2 (new_facts W o s NS))) (proj2 (proj2 (new_facts W o s NS)))).
Qed.
Print Assumptions C86_run_raises_nothing.

(** the exact example, with or without preconditioning *)
Example C86_run_case pre : exists s, exact_model world1 flat1 like1 None rows1 /\ exact_draws rows1 rand1 /\ returning world1 flat1 None /\
  new_sampler world1 (options1 pre) = Ok s /\ maps (s_pool s) /\ exact_sampler rows1 s /\
  (s_have_blobs s = true -> blobs_of (s_cfg s) (@None (vec X -> list unit)) <> None) /\ good_prior rand1 like1 s /\ c_sample (s_cfg s) = TPCN /\ c_preconditioned (s_cfg s) = pre /\
  c_train_frequency (s_cfg s) <> 0%Z /\ flow_options (c_train (s_cfg s)) /\ (forall s, flow_bijection (kernel_env_of world1 s) 1) /\ flow_samples rand1 1 /\
  good_solve 1 (wd_fit world1) /\ good_bisect (wd_fit world1) /\ total_fit 1 (wd_fit world1) /\ good_linalg 1 (wd_linalg world1) /\ total_linalg 1 (wd_linalg world1) /\
  forall s0, warmed world1 rand1 2 (evidence1 pre) None s s0 -> good_loop world1 rand1 1 s0.
Proof.
  destruct (case1_warm pre) as (s0 & s & N0 & N1 & HW). exists s0.
  destruct (start1 pre) as (s00 & H0 & F1 & F2 & F3 & F4 & F5 & F6 & F7 & F10 & F8 & F9 & G1 & G2 & G3 & G4 & G5 & G6 & G7 & (T1 & T2 & T3)).
  rewrite N0 in H0. apply Ok_inj in H0. subst s00. destruct oracles1_good as (A & B & C & D).
  split; [exact world1_exact|]. split; [exact rand1_fair|]. split; [exact returning1|]. split; [exact N0|]. split; [rewrite F1; exact I|].
  assert (PR : periodic (s_scaler s0) = None /\ reflective (s_scaler s0) = None).
  { unfold init_reparam in F9. cbn [bind] in F9. apply Ok_inj in F9. rewrite <- F9. split; reflexivity. }
  split; [constructor; [exact F4|now rewrite F5|exact G6|rewrite (proj1 PR); exact I|rewrite (proj2 PR); exact I]|].
  split; [rewrite F10; discriminate|]. split.
  { split; [rewrite F5, F6; lia|]. rewrite F5, F6. eexists. split; [reflexivity|]. intros i Hi. cbn in Hi. assert (i = 0%nat) as -> by lia. exists 0%nat. eexists. split; [lia|]. split; reflexivity. }
  split; [exact G4|]. split; [exact G1|]. split; [exact T2|]. split; [rewrite T1; exact options1_flow|]. split; [exact identity1|].
  split; [intros p n; exists (map (fun k => [INR k]) (seq 0 n)); split; [unfold fin_mat; rewrite map_map; reflexivity|apply Forall_forall; intros x Hx; apply in_map_iff in Hx as (k & <- & _); reflexivity]|].
  split; [exact A|]. split; [exact B|]. split; [split; [exact C|exact D]|]. split; [exact linalg1_good|]. split; [exact linalg1_total|].
  intros s' (s1 & D1 & D2). unfold prepared1 in N1. rewrite D1 in N1. cbn [lift tbind] in N1. destruct (warmup world1 None (s_t s0) rand1 s1) as [ev r]. cbn [snd] in D2. subst r. cbn [app] in N1.
  assert (s' = s) as -> by congruence. exact (good_loop1 pre s HW).
Qed.

(** ** C86: later runs and resumed runs *)
(** A run that begins in any state after the warm-up - a second run, a run after an
    exception - returns or has gone through [n] iterations. *)
Theorem C86_later_run_raises_nothing {C P Opt} (W : world X C P Opt) lp ll bl rows interrupts rnd s n_total n_evidence save n :
  exact_model W lp ll bl rows -> exact_draws rows rnd -> returning W lp bl -> save <> Some 0%Z ->
  reachable W (exact_draws rows) interrupts s -> exact_sampler rows s -> s_warmup s = false -> iterations (history_of s) <> 0%nat ->
  (s_have_blobs s = true -> blobs_of (s_cfg s) bl <> None) ->
  (c_sample (s_cfg s) = RWMH -> (2 <= length rows)%nat) ->
  (c_preconditioned (s_cfg s) = true -> c_train_frequency (s_cfg s) <> 0%Z /\ flow_options (c_train (s_cfg s)) /\
    (forall s, flow_bijection (kernel_env_of W s) (length rows)) /\ flow_samples rnd (length rows) /\ proper_latent (length rows) s) ->
  good_solve (length rows) (wd_fit W) -> good_bisect (wd_fit W) -> total_fit (length rows) (wd_fit W) -> good_linalg (length rows) (wd_linalg W) -> total_linalg (length rows) (wd_linalg W) ->
  good_loop W rnd (length rows) (set_targets n_total n_evidence s) ->
  exists halvings, forall bfuel, (halvings <= bfuel)%nat ->
    let outcome := snd (run W {| ra_n_total := n_total; ra_n_evidence := n_evidence; ra_save_every := save; ra_fuel := n; ra_bfuel := bfuel |} rnd s) in
    (exists s', outcome = Ok s') \/ (outcome = Err Diverge /\ gone_through W rnd n (set_targets n_total n_evidence s)).
Proof. exact (fun EM HR RT => again_raises_nothing W lp ll bl rows EM interrupts rnd HR RT s n_total n_evidence save n). Qed.
Print Assumptions C86_later_run_raises_nothing.

(** So does a run of [self] that resumes from a file to which [saved] was saved after
    the warm-up. *)
Theorem C86_resumed_run_raises_nothing {C P Opt} (W : world X C P Opt) lp ll bl rows interrupts rnd saved self n_total n_evidence save n :
  exact_model W lp ll bl rows -> exact_draws rows rnd -> returning W lp bl -> save <> Some 0%Z ->
  reachable W (exact_draws rows) interrupts saved -> reachable W (exact_draws rows) interrupts self -> exact_sampler rows saved -> s_warmup saved = false -> iterations (history_of saved) <> 0%nat ->
  (s_have_blobs saved = true -> blobs_of (s_cfg saved) bl <> None) ->
  (c_sample (s_cfg saved) = RWMH -> (2 <= length rows)%nat) ->
  (c_preconditioned (s_cfg saved) = true -> c_train_frequency (s_cfg saved) <> 0%Z /\ flow_options (c_train (s_cfg saved)) /\
    (forall s, flow_bijection (kernel_env_of W s) (length rows)) /\ flow_samples rnd (length rows) /\ proper_latent (length rows) saved) ->
  good_solve (length rows) (wd_fit W) -> good_bisect (wd_fit W) -> total_fit (length rows) (wd_fit W) -> good_linalg (length rows) (wd_linalg W) -> total_linalg (length rows) (wd_linalg W) ->
  good_loop W rnd (length rows) (set_targets n_total n_evidence (load saved self)) ->
  exists halvings, forall bfuel, (halvings <= bfuel)%nat ->
    let outcome := snd (run_resumed W {| ra_n_total := n_total; ra_n_evidence := n_evidence; ra_save_every := save; ra_fuel := n; ra_bfuel := bfuel |} rnd saved self) in
    (exists s', outcome = Ok s') \/ (outcome = Err Diverge /\ gone_through W rnd n (set_targets n_total n_evidence (load saved self))).
Proof. exact (fun EM HR RT => resumed_raises_nothing W lp ll bl rows EM interrupts rnd HR RT saved self n_total n_evidence save n). Qed.
Print Assumptions C86_resumed_run_raises_nothing.

(** the exact example, resumed by a new sampler after the warm-up, with or without
    preconditioning *)
Example C86_resumed_case pre : exists saved self, reachable world1 (exact_draws rows1) false saved /\ reachable world1 (exact_draws rows1) false self /\ s_warmup self = true /\
  exact_sampler rows1 saved /\ s_warmup saved = false /\ iterations (history_of saved) <> 0%nat /\ (s_have_blobs saved = true -> blobs_of (s_cfg saved) (@None (vec X -> list unit)) <> None) /\
  c_sample (s_cfg saved) = TPCN /\ c_preconditioned (s_cfg saved) = pre /\ c_train_frequency (s_cfg saved) <> 0%Z /\ flow_options (c_train (s_cfg saved)) /\ proper_latent 1 saved /\
  good_loop world1 rand1 1 (set_targets 2 (evidence1 pre) saved) /\ good_loop world1 rand1 1 (set_targets 2 (evidence1 pre) (load saved self)).
Proof.
  destruct (case1_warm pre) as (s0 & s & N0 & N1 & HW). exists s, s0. pose proof HW as [W1 W2 W3 W4 W5 W6 W7].
  destruct (start1 pre) as (s00 & H0 & F1 & _ & F3 & _). rewrite N0 in H0. apply Ok_inj in H0. subst s00.
  assert (R0 : reachable world1 (exact_draws rows1) false s0) by (eapply rc_new; [exact N0|rewrite F1; exact I]).
  split; [exact W1|]. split; [exact R0|]. split; [exact F3|]. split; [exact W2|]. split; [apply W6|]. split; [rewrite (proj1 W7); discriminate|]. split; [rewrite W5; discriminate|].
  split; [apply W3|]. split; [apply W3|]. destruct W4 as (T1 & T2 & T3). split; [exact T2|]. split; [rewrite T1; exact options1_flow|]. split; [intros Q; congruence|].
  assert (K : forall s', reachable world1 (exact_draws rows1) false s' -> s' = load s s0 \/ s' = s -> good_loop world1 rand1 1 (set_targets 2 (evidence1 pre) s')).
  { intros s' R E. apply (good_loop1 pre). destruct W6 as (V1 & V2 & V3 & V4 & V5). pose proof (rc_targets world1 (exact_draws rows1) false 2 (evidence1 pre) s' R).
    destruct E as [-> | ->]; constructor; try assumption; try (destruct W2; constructor; assumption); try (repeat split; assumption); cbn; auto. }
  split; apply K; auto. now apply rc_load.
Qed.

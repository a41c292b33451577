(** * A later run and a resumed run raise nothing *)
From Coq Require Import Reals ZArith List Bool Lia Lra.
From Coq Require Import List.
From Verif Require Import Num PyBase PyBaseFacts XReal Tools Scaler SpecScaler Particles SpecParticles LogLike Geometry SpecGeometry
  Mcmc SpecMcmc SpecBalance SpecChain Flow Sampler XUnit ConfigFacts SpecReach SamplerFacts Reach SpecRun McmcNum ParticleInv HistoryFacts SpecExact HistoryExact LoopFacts LoopExact TraceFacts WarmFacts EvidenceFacts BetaFacts
  SpecPosterior SpecIterate IterateFit SpecLater IterateLater SpecReturn SpecTrainReturn SpecFlowReturn FlowReturn SpecLoopReturn LoopReturn SpecRunReturn RunReturn.
Import ListNotations.
Set Bullet Behavior "Strict Subproofs".
Local Open Scope R_scope.

Lemma last_total {A} (l : list A) : length l <> 0%nat -> exists v, of_option IndexError (py_index l (-1)) = Ok v.
Proof.
  intros H. unfold py_index. change (0 <=? -1)%Z with false. cbv iota. replace (0 <=? -1 + Z.of_nat (length l))%Z with true by (symmetry; apply Z.leb_le; lia).
  destruct (nth_error l (Z.to_nat (-1 + Z.of_nat (length l)))) as [v|] eqn:E; [exists v; reflexivity|]. apply nth_error_None in E. lia.
Qed.

Lemma bind_same {A B} (m : res A) (k : A -> res B) r : (exists v, m = Ok v) -> (forall v, k v = r) -> bind m k = r.
Proof. intros [v ->] H. apply H. Qed.

Section Again.
  Context {C P Opt : Type}.
  Variable W : world X C P Opt.
  Variable lp ll : vec X -> X.
  Variable bl : option (vec X -> list C).
  Variable rows : list (X * X).
  Hypothesis EM : exact_model W lp ll bl rows.
  Variable interrupts : bool.
  Variable rnd : rand X C P.
  Hypothesis HR : exact_draws rows rnd.
  Hypothesis RT : returning W lp bl.
  Notation reachable := (reachable W (exact_draws rows) interrupts).
  Implicit Types s : sampler X C P.
  Notation d := (length rows).
  Let RG := em_regular _ _ _ _ _ EM.

  Theorem again_raises_nothing s n_total n_evidence save n : save <> Some 0%Z -> reachable s -> exact_sampler rows s -> s_warmup s = false -> iterations (history_of s) <> 0%nat ->
    (s_have_blobs s = true -> blobs_of (s_cfg s) bl <> None) ->
    (c_sample (s_cfg s) = RWMH -> (2 <= d)%nat) ->
    (c_preconditioned (s_cfg s) = true -> c_train_frequency (s_cfg s) <> 0%Z /\ flow_options (c_train (s_cfg s)) /\ (forall s, flow_bijection (kernel_env_of W s) d) /\ flow_samples rnd d /\ proper_latent d s) ->
    good_solve d (wd_fit W) -> good_bisect (wd_fit W) -> total_fit d (wd_fit W) -> good_linalg d (wd_linalg W) -> total_linalg d (wd_linalg W) ->
    good_loop W rnd d (set_targets n_total n_evidence s) ->
    exists halvings, forall bfuel, (halvings <= bfuel)%nat ->
      let outcome := snd (run W {| ra_n_total := n_total; ra_n_evidence := n_evidence; ra_save_every := save; ra_fuel := n; ra_bfuel := bfuel |} rnd s) in
      (exists s', outcome = Ok s') \/ (outcome = Err Diverge /\ gone_through W rnd n (set_targets n_total n_evidence s)).
  Proof.
    intros SV H ES Hw NE HB K2 HP GS GB TF GL TL GO.
    set (s0 := set_targets n_total n_evidence s) in *.
    assert (R0 : reachable s0) by now apply rc_targets.
    assert (ES0 : exact_sampler rows s0) by (destruct ES; constructor; assumption).
    assert (W0 : s_warmup s0 = false) by exact Hw. assert (NE0 : iterations (history_of s0) <> 0%nat) by exact NE.
    destruct (loop_raises_nothing W lp ll bl rows EM interrupts rnd s0 n_total HR R0 ES0 W0 NE0 eq_refl HB RT) with (n := n) as [k Hk]; auto.
    { intros Q. destruct (HP Q) as (P1 & P2 & P3 & _ & P5). repeat (split; [assumption|]). exact P5. }
    exists k. intros bfuel Hf. cbv zeta.
    assert (DR : draw_prior W rnd s0 = Ok s0).
    { unfold draw_prior. change (s_prior_samples s0) with (s_prior_samples s). destruct (s_prior_samples s) eqn:E; [reflexivity|].
      pose proof (reachable_pinv W x_undefined x_random X_ieee _ x_unit_interval lp ll bl RG (strictly_inside rows) interrupts s (weaken W interrupts rows s H)) as [_ Pp _ _ _]. rewrite E in Pp. rewrite Pp in NE. now destruct NE. }
    specialize (Hk bfuel Hf save (s_t s) SV). unfold run, run_from. cbn [ra_n_total ra_n_evidence ra_save_every ra_fuel ra_bfuel]. fold s0.
    rewrite DR. cbn [lift tbind]. unfold warmup. rewrite W0. cbn [tbind].
    destruct (smc_loop W n bfuel save (s_t s) rnd s0) as [ev2 r2] eqn:EL. cbn [snd] in Hk.
    destruct Hk as [[s2 ->]|[-> Q]].
    - assert (EL' : snd (smc_loop W n bfuel save (s_t s) rnd s0) = Ok s2) by now rewrite EL.
      assert (L : s2 = s0 \/ later W rnd s0 s2) by (eapply loop_later; eauto).
      destruct (loop_reachable W (exact_draws rows) interrupts n bfuel save (s_t s) rnd s0 R0 HR W0) as [_ R2]. destruct (R2 _ EL') as (R2' & _ & _).
      assert (I2 : exact_sampler rows s2 /\ iterations (history_of s2) <> 0%nat /\ s_cfg s2 = s_cfg s0).
      { destruct L as [->|L]; [auto|]. clear -L ES0 NE0. induction L as [f a b _ _ HI|f a b c _ IH _ HI].
        - split; [eapply iteration_sampler; eauto|]. split; [rewrite (proj2 (proj2 (proj2 (iteration_count _ _ _ _ _ HI)))); discriminate|now apply iteration_frame in HI].
        - destruct (IH ES0 NE0) as (J1 & J2 & J3). split; [eapply iteration_sampler; eauto|]. split; [rewrite (proj2 (proj2 (proj2 (iteration_count _ _ _ _ _ HI)))); discriminate|]. apply iteration_frame in HI as [-> _]. exact J3. }
      destruct I2 as (I2 & I3 & I4).
      destruct (evidence_total W lp ll bl rows EM interrupts rnd RT s2 n_evidence R2' I2 I3) as [s3 E3]; [rewrite (loop_targets _ _ _ _ _ _ _ _ EL'); reflexivity|rewrite I4; intros Q; now apply HP|].
      left. exists s3. cbn [tbind]. rewrite E3. cbn [lift tbind]. destruct save; reflexivity.
    - right. split; [reflexivity|exact Q].
  Qed.

  Theorem resumed_raises_nothing saved self n_total n_evidence save n : save <> Some 0%Z -> reachable saved -> reachable self -> exact_sampler rows saved -> s_warmup saved = false -> iterations (history_of saved) <> 0%nat ->
    (s_have_blobs saved = true -> blobs_of (s_cfg saved) bl <> None) ->
    (c_sample (s_cfg saved) = RWMH -> (2 <= d)%nat) ->
    (c_preconditioned (s_cfg saved) = true -> c_train_frequency (s_cfg saved) <> 0%Z /\ flow_options (c_train (s_cfg saved)) /\ (forall s, flow_bijection (kernel_env_of W s) d) /\ flow_samples rnd d /\ proper_latent d saved) ->
    good_solve d (wd_fit W) -> good_bisect (wd_fit W) -> total_fit d (wd_fit W) -> good_linalg d (wd_linalg W) -> total_linalg d (wd_linalg W) ->
    good_loop W rnd d (set_targets n_total n_evidence (load saved self)) ->
    exists halvings, forall bfuel, (halvings <= bfuel)%nat ->
      let outcome := snd (run_resumed W {| ra_n_total := n_total; ra_n_evidence := n_evidence; ra_save_every := save; ra_fuel := n; ra_bfuel := bfuel |} rnd saved self) in
      (exists s', outcome = Ok s') \/ (outcome = Err Diverge /\ gone_through W rnd n (set_targets n_total n_evidence (load saved self))).
  Proof.
    intros SV H H' ES Hw NE HB K2 HP GS GB TF GL TL GO.
    destruct (again_raises_nothing (load saved self) n_total n_evidence save n SV) as [k Hk]; try assumption; [now apply rc_load|destruct ES; constructor; assumption|].
    exists k. intros bfuel Hf. specialize (Hk bfuel Hf). cbv zeta in Hk |- *. unfold run in Hk. unfold run_resumed.
    match goal with |- context [lift ?m] => assert (SH : m = Ok (load saved self)) end.
    { assert (EV : forall m, In m [length (h_beta (history_of saved)); length (h_calls (history_of saved)); length (h_ess (history_of saved)); length (h_logz (history_of saved)); length (h_logp (history_of saved));
        length (h_logl (history_of saved)); length (h_accept (history_of saved)); length (h_steps (history_of saved)); length (h_efficiency (history_of saved))] -> m <> 0%nat).
      { pose proof (reachable_even W _ interrupts saved H) as EV. unfold even, counts in EV. cbn [repeat] in EV. unfold iterations in NE, EV. injection EV. clear EV. intros. intros Q. subst m.
        match goal with Hm : In _ _ |- _ => rename Hm into HI end. cbn [In] in HI.
        repeat (destruct HI as [HI|HI]; [congruence|]). destruct HI. }
      change (p_past (s_particles (load saved self))) with (history_of saved).
      unfold get_index; cbn [lookup].
      do 9 (apply bind_same; [apply last_total, EV; cbn [In]; tauto|intros _]).
      reflexivity. }
    rewrite SH. cbn [lift tbind].
    destruct (run_from _ _ _ _) as [ev r]. exact Hk.
  Qed.
End Again.

(** * A loop of iterations raises nothing *)
From Coq Require Import Reals ZArith List Bool Lia Lra.
From Coq Require Import List.
From Verif Require Import Num PyBase PyBaseFacts XReal Tools Scaler SpecScaler Particles SpecParticles LogLike Geometry SpecGeometry
  Mcmc SpecMcmc SpecBalance SpecChain Flow Sampler ConfigFacts SpecReach SamplerFacts Reach SpecRun ParticleInv SpecExact HistoryExact SpecEss BisectFacts FiniteHistory LoopFacts LoopExact EvidenceFacts
  SpecPosterior SpecIterate IterateFacts IterateFit IterateTotal SpecLater IterateLater SpecReturn ReturnFacts SpecTrainReturn SpecFlowReturn FlowReturn SpecLoopReturn.
Import ListNotations.
Set Bullet Behavior "Strict Subproofs".
Local Open Scope R_scope.

Section Fuel.
  Context {T C P Opt : Type} {NT : NumT T}.
  Variable W : world T C P Opt.
  Lemma bisect_fuel m (p : past T (list C)) n k f : (k <= f)%nat -> forall a b r, bisect k m p n a b = Ok r -> bisect f m p n a b = Ok r.
  Proof.
    revert f. induction k as [|k IH]; intros f Hf a b r H; [discriminate|]. destruct f as [|f]; [lia|]. cbn [bisect] in *.
    apply bind_ok in H as (ess & -> & H). cbn [bind]. destruct (_ || _)%bool; [exact H|]. destruct (ess <? n)%num; (apply IH; [lia|exact H]).
  Qed.
  Lemma next_beta_fuel m (p : past T (list C)) n k f r : (k <= f)%nat -> next_beta k m p n = Ok r -> next_beta f m p n = Ok r.
  Proof.
    intros Hf H. unfold next_beta in *. apply bind_ok in H as (b0 & -> & H). cbn [bind]. apply bind_ok in H as (e0 & -> & H). cbn [bind]. apply bind_ok in H as (e1 & -> & H). cbn [bind].
    destruct (_ <=? _)%num; [exact H|]. destruct (_ <=? _)%num; [exact H|]. apply bind_ok in H as (be & Hb & H). now rewrite (bisect_fuel _ _ _ _ _ Hf _ _ _ Hb).
  Qed.
  Lemma reweight_fuel k f (s s1 : sampler T C P) : (k <= f)%nat -> reweight k s = Ok s1 -> reweight f s = Ok s1.
  Proof.
    intros Hf H. unfold reweight in *. apply bind_ok in H as (c & -> & H). cbn [bind]. apply bind_ok in H as (r & Hr & H). now rewrite (next_beta_fuel _ _ _ _ _ _ Hf Hr).
  Qed.
  Lemma iteration_fuel k f R (s s' : sampler T C P) : (k <= f)%nat -> iteration W k R s = Ok s' -> iteration W f R s = Ok s'.
  Proof.
    intros Hf H. unfold iteration in *. apply bind_ok in H as (s1 & H1 & H). now rewrite (reweight_fuel _ _ _ _ Hf H1).
  Qed.
End Fuel.

Section Loop.
  Context {C P Opt : Type}.
  Variable W : world X C P Opt.
  Variable lp ll : vec X -> X.
  Variable bl : option (vec X -> list C).
  Variable rows : list (X * X).
  Hypothesis EM : exact_model W lp ll bl rows.
  Variable interrupts : bool.
  Variable rnd : rand X C P.
  Notation reachable := (reachable W (exact_draws rows) interrupts).
  Implicit Types s : sampler X C P.
  Notation d := (length rows).
  Let RG := em_regular _ _ _ _ _ EM.
  Let HN : forall x, strictly_inside rows x -> ll x <> NaN.
  Proof. intros x Hx E. destruct (em_inside _ _ _ _ _ EM x Hx) as [_ Q]. rewrite E in Q. discriminate. Qed.

  Lemma termination_decided s n : reachable s -> iterations (history_of s) <> 0%nat -> s_n_total s = Some n -> exists b, not_termination s = Ok b.
  Proof.
    intros H NE NT. pose proof (current_present W _ interrupts s H NE) as NC. destruct (s_current s) as [c|] eqn:Ec; [|easy].
    destruct (exact_past W lp ll bl RG _ HN (em_bounded _ _ _ _ _ EM) interrupts s (weaken W interrupts rows s H) NE) as (ls & bs & zs & HH & _).
    unfold not_termination. rewrite Ec, NT. eexists. refine (eq_trans (f_equal (fun m => bind m _) (ess_at_fin (history_of s) ls bs zs HH (c_metric (s_cfg s)) 1)) _). cbn [bind of_option]. reflexivity.
  Qed.

  Theorem loop_raises_nothing s N : exact_draws rows rnd -> reachable s -> exact_sampler rows s -> s_warmup s = false -> iterations (history_of s) <> 0%nat -> s_n_total s = Some N ->
    (s_have_blobs s = true -> blobs_of (s_cfg s) bl <> None) -> returning W lp bl ->
    (c_sample (s_cfg s) = RWMH -> (2 <= d)%nat) ->
    (c_preconditioned (s_cfg s) = true -> c_train_frequency (s_cfg s) <> 0%Z /\ flow_options (c_train (s_cfg s)) /\ (forall s, flow_bijection (kernel_env_of W s) d) /\ proper_latent d s) ->
    good_solve d (wd_fit W) -> good_bisect (wd_fit W) -> total_fit d (wd_fit W) -> good_linalg d (wd_linalg W) -> total_linalg d (wd_linalg W) -> good_loop W rnd d s ->
    forall n, exists halvings, forall bfuel, (halvings <= bfuel)%nat -> forall save t0, save <> Some 0%Z ->
      (exists s', snd (smc_loop W n bfuel save t0 rnd s) = Ok s') \/ (snd (smc_loop W n bfuel save t0 rnd s) = Err Diverge /\ gone_through W rnd n s).
  Proof.
    intros HR H ES Hw NE NT HB RT K2 HP GS GB TF GL TL GO n.
    (* the invariant *)
    pose (inv := fun s' => reachable s' /\ exact_sampler rows s' /\ s_warmup s' = false /\ iterations (history_of s') <> 0%nat /\ s_n_total s' = Some N /\ s_have_blobs s' = s_have_blobs s /\
      s_cfg s' = s_cfg s /\ (c_preconditioned (s_cfg s) = true -> proper_latent d s') /\ (s' = s \/ later W rnd s s')).
    assert (STEP : forall s', inv s' -> not_termination s' = Ok true -> exists k s'', (forall f, (k <= f)%nat -> iteration W f rnd s' = Ok s'') /\ inv s'' /\ iterations (history_of s'') = S (iterations (history_of s'))).
    { intros s' (R1 & E1 & W1 & N1 & T1 & B1 & C1 & L1 & I1) HT.
      assert (IT : exists k s'', iteration W k rnd s' = Ok s'' /\ (c_preconditioned (s_cfg s) = true -> proper_latent d s'')).
      { assert (HB' : s_have_blobs s' = true -> blobs_of (s_cfg s') bl <> None) by (rewrite B1, C1; exact HB).
        destruct (c_preconditioned (s_cfg s)) eqn:Ep.
        - destruct (HP eq_refl) as (P1 & P2 & P3 & P4).
          destruct (flow_returns W lp ll bl rows EM interrupts s' R1 E1 N1 HB' RT) as [k Hk]; rewrite ?C1; auto. destruct (Hk k (le_n k)) as (s1 & H1 & Hi). rewrite <- C1 in Ep.
          assert (C2 : s_cfg s1 = s_cfg s').
          { apply reweight_facts in H1 as (c & beta & logz & ess & w0 & neff & w1 & idx & w2 & lf & u & x & ldj & logl & logp & b & c1 & _ & _ & _ & _ & _ & _ & _ & _ & _ & _ & _ & _ & ->). reflexivity. }
          destruct (GO k s' s1 I1 HT H1) as [G1 G2 G3 G4 (normal & uniform & G5) (gamma & G6)]. rewrite C2 in *. destruct (G2 Ep) as [G2a G2b].
          destruct (Hi rnd normal uniform gamma G1 G2a G2b G3 G4 G5 G6) as (s'' & Q1 & Q2). eauto.
        - destruct (plain_returns W lp ll bl rows EM interrupts s' R1 E1 N1 HB' RT) as [k Hk]; rewrite ?C1; auto. destruct (Hk k (le_n k)) as (s1 & H1 & Hi).
          assert (C2 : s_cfg s1 = s_cfg s').
          { apply reweight_facts in H1 as (c & beta & logz & ess & w0 & neff & w1 & idx & w2 & lf & u & x & ldj & logl & logp & b & c1 & _ & _ & _ & _ & _ & _ & _ & _ & _ & _ & _ & _ & ->). reflexivity. }
          destruct (GO k s' s1 I1 HT H1) as [G1 _ G3 G4 (normal & uniform & G5) (gamma & G6)]. rewrite C2 in *.
          destruct (Hi rnd normal uniform gamma G1 G3 G4 G5 G6) as (s'' & Q1). exists k, s''. split; [exact Q1|discriminate]. }
      destruct IT as (k & s'' & HI & PL). exists k, s''. split; [intros f Hf; now apply (iteration_fuel W k)|].
      assert (IC : iterations (history_of s'') = S (iterations (history_of s')) /\ s_have_blobs s'' = s_have_blobs s').
      { pose proof HI as Q. apply iteration_facts in Q as (s1 & s2 & s3 & s4 & c4 & H1 & H2 & H3 & H4 & Hc & ->).
        apply reweight_facts in H1 as (c & beta & logz & ess & w0 & neff & w1 & idx & w2 & lf & u & x & ldj & logl & logp & b & cn & _ & _ & _ & _ & _ & _ & _ & _ & _ & _ & _ & Ecn & ->).
        apply train_facts in H2 as (c2 & now & fl & un & ug & tg & _ & _ & _ & ->).
        apply resample_facts in H3 as (c3 & w3 & idx3 & u3 & x3 & ldj3 & logl3 & logp3 & b3 & _ & _ & _ & _ & _ & _ & _ & _ & _ & ->).
        apply mutate_facts in H4 as (c5 & b5 & ks & res & c' & _ & _ & _ & _ & _ & _ & ->). split; [|reflexivity].
        unfold iterations, history_of. cbn [with_particles s_particles particles_update p_past]. rewrite update_items. cbn [h_u]. rewrite app_length. cbn [length]. apply Nat.add_1_r. }
      destruct IC as [IC HB2]. split; [|exact IC]. pose proof (iteration_frame _ _ _ _ _ HI) as (F1 & F2 & _).
      split; [eapply rc_iteration; eauto|]. split; [eapply iteration_sampler; eauto|]. split; [congruence|]. split; [rewrite IC; discriminate|].
      split; [rewrite (iteration_total _ _ _ _ _ HI); exact T1|]. split; [congruence|]. split; [congruence|]. split; [exact PL|]. right.
      destruct I1 as [->|I1]; [eapply later_one; eauto|eapply later_more; eauto]. }
    assert (I0 : inv s) by (unfold inv; repeat (split; [assumption || reflexivity|]); split; [intros Q; now apply HP|now left]).
    cut (forall m s', inv s' -> exists halvings, forall bfuel, (halvings <= bfuel)%nat -> forall save t0, save <> Some 0%Z ->
      (exists s'', snd (smc_loop W m bfuel save t0 rnd s') = Ok s'') \/
      (snd (smc_loop W m bfuel save t0 rnd s') = Err Diverge /\ exists s'', (s'' = s \/ later W rnd s s'') /\ iterations (history_of s'') = (iterations (history_of s') + m)%nat /\ not_termination s'' = Ok true)).
    { intros Q. exact (Q n s I0). }
    induction m as [|m IH]; intros s' I1; pose proof I1 as (R1 & _ & _ & N1 & T1 & _ & _ & _ & L1); destruct (termination_decided s' N R1 N1 T1) as [[|] HT].
    - exists 0%nat. intros bfuel _ save t0 _. right. cbn [smc_loop]. rewrite HT. split; [reflexivity|]. exists s'. split; [exact L1|]. split; [now rewrite Nat.add_0_r|exact HT].
    - exists 0%nat. intros bfuel _ save t0 _. left. cbn [smc_loop]. rewrite HT. eexists. reflexivity.
    - destruct (STEP s' I1 HT) as (k & s'' & HI & I2 & IC). destruct (IH s'' I2) as [k2 Hk2]. exists (Nat.max k k2). intros bfuel Hf save t0 SV. cbn [smc_loop]. rewrite HT.
      assert (CK : exists evs, checkpoint save t0 s' = (evs, Ok s')).
      { unfold checkpoint. destruct save as [z|]; [|eauto]. destruct (z =? 0)%Z eqn:Z0; [apply Z.eqb_eq in Z0; congruence|]. destruct (_ && _)%bool; eauto. }
      destruct CK as [evs ->]. cbn [tbind fst snd]. rewrite HI by lia. cbn [lift tbind fst snd].
      specialize (Hk2 bfuel ltac:(lia) save t0 SV).
      destruct (smc_loop W m bfuel save t0 rnd s'') as [ev r] eqn:EL. cbn [fst snd tbind] in *.
      destruct Hk2 as [[s3 Hk2]|[Hk2 (s3 & Q1 & Q2 & Q3)]].
      + left. exists s3. subst r. reflexivity.
      + right. subst r. split; [reflexivity|]. exists s3. split; [exact Q1|]. split; [rewrite Q2, IC; lia|exact Q3].
    - exists 0%nat. intros bfuel _ save t0 _. left. cbn [smc_loop]. rewrite HT. eexists. reflexivity.
  Qed.
End Loop.

(** * Runs only visit reachable states *)
From Coq Require Import ZArith List Bool Lia.
From Verif Require Import Num PyBase PyBaseFacts Tools Scaler Particles LogLike Geometry Mcmc SpecMcmc Flow Sampler ConfigFacts SpecReach SamplerFacts.
Import ListNotations.

Section Reach.
  Context {T C P Opt : Type} {NT : NumT T}.
  Notation B := (list C).
  Variable W : world T C P Opt.
  Variable fair : rand T C P -> Prop.
  Variable interrupts : bool.
  Notation reachable := (reachable W fair interrupts).
  Implicit Types s : sampler T C P.

  (** what does not change *)
  Lemma batch_frame R i s s' : warmup_batch W R i s = Ok s' -> s_cfg s' = s_cfg s /\ s_warmup s' = s_warmup s /\ s_scaler s' = s_scaler s.
  Proof.
    intros H. apply warmup_facts in H as (ps & x0 & u0 & xi & ldj0 & logp0 & logl0 & b0 & x & u & ldj & logp & logl & b & c & _ & _ & _ & _ & _ & _ & _ & _ & ->).
    auto.
  Qed.
  Lemma draw_frame R s s' : draw_prior W R s = Ok s' -> s_cfg s' = s_cfg s /\ s_warmup s' = s_warmup s.
  Proof. intros H. apply draw_facts in H as [[_ ->]|[_ (ps & sc & _ & _ & ->)]]; auto. Qed.
  Lemma iteration_frame fuel R s s' : iteration W fuel R s = Ok s' -> s_cfg s' = s_cfg s /\ s_warmup s' = s_warmup s /\ s_scaler s' = s_scaler s.
  Proof.
    intros H. apply iteration_facts in H as (s1 & s2 & s3 & s4 & c4 & H1 & H2 & H3 & H4 & _ & ->).
    apply reweight_facts in H1 as (c & beta & logz & ess & w0 & neff & w1 & idx & w2 & lf & u & x & ldj & logl & logp & b & c1 & _ & _ & _ & _ & _ & _ & _ & _ & _ & _ & _ & _ & ->).
    apply train_facts in H2 as (c2 & now & fl & un & ug & tg & _ & _ & _ & ->).
    apply resample_facts in H3 as (c3 & w3 & idx3 & u3 & x3 & ldj3 & logl3 & logp3 & b3 & _ & _ & _ & _ & _ & _ & _ & _ & _ & ->).
    apply mutate_facts in H4 as (c5 & b5 & ks & res & c' & _ & _ & _ & _ & _ & _ & ->). auto.
  Qed.
  Lemma iteration_reweighted fuel R s s' : iteration W fuel R s = Ok s' -> exists s1, reweight fuel s = Ok s1.
  Proof. intros H. apply iteration_facts in H as (s1 & ? & ? & ? & ? & H1 & _). eauto. Qed.

  (** Induction phase by phase: [Inv] holds between phases, [C1], [C2], [C3] of the
      current particles after reweighting, resampling and mutation.  Every phase
      starts in a reachable state. *)
  Theorem reach_phases_from (Inv C1 C2 C3 : sampler T C P -> Prop) :
    (forall o s, new_sampler W o = Ok s -> maps (s_pool s) -> Inv s) ->
    (forall n m s, Inv s -> Inv (set_targets n m s)) ->
    (forall R s s', reachable s -> Inv s -> fair R -> draw_prior W R s = Ok s' -> Inv s') ->
    (forall R i s s', reachable s -> Inv s -> fair R -> s_warmup s = true -> (i < n_batches (s_cfg s))%nat -> warmup_batch W R i s = Ok s' -> Inv s') ->
    (forall s, Inv s -> s_warmup s = true -> Inv (end_warmup s)) ->
    (forall fuel s s1, reachable s -> Inv s -> s_warmup s = false -> reweight fuel s = Ok s1 -> Inv s1 /\ C1 s1) ->
    (forall R s s2, reachable s -> Inv s -> C1 s -> s_warmup s = false -> train W R s = Ok s2 -> Inv s2 /\ C1 s2) ->
    (forall R s s3, reachable s -> Inv s -> C1 s -> fair R -> s_warmup s = false -> resample R s = Ok s3 -> Inv s3 /\ C2 s3) ->
    (forall R s s4, reachable s -> Inv s -> C2 s -> fair R -> s_warmup s = false -> mutate W R s = Ok s4 -> Inv s4 /\ C3 s4) ->
    (forall s c, Inv s -> C3 s -> s_warmup s = false -> s_current s = Some c -> Inv (with_particles s (particles_update (s_particles s) (items c)))) ->
    (forall R s s', reachable s -> Inv s -> fair R -> s_warmup s = false -> final_evidence W R s = Ok s' -> Inv s') ->
    (forall s, Inv s -> Inv (snd (results_of s))) ->
    (forall saved self, Inv saved -> Inv self -> Inv (load saved self)) ->
    (forall s p, Inv s -> C1 s -> s_warmup s = false -> Inv (in_training s p)) ->
    forall s, reachable s -> Inv s.
  Proof.
    intros Hnew Htgt Hdraw Hbatch Hend Hrw Htr Hrs Hmu Hst Hev Hres Hload Hit s H.
    assert (Frw : forall fuel s s1, reweight fuel s = Ok s1 -> s_warmup s1 = s_warmup s).
    { intros fuel s0 s1 H1. apply reweight_facts in H1 as (c & beta & logz & ess & w0 & neff & w1 & idx & w2 & lf & u & x & ldj & logl & logp & b & c1 & _ & _ & _ & _ & _ & _ & _ & _ & _ & _ & _ & _ & ->). reflexivity. }
    assert (Ftr : forall R s s1, train W R s = Ok s1 -> s_warmup s1 = s_warmup s).
    { intros R s0 s1 H2. apply train_facts in H2 as (c2 & now & fl & un & ug & tg & _ & _ & _ & ->). reflexivity. }
    assert (Frs : forall R s s1, resample R s = Ok s1 -> s_warmup s1 = s_warmup s).
    { intros R s0 s1 H3. apply resample_facts in H3 as (c3 & w3 & idx3 & u3 & x3 & ldj3 & logl3 & logp3 & b3 & _ & _ & _ & _ & _ & _ & _ & _ & _ & ->). reflexivity. }
    assert (Fmu : forall R s s1, mutate W R s = Ok s1 -> s_warmup s1 = s_warmup s).
    { intros R s0 s1 H4. apply mutate_facts in H4 as (c5 & b5 & ks & res & c' & _ & _ & _ & _ & _ & _ & ->). reflexivity. }
    induction H as [o s H Hp|n m s _ IH|R s s' Hr IH HR H|R i s s' Hr IH HR Hw Hi H|s _ IH Hw|fuel R s s' Hr IH HR Hw Hnt H
      |R s s' Hr IH HR Hw H|s _ IH|saved self _ IH1 _ IH2|fuel s s1 Hr IH Hw Hnt H|fuel R s s1 s2 Hr IH HR Hw Hnt H H2|fuel R s s1 s2 s3 Hr IH HR Hw Hnt H H2 H3|fuel s s1 c p _ Hr IH Hw Hnt H Hc Ht]; eauto.
    - apply iteration_facts in H as (s1 & s2 & s3 & s4 & c4 & H1 & H2 & H3 & H4 & Hc & ->).
      assert (R1 : reachable s1) by (exact (rc_reweighted W fair interrupts fuel s s1 Hr Hw Hnt ltac:(assumption))). assert (R2 : reachable s2) by (exact (rc_trained W fair interrupts fuel R s s1 s2 Hr HR Hw Hnt ltac:(assumption) H2)).
      assert (R3 : reachable s3) by (exact (rc_resampled W fair interrupts fuel R s s1 s2 s3 Hr HR Hw Hnt ltac:(assumption) H2 H3)).
      destruct (Hrw _ _ _ Hr IH Hw H1) as [I1 J1]. pose proof (Frw _ _ _ H1) as W1. rewrite Hw in W1.
      destruct (Htr _ _ _ R1 I1 J1 W1 H2) as [I2 J2]. pose proof (Ftr _ _ _ H2) as W2. rewrite W1 in W2.
      destruct (Hrs _ _ _ R2 I2 J2 HR W2 H3) as [I3 J3]. pose proof (Frs _ _ _ H3) as W3. rewrite W2 in W3.
      destruct (Hmu _ _ _ R3 I3 J3 HR W3 H4) as [I4 J4]. pose proof (Fmu _ _ _ H4) as W4. rewrite W3 in W4.
      apply Hst; auto.
    - now apply (Hrw _ _ _ Hr IH Hw H).
    - assert (R1 : reachable s1) by (exact (rc_reweighted W fair interrupts fuel s s1 Hr Hw Hnt ltac:(assumption))).
      destruct (Hrw _ _ _ Hr IH Hw H) as [I1 J1]. pose proof (Frw _ _ _ H) as W1. rewrite Hw in W1. now apply (Htr _ _ _ R1 I1 J1 W1 H2).
    - assert (R1 : reachable s1) by (exact (rc_reweighted W fair interrupts fuel s s1 Hr Hw Hnt ltac:(assumption))). assert (R2 : reachable s2) by (exact (rc_trained W fair interrupts fuel R s s1 s2 Hr HR Hw Hnt ltac:(assumption) H2)).
      destruct (Hrw _ _ _ Hr IH Hw H) as [I1 J1]. pose proof (Frw _ _ _ H) as W1. rewrite Hw in W1.
      destruct (Htr _ _ _ R1 I1 J1 W1 H2) as [I2 J2]. pose proof (Ftr _ _ _ H2) as W2. rewrite W1 in W2. now apply (Hrs _ _ _ R2 I2 J2 HR W2 H3).
    - destruct (Hrw _ _ _ Hr IH Hw H) as [I1 J1]. pose proof (Frw _ _ _ H) as W1. rewrite Hw in W1. now apply Hit.
  Qed.
  Theorem reach_phases (Inv C1 C2 C3 : sampler T C P -> Prop) :
    (forall o s, new_sampler W o = Ok s -> maps (s_pool s) -> Inv s) ->
    (forall n m s, Inv s -> Inv (set_targets n m s)) ->
    (forall R s s', Inv s -> fair R -> draw_prior W R s = Ok s' -> Inv s') ->
    (forall R i s s', Inv s -> fair R -> s_warmup s = true -> (i < n_batches (s_cfg s))%nat -> warmup_batch W R i s = Ok s' -> Inv s') ->
    (forall s, Inv s -> s_warmup s = true -> Inv (end_warmup s)) ->
    (forall fuel s s1, Inv s -> s_warmup s = false -> reweight fuel s = Ok s1 -> Inv s1 /\ C1 s1) ->
    (forall R s s2, Inv s -> C1 s -> s_warmup s = false -> train W R s = Ok s2 -> Inv s2 /\ C1 s2) ->
    (forall R s s3, Inv s -> C1 s -> fair R -> s_warmup s = false -> resample R s = Ok s3 -> Inv s3 /\ C2 s3) ->
    (forall R s s4, Inv s -> C2 s -> fair R -> s_warmup s = false -> mutate W R s = Ok s4 -> Inv s4 /\ C3 s4) ->
    (forall s c, Inv s -> C3 s -> s_warmup s = false -> s_current s = Some c -> Inv (with_particles s (particles_update (s_particles s) (items c)))) ->
    (forall R s s', Inv s -> fair R -> s_warmup s = false -> final_evidence W R s = Ok s' -> Inv s') ->
    (forall s, Inv s -> Inv (snd (results_of s))) ->
    (forall saved self, Inv saved -> Inv self -> Inv (load saved self)) ->
    (forall s p, Inv s -> C1 s -> s_warmup s = false -> Inv (in_training s p)) ->
    forall s, reachable s -> Inv s.
  Proof.
    intros Hnew Htgt Hdraw Hbatch Hend Hrw Htr Hrs Hmu Hst Hev Hres Hload Hit.
    apply (reach_phases_from Inv C1 C2 C3); auto.
    - intros R s s' _. apply Hdraw.
    - intros R i s s' _. apply Hbatch.
    - intros fuel s s1 _. apply Hrw.
    - intros R s s2 _. apply Htr.
    - intros R s s3 _. apply Hrs.
    - intros R s s4 _. apply Hmu.
    - intros R s s' _. apply Hev.
  Qed.

  (** events and result of a computation *)
  Definition all_good (Q Q' : sampler T C P -> Prop) (m : traced T C P) : Prop :=
    (forall e, In e (fst m) -> Q (ev_state e)) /\ (forall s, snd m = Ok s -> Q' s).
  Lemma all_good_bind Q Q' Q'' m f : all_good Q Q' m -> (forall s, Q' s -> all_good Q Q'' (f s)) -> all_good Q Q'' (tbind m f).
  Proof.
    intros [H1 H2] Hf. unfold tbind. destruct m as [evs [s|e]]; cbn [fst snd] in *.
    - specialize (Hf s (H2 s eq_refl)). destruct (f s) as [evs' r]. destruct Hf as [F1 F2]. cbn [fst snd] in *. split; cbn [fst snd]; auto.
      intros e He. apply in_app_iff in He as [He|He]; auto.
    - split; cbn [fst snd]; [auto|discriminate].
  Qed.
  Lemma all_good_lift (Q Q' : sampler T C P -> Prop) m : (forall s, m = Ok s -> Q' s) -> all_good Q Q' (lift m).
  Proof. intros H. split; cbn [lift fst snd]; [easy|auto]. Qed.
  Lemma all_good_checkpoint (Q Q' : sampler T C P -> Prop) k t0 s : Q s -> Q' s -> all_good Q Q' (checkpoint k t0 s).
  Proof.
    intros H H'. unfold checkpoint. destruct k as [k|]; [|split; cbn; [easy|congruence]].
    destruct (k =? 0)%Z; [split; cbn; [easy|discriminate]|].
    destruct (_ && _); split; cbn; try easy; try congruence. intros e [<-|[]]. exact H.
  Qed.

  Lemma warmup_reachable save t0 R s : reachable s -> fair R ->
    all_good reachable (fun s' => reachable s' /\ s_warmup s' = false) (warmup W save t0 R s).
  Proof.
    intros Hs HR. unfold warmup. destruct (s_warmup s) eqn:Ew; [|split; cbn; [easy|intros ? [= <-]; auto]].
    destruct (Nat.eqb _ _); [split; cbn; [easy|discriminate]|].
    apply all_good_bind with (Q' := fun s' => reachable s' /\ s_warmup s' = true).
    2:{ intros s' [H1 H2]. split; cbn; [easy|]. intros ? [= <-]. split; [now apply rc_end|reflexivity]. }
    assert (HN : (0 + n_batches (s_cfg s) <= n_batches (s_cfg s))%nat) by lia.
    set (cfg := s_cfg s) in *. assert (Ec : s_cfg s = cfg) by reflexivity. clearbody cfg.
    revert HN. generalize 0%nat as i. generalize (n_batches cfg) at 1 3 as k. intros k. revert s Hs Ew Ec.
    induction k as [|k IH]; intros s Hs Ew Ec i HN; cbn [warmup_loop]; [split; cbn; [easy|intros ? [= <-]; auto]|].
    apply all_good_bind with (Q' := fun s' => s' = s); [apply all_good_checkpoint; auto|]. intros ? ->.
    apply all_good_bind with (Q' := fun s' => reachable s' /\ s_warmup s' = true /\ s_cfg s' = cfg).
    - apply all_good_lift. intros s' H. pose proof (batch_frame _ _ _ _ H) as (F1 & F2 & _). split; [|split; congruence].
      eapply rc_batch; [exact Hs|exact HR|exact Ew| |exact H]. rewrite Ec. lia.
    - intros s' (H1 & H2 & H3). apply IH; auto. lia.
  Qed.
  Lemma loop_reachable fuel bfuel save t0 R s : reachable s -> fair R -> s_warmup s = false ->
    all_good reachable (fun s' => reachable s' /\ s_warmup s' = false /\ not_termination s' = Ok false) (smc_loop W fuel bfuel save t0 R s).
  Proof.
    intros Hs HR. revert s Hs. induction fuel as [|fuel IH]; intros s Hs Ew; cbn [smc_loop];
      (destruct (not_termination s) as [[|]|] eqn:E; [|split; cbn; [easy|intros ? [= <-]; auto]|split; cbn; [easy|discriminate]]).
    { split; cbn; [easy|discriminate]. }
    apply all_good_bind with (Q' := fun s' => s' = s); [apply all_good_checkpoint; auto|]. intros ? ->.
    apply all_good_bind with (Q' := fun s' => reachable s' /\ s_warmup s' = false).
    - apply all_good_lift. intros s' H. pose proof (iteration_frame _ _ _ _ H) as (_ & F & _). split; [|congruence].
      eapply rc_iteration; eauto.
    - intros s' [H1 H2]. now apply IH.
  Qed.

  Lemma run_from_reachable a R s : reachable s -> fair R ->
    all_good reachable (fun s' => reachable s' /\ s_warmup s' = false) (run_from W a R s).
  Proof.
    intros Hs HR. unfold run_from.
    apply all_good_bind with (Q' := reachable).
    { apply all_good_lift. intros s' H. eapply rc_prior; [|exact HR|exact H]. now apply rc_targets. }
    intros s0 H0. apply all_good_bind with (Q' := fun s' => reachable s' /\ s_warmup s' = false); [now apply warmup_reachable|].
    intros s1 [H1 W1]. eapply all_good_bind; [now apply loop_reachable|].
    intros s2 (H2 & W2 & _). apply all_good_bind with (Q' := fun s' => reachable s' /\ s_warmup s' = false).
    { apply all_good_lift. intros s' H. split; [eapply rc_evidence; eauto|].
      apply evidence_facts in H as (? & ? & ? & ? & ? & ? & _ & -> & _). exact W2. }
    intros s3 [H3 W3]. destruct (ra_save_every a); split; cbn; try easy; try (intros ? [= <-]; auto). intros e [<-|[]]. exact H3.
  Qed.

  (** Whatever run returns, and whatever it writes to a file, is reachable. *)
  Theorem run_reachable a R s evs r : reachable s -> fair R -> run W a R s = (evs, r) ->
    (forall e, In e evs -> reachable (ev_state e)) /\ (forall s', r = Ok s' -> reachable s').
  Proof.
    intros Hs HR H. pose proof (run_from_reachable a R s Hs HR) as [A1 A2]. unfold run in H. rewrite H in *. cbn [fst snd] in *.
    split; auto. intros s' E. now apply A2.
  Qed.
  Theorem resumed_reachable a R saved self evs r : reachable saved -> reachable self -> fair R ->
    run_resumed W a R saved self = (evs, r) ->
    (forall e, In e evs -> reachable (ev_state e)) /\ (forall s', r = Ok s' -> reachable s').
  Proof.
    intros Hs Hl HR H. assert (A : all_good reachable (fun s' => reachable s' /\ s_warmup s' = false) (run_resumed W a R saved self)).
    { unfold run_resumed. apply all_good_bind with (Q' := reachable).
      - apply all_good_lift. intros s' E. do 9 (apply bind_ok in E as [? [_ E]]). apply Ok_inj in E. subst s'. now apply rc_load.
      - intros. now apply run_from_reachable. }
    rewrite H in A. destruct A as [A1 A2]. cbn [fst snd] in *. split; auto. intros s' E. now apply A2.
  Qed.
End Reach.

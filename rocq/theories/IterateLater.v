(** * The proposal distribution throughout a run *)
From Coq Require Import Reals ZArith List Bool Lia Lra.
From Coq Require Import List.
From Verif Require Import Num PyBase PyBaseFacts XReal Tools BisectFacts Scaler SpecScaler Particles LogLike Geometry SpecGeometry GeometryFacts Mcmc SpecMcmc
  SpecBalance SpecChain Flow Sampler ConfigFacts SpecReach SamplerFacts Reach LoopFacts EvidenceFacts SpecRun SpecExact HistoryExact SpecIterate IterateFacts IterateFit SpecLater.
Import ListNotations.
Set Bullet Behavior "Strict Subproofs".
Local Open Scope R_scope.

Section Later.
  Context {C P Opt : Type}.
  Variable W : world X C P Opt.
  Variable lp ll : vec X -> X.
  Variable bl : option (vec X -> list C).
  Variable rows : list (X * X).
  Hypothesis EM : exact_model W lp ll bl rows.
  Variable interrupts : bool.
  Variable rnd : rand X C P.
  Notation reachable := (reachable W (exact_draws rows) interrupts).
  Notation d := (length rows).
  Implicit Types s : sampler X C P.
  Notation real_geometry := (real_geometry rows).

  (** what a kernel that returned was given *)
  Lemma used_fit fuel R s s' : iteration W fuel R s = Ok s' -> good_linalg d (wd_linalg W) -> real_geometry (geometry_in_use s') -> proper_proposal W d s'.
  Proof.
    intros HI GL RG'. apply iteration_facts in HI as (s1 & s2 & s3 & s4 & c4 & _ & _ & _ & H4 & _ & Es').
    apply mutate_facts in H4 as (c5 & b5 & ks & res & c' & _ & _ & _ & Hk & _ & _ & Es4).
    assert (RG3 : real_geometry (geometry_in_use s3)) by (subst s' s4; exact RG').
    pose proof (real_fit rows (kernel_env_of W s3) (kernel_of (s_cfg s3)) (geometry_in_use s3) _ _ _ _ GL RG3 Hk) as F.
    unfold proper_proposal. subst s' s4. cbn [with_particles s_cfg]. unfold kernel_of in F. destruct (c_preconditioned (s_cfg s3)), (c_sample (s_cfg s3)); exact F.
  Qed.
  (** the geometry of the latent space, if the flow has been trained *)
  Definition latent_fitted s : Prop := c_preconditioned (s_cfg s) = true -> s_untrained s = false -> real_geometry (s_theta_geometry s).
  Lemma fitted_again fuel R s s' : reachable s -> exact_sampler rows s -> iteration W fuel R s = Ok s' ->
    good_solve d (wd_fit W) -> good_bisect (wd_fit W) -> (2 <= kept s')%nat -> (c_preconditioned (s_cfg s) = true -> flow_bijection (kernel_env_of W s') d) ->
    latent_fitted s -> latent_fitted s' /\ real_geometry (geometry_in_use s').
  Proof.
    intros H ES HI GS GB HK HB HL. apply iteration_facts in HI as (s1 & s2 & s3 & s4 & c4 & H1 & H2 & H3 & H4 & Hc & Es').
    pose proof H1 as H1'. apply reweight_facts in H1' as (c & beta & logz & ess & w0' & neff' & w1' & idx' & w2' & lf' & u & x & ldj & logl & logp & b & cn & _ & _ & _ & _ & _ & _ & _ & _ & _ & _ & _ & Ecn & Es1).
    pose proof H2 as H2'. apply train_facts in H2' as (c2 & now & fl & un & ug & tg & Ec & Hn & HF & Es2). rewrite Es1 in Ec. cbn [s_current] in Ec. injection Ec as <-.
    pose proof H3 as H3'. apply resample_facts in H3' as (c3 & w3 & idx3 & u3 & x3 & ldj3 & logl3 & logp3 & b3 & Ec3 & Ew3 & _ & _ & _ & _ & _ & _ & _ & Es3). rewrite Es2 in Ec3. cbn [s_current] in Ec3. injection Ec3 as <-.
    pose proof H4 as H4'. apply mutate_facts in H4' as (c5 & b5 & ks & res & c' & Ec5 & _ & _ & _ & _ & Ec' & Es4). rewrite Es3 in Ec5. cbn [s_current with_current] in Ec5. injection Ec5 as <-.
    assert (K2 : kept s' = kept s2) by (subst s' s4 s2; unfold kept; cbn [with_particles s_current]; subst c'; reflexivity).
    assert (EC1 : s_cfg s1 = s_cfg s) by (now subst s1).
    assert (EG : geometry_in_use s' = geometry_in_use s2) by (subst s' s4 s3; reflexivity).
    assert (EL : latent_fitted s2 -> latent_fitted s') by (subst s' s4 s3; exact (fun x => x)).
    assert (EF : flow_bijection (kernel_env_of W s') d -> flow_bijection (kernel_env_of W s2) d) by (subst s' s4 s3; exact (fun x => x)).
    assert (E2 : s_cfg s2 = s_cfg s) by (rewrite Es2; exact EC1).
    cut (latent_fitted s2 /\ real_geometry (geometry_in_use s2)); [intros [A B]; split; [auto|now rewrite EG]|].
    destruct (c_preconditioned (s_cfg s)) eqn:Ep.
    - destruct now.
      + assert (RG2 : real_geometry (geometry_in_use s2)).
        { apply (trained_geometry W lp ll bl rows EM interrupts fuel R s s1 s2 H ES H1 H2 GS GB); [now rewrite <- K2|]. intros _. split; [|auto].
          intros c0 Ec0. rewrite Es1 in Ec0. cbn [s_current] in Ec0. injection Ec0 as <-. exact Hn. }
        split; [|exact RG2]. intros _ _. unfold geometry_in_use in RG2. rewrite E2, Ep in RG2. exact RG2.
      + destruct HF as (_ & Eu & Et & _).
        assert (U : s_untrained s = false).
        { unfold trains in Hn. rewrite EC1, Ep in Hn. destruct (c_train_frequency (s_cfg s) =? 0)%Z; [discriminate|]. apply Ok_inj in Hn. apply orb_false_iff in Hn as [_ Hn]. subst s1. exact Hn. }
        assert (RT : real_geometry (s_theta_geometry s2)).
        { rewrite Es2. cbn [s_theta_geometry]. rewrite Et, Es1. cbn [s_theta_geometry]. now apply HL. }
        split; [intros _ _; exact RT|]. unfold geometry_in_use. rewrite E2, Ep. exact RT.
    - split; [intros Q; rewrite E2, Ep in Q; discriminate|].
      apply (trained_geometry W lp ll bl rows EM interrupts fuel R s s1 s2 H ES H1 H2 GS GB); [now rewrite <- K2|]. congruence.
  Qed.

  Lemma iteration_ess fuel s s' : iteration W fuel rnd s = Ok s' -> exists e, h_ess (history_of s') = h_ess (history_of s) ++ [e].
  Proof.
    intros HI. apply iteration_facts in HI as (s1 & s2 & s3 & s4 & c4 & H1 & H2 & H3 & H4 & Hc & ->). exists (cu_ess c4).
    apply reweight_facts in H1 as (c & beta & logz & ess & w0' & neff' & w1' & idx' & w2' & lf' & u & x & ldj & logl & logp & b & cn & _ & _ & _ & _ & _ & _ & _ & _ & _ & _ & _ & Ecn & ->).
    apply train_facts in H2 as (c2 & now & fl & un & ug & tg & _ & _ & _ & ->).
    apply resample_facts in H3 as (c3 & w3 & idx3 & u3 & x3 & ldj3 & logl3 & logp3 & b3 & _ & _ & _ & _ & _ & _ & _ & _ & _ & ->).
    apply mutate_facts in H4 as (c5 & b5 & ks & res & c' & _ & _ & _ & _ & _ & _ & ->).
    unfold history_of. cbn [with_particles s_particles particles_update p_past]. rewrite update_items. reflexivity.
  Qed.
  Lemma iteration_sampler fuel s s' : iteration W fuel rnd s = Ok s' -> exact_sampler rows s -> exact_sampler rows s'.
  Proof. intros HI [A1 A2 A3 A4 A5]. apply iteration_frame in HI as (F1 & _ & F3). constructor; try rewrite F1; try rewrite F3; assumption. Qed.
  Lemma app_map_inv {A B} (f : A -> B) a e l es : a ++ [e] = l ++ map f es -> (length l <= length a)%nat -> exists es' x, es = es' ++ [x] /\ a = l ++ map f es' /\ e = f x.
  Proof.
    intros E L. destruct es as [|y es _] using rev_ind.
    - cbn in E. rewrite app_nil_r in E. apply (f_equal (@length _)) in E. rewrite app_length in E. cbn in E. lia.
    - rewrite map_app in E. cbn [map] in E. rewrite app_assoc in E. apply app_inj_tail in E as [E1 E2]. eauto.
  Qed.
  Lemma later_grows s s' : later W rnd s s' -> (S (length (h_ess (history_of s))) <= length (h_ess (history_of s')))%nat.
  Proof.
    induction 1 as [fuel s s' _ _ HI|fuel s s' s'' _ IH _ HI]; destruct (iteration_ess _ _ _ HI) as [e ->]; rewrite app_length; cbn; lia.
  Qed.
  Lemma later_appends s s' : later W rnd s s' -> exists es, h_ess (history_of s') = h_ess (history_of s) ++ es.
  Proof.
    induction 1 as [fuel s s' _ _ HI|fuel s s' s'' _ [es IH] _ HI]; destruct (iteration_ess _ _ _ HI) as [e ->]; [eauto|]. rewrite IH, <- app_assoc. eauto.
  Qed.
  Lemma later_frame s s' : later W rnd s s' -> s_warmup s' = false /\ s_cfg s' = s_cfg s.
  Proof.
    induction 1 as [fuel s s' Hw _ HI|fuel s s' s'' _ [IH1 IH2] _ HI]; apply iteration_frame in HI as (F1 & F2 & _); split; congruence.
  Qed.

  Theorem proper_throughout s s' : exact_draws rows rnd -> reachable s -> exact_sampler rows s -> later W rnd s s' ->
    good_solve d (wd_fit W) -> good_bisect (wd_fit W) -> good_linalg d (wd_linalg W) -> c_metric (s_cfg s) = ESS -> enough_recorded s s' ->
    (c_preconditioned (s_cfg s) = true -> s_untrained s = true /\ forall s, flow_bijection (kernel_env_of W s) d) ->
    proper_proposal W d s'.
  Proof.
    intros HR H ES HL GS GB GL ME HE HP.
    assert (HF : forall s0, c_preconditioned (s_cfg s) = true -> flow_bijection (kernel_env_of W s0) d) by (intros s0 Q; now apply HP).
    assert (H0 : latent_fitted s) by (intros Q1 Q2; destruct (HP Q1); congruence). clear HP.
    cut (reachable s' /\ exact_sampler rows s' /\ latent_fitted s' /\ real_geometry (geometry_in_use s') /\ proper_proposal W d s'); [tauto|].
    assert (ONE : forall fuel s0 s1 es e, reachable s0 -> exact_sampler rows s0 -> s_warmup s0 = false -> not_termination s0 = Ok true -> iteration W fuel rnd s0 = Ok s1 -> s_cfg s0 = s_cfg s ->
      h_ess (history_of s1) = es ++ [Fin e] -> 100 / 99 < e -> latent_fitted s0 ->
      reachable s1 /\ exact_sampler rows s1 /\ latent_fitted s1 /\ real_geometry (geometry_in_use s1) /\ proper_proposal W d s1).
    { intros fuel s0 s1 es e Hr He Hw Ht HI EC Hs Hb HL0.
      assert (K : (2 <= kept s1)%nat) by (refine (enough_survivors W lp ll bl rows EM interrupts fuel rnd s0 s1 es e Hr He HI _ Hs Hb); congruence).
      destruct (fitted_again fuel rnd s0 s1 Hr He HI GS GB K) as [A B]; [rewrite EC; apply HF|exact HL0|].
      split; [eapply rc_iteration; eauto|]. split; [eapply iteration_sampler; eauto|]. split; [exact A|]. split; [exact B|]. eapply used_fit; eauto. }
    destruct HE as (es & HE & FE). revert es HE FE. induction HL as [fuel s s' Hw Ht HI|fuel s s' s'' HL IH Ht HI]; intros es HE FE.
    - destruct (iteration_ess _ _ _ HI) as [e Ee]. rewrite Ee in HE. apply app_map_inv in HE as (es' & x & -> & HE & ->); [|lia]. apply Forall_app in FE as [_ FE]. inversion FE; subst.
      eapply ONE; eauto.
    - pose proof (later_grows _ _ HL) as G. destruct (later_frame _ _ HL) as [Fw Fc]. destruct (iteration_ess _ _ _ HI) as [e Ee]. rewrite Ee in HE.
      apply app_map_inv in HE as (es' & x & -> & HE & ->); [|lia]. apply Forall_app in FE as [FE1 FE2]. inversion FE2; subst.
      destruct (IH H ES ME HF H0 ONE es' HE FE1) as (R1 & S1 & L1 & _). eapply ONE; eauto.
  Qed.

  (** the iterations of a run *)
  Lemma loop_later fuel bfuel save t0 s s' : s_warmup s = false -> snd (smc_loop W fuel bfuel save t0 rnd s) = Ok s' -> s' = s \/ later W rnd s s'.
  Proof.
    intros Hw. cut (forall s0, s0 = s \/ later W rnd s s0 -> forall fuel, snd (smc_loop W fuel bfuel save t0 rnd s0) = Ok s' -> s' = s \/ later W rnd s s'); [intros Q; apply Q; now left|].
    intros s0 H0 f. revert s0 H0. induction f as [|f IH]; intros s0 H0 Q; cbn [smc_loop] in Q; (destruct (not_termination s0) as [[|]|] eqn:Et; [|cbn in Q; now injection Q as <-|discriminate]); [discriminate|].
    apply tbind_ok in Q as (s1 & H1 & Q). apply checkpoint_same in H1. subst s1. apply tbind_ok in Q as (s4 & H2 & Q). cbn [lift snd] in H2. apply (IH s4); [|exact Q].
    right. destruct H0 as [->|H0]; [eapply later_one; eauto|eapply later_more; eauto].
  Qed.

  Lemma fit_indices la (r : reparam X) junk x r' : fit la r junk x = Ok r' -> periodic r' = periodic r /\ reflective r' = reflective r.
  Proof.
    unfold fit. intros H. apply bind_ok in H as [? [_ H]]. apply bind_ok in H as [? [_ H]]. destruct (diagonal r); [apply Ok_inj in H; subst r'; auto|].
    apply bind_ok in H as [? [_ H]]. apply bind_ok in H as [? [_ H]]. apply Ok_inj in H. subst r'. auto.
  Qed.
  (** what the warm-up leaves alone; the current particles are at inverse temperature 0 *)
  Lemma warmed_up save t0 s s' : snd (warmup W save t0 rnd s) = Ok s' -> s_warmup s = true ->
    s_untrained s' = s_untrained s /\ s_cfg s' = s_cfg s /\ s_scaler s' = s_scaler s /\ length (h_ess (history_of s')) = (length (h_ess (history_of s)) + n_batches (s_cfg s))%nat /\ (s_current s' = s_current s \/ exists c, s_current s' = Some c /\ cu_beta c = Fin 0).
  Proof.
    unfold warmup. intros H Hw. rewrite Hw in H. destruct (Nat.eqb _ _); [discriminate|]. apply tbind_ok in H as (s1 & H1 & H). cbn in H. injection H as <-.
    change (s_untrained s1 = s_untrained s /\ s_cfg s1 = s_cfg s /\ s_scaler s1 = s_scaler s /\ length (h_ess (history_of s1)) = (length (h_ess (history_of s)) + n_batches (s_cfg s))%nat /\ (s_current s1 = s_current s \/ exists c, s_current s1 = Some c /\ cu_beta c = Fin 0)).
    clear Hw. set (k := n_batches (s_cfg s)) in H1 |- *. clearbody k. revert s H1. generalize 0%nat as i. induction k as [|k IH]; intros i s H1; cbn [warmup_loop] in H1; [cbn in H1; injection H1 as <-; repeat (split; [reflexivity||lia|]); auto|].
    apply tbind_ok in H1 as (s2 & H2 & H1). apply checkpoint_same in H2. subst s2. apply tbind_ok in H1 as (s2 & H2 & H1). cbn [lift snd] in H2.
    apply IH in H1 as (A1 & A2 & A3 & A5 & A4).
    apply warmup_facts in H2 as (ps & x0 & u0 & xi & ldj0 & logp0 & logl0 & b0 & x & u & ldj & logp & logl & b & c & _ & _ & _ & _ & _ & _ & _ & Ec & ->).
    cbn [s_untrained s_cfg s_scaler s_current] in *. repeat (split; [assumption|]).
    split; [rewrite A5; unfold history_of; cbn [s_particles particles_update p_past]; rewrite update_items; cbn [h_ess]; rewrite app_length; cbn [length]; lia|]. right. destruct A4 as [A4|A4]; [|exact A4]. exists c. split; [exact A4|]. now subst c.
  Qed.
  Theorem run_later a s evs s' : reachable s -> exact_draws rows rnd -> exact_sampler rows s -> s_warmup s = true -> s_current s = None -> run W a rnd s = (evs, Ok s') ->
    exists s0 s1, s_warmup s0 = false /\ s_untrained s0 = s_untrained s /\ s_cfg s0 = s_cfg s /\ exact_sampler rows s0 /\ reachable s0 /\ length (h_ess (history_of s0)) = (length (h_ess (history_of s)) + n_batches (s_cfg s))%nat /\ later W rnd s0 s1 /\ final_evidence W rnd s1 = Ok s'.
  Proof.
    intros HR HD ES Hw Hc H. assert (Q : snd (run W a rnd s) = Ok s') by now rewrite H. clear H evs. unfold run, run_from in Q.
    apply tbind_ok in Q as (s1 & Q1 & Q). cbn [lift snd] in Q1.
    assert (R1 : reachable s1) by (eapply rc_prior; [|exact HD|exact Q1]; now apply rc_targets).
    assert (E1 : s_untrained s1 = s_untrained s /\ s_cfg s1 = s_cfg s /\ s_warmup s1 = true /\ s_current s1 = None /\ history_of s1 = history_of s /\ exact_sampler rows s1).
    { destruct ES as [A1 A2 A3 A4 A5]. apply draw_facts in Q1 as [[_ ->]|[_ (ps & sc & _ & Q1 & ->)]].
      - repeat (split; [assumption || reflexivity|]). constructor; assumption.
      - apply fit_indices in Q1 as [F1 F2]. repeat (split; [assumption || reflexivity|]). constructor; cbn [s_cfg s_scaler set_targets]; try assumption; [now rewrite F1|now rewrite F2]. }
    destruct E1 as (U1 & C1 & W1 & N1 & Y1 & X1).
    apply tbind_ok in Q as (s2 & Q2 & Q). destruct (warmed_up _ _ _ _ Q2 W1) as (U2 & C2 & S2 & Y2 & N2).
    pose proof (warmup_reachable W (exact_draws rows) interrupts (ra_save_every a) (s_t s) rnd s1 R1 HD) as [_ R2].
    specialize (R2 s2 Q2) as [R2 W2].
    apply tbind_ok in Q as (s3 & Q3 & Q).
    assert (L : s3 = s2 \/ later W rnd s2 s3) by (eapply loop_later; eauto).
    apply tbind_ok in Q as (s4 & Q4 & Q). cbn [lift snd] in Q4. assert (s' = s4) by (destruct (ra_save_every a); cbn in Q; congruence). subst s4.
    exists s2, s3. split; [exact W2|]. split; [congruence|]. split; [congruence|].
    split; [destruct X1 as [A1 A2 A3 A4 A5]; constructor; rewrite ?C2, ?S2; assumption|]. split; [exact R2|]. split; [rewrite Y2, Y1, C1; reflexivity|]. split; [|exact Q4].
    destruct L as [->|L]; [|exact L]. exfalso.
    apply loop_total in Q3 as [_ T]. unfold not_termination in T. apply bind_ok in T as [ess [_ T]]. apply bind_ok in T as [c [Ec T]]. apply bind_ok in T as [nt [_ T]]. apply Ok_inj in T.
    destruct N2 as [N2|(c' & N2 & B2)]; [rewrite N2, N1 in Ec; discriminate|]. rewrite N2 in Ec. cbn [of_option] in Ec. apply Ok_inj in Ec. subst c'. rewrite B2 in T.
    apply orb_false_iff in T as [T _].
    assert (F : (nfrac 1 10000 : X) = Fin (1 / 10000)) by (apply frac_fin; lra).
    assert (T' : xleb (nfrac 1 10000) (Fin (1 - 0)) = false) by exact T.
    rewrite F in T'. cbn [xleb] in T'. unfold Rleb in T'. destruct (Rle_dec _ _); [discriminate|lra].
  Qed.
  Theorem proper_run a o s evs s' : new_sampler W o = Ok s -> maps (s_pool s) -> exact_sampler rows s -> exact_draws rows rnd -> run W a rnd s = (evs, Ok s') ->
    good_solve d (wd_fit W) -> good_bisect (wd_fit W) -> good_linalg d (wd_linalg W) -> c_metric (s_cfg s) = ESS ->
    (forall e, In e (skipn (n_batches (s_cfg s)) (h_ess (history_of s'))) -> exists r, e = Fin r /\ 100 / 99 < r) ->
    (c_preconditioned (s_cfg s) = true -> forall s, flow_bijection (kernel_env_of W s) d) -> proper_proposal W d s'.
  Proof.
    intros HN HM ES HD HR GS GB GL ME HE HB. assert (R0 : reachable s) by (eapply rc_new; eauto).
    assert (I0 : s_warmup s = true /\ s_current s = None /\ s_untrained s = true /\ h_ess (history_of s) = []).
    { unfold new_sampler in HN. do 12 (apply bind_ok in HN as [? [_ HN]]). apply Ok_inj in HN. subst s. auto. }
    destruct I0 as (I1 & I2 & I3 & I4). destruct (run_later a s evs s' R0 HD ES I1 I2 HR) as (s0 & s1 & A1 & A2 & A3 & A4 & A5 & A8 & A6 & A7).
    assert (EQ : proper_proposal W d s1 -> proper_proposal W d s').
    { apply evidence_facts in A7 as (? & ? & ? & ? & ? & ? & _ & -> & _). exact (fun x => x). }
    assert (EH : history_of s' = history_of s1).
    { apply evidence_facts in A7 as (? & ? & ? & ? & ? & ? & _ & -> & _). reflexivity. }
    apply EQ. rewrite EH in HE. apply (proper_throughout s0 s1); auto; [congruence| |].
    - destruct (later_appends _ _ A6) as [es E]. rewrite I4 in A8. cbn [length Nat.add] in A8. rewrite E, skipn_app, <- A8, skipn_all, Nat.sub_diag in HE. cbn [app skipn] in HE. clear -E HE.
      assert (Q : exists rs, es = map Fin rs /\ Forall (fun e => 100 / 99 < e) rs).
      { clear E. induction es as [|e es IH]; [exists []; split; [reflexivity|constructor]|]. destruct (HE e) as (r & -> & Hr); [now left|]. destruct IH as (rs & -> & F); [intros x Hx; apply HE; now right|].
        exists (r :: rs). split; [reflexivity|now constructor]. }
      destruct Q as (rs & -> & F). exists rs. auto.
    - intros Q. rewrite A3 in Q. split; [congruence|auto].
  Qed.
End Later.

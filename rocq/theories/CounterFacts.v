(** * Counters and geometries of reachable samplers *)
From Coq Require Import ZArith String List Bool Lia Sorted.
From Verif Require Import Num PyBase PyBaseFacts Tools Scaler Particles ParticlesFacts LogLike Geometry GeometryFacts Mcmc SpecMcmc McmcFacts McmcInv Flow Sampler ConfigFacts
  SpecReach SamplerFacts Reach SpecRun BetaFacts RowFacts ParticleInv HistoryFacts SpecLoop LoopFacts.
Import ListNotations.
Set Bullet Behavior "Strict Subproofs".
Open Scope list_scope.

Section Counters.
  Context {T C P Opt : Type} {NT : NumT T}.
  Notation B := (list C).
  Variable W : world T C P Opt.
  Variable fair : rand T C P -> Prop.
  Variable interrupts : bool.
  Notation reachable := (reachable W fair interrupts).
  Implicit Types s : sampler T C P.

  (** ** The iteration index *)
  Definition iter_inv s : Prop := exists k m, h_iter (history_of s) = map Z.of_nat (seq 0 k) ++ repeat (Z.of_nat (k - 1)) m /\
    (s_warmup s = true -> m = 0%nat /\ s_t s = Z.of_nat k) /\
    (forall c, s_current s = Some c -> (0 < k)%nat /\ cu_iter c = Z.of_nat (k - 1)).
  Theorem reachable_iter s : reachable s -> iter_inv s.
  Proof.
    revert s. apply (reach_phases W fair interrupts iter_inv (fun _ => True) (fun _ => True) (fun _ => True)).
    - intros o s H _. unfold new_sampler in H. do 12 (apply bind_ok in H as [? [_ H]]). apply Ok_inj in H. subst s. exists 0%nat, 0%nat. repeat split; try discriminate.
    - intros n m s I. exact I.
    - intros R s s' I _ H. apply draw_facts in H as [[_ ->]|[_ (ps & sc & _ & _ & ->)]]; exact I.
    - intros R i s s' (k & m & I1 & I2 & I3) _ Hw _ H. destruct (I2 Hw) as [-> Et].
      apply warmup_facts in H as (ps & x0 & u0 & xi & ldj0 & logp0 & logl0 & b0 & x & u & ldj & logp & logl & b & c & _ & _ & _ & _ & _ & _ & _ & -> & ->).
      exists (S k), 0%nat. unfold history_of in *. cbn [s_particles particles_update p_past s_warmup s_t s_current]. rewrite update_items. cbn [h_iter cu_iter].
      rewrite I1. cbn [repeat]. rewrite !app_nil_r. split; [rewrite seq_S, map_app; cbn [map plus]; now rewrite Et|]. split; [intros _; split; [reflexivity|lia]|].
      intros c E. injection E as <-. cbn [cu_iter]. split; [lia|]. replace (S k - 1)%nat with k by lia. exact Et.
    - intros s (k & m & I1 & I2 & I3) Hw. exists k, m. split; [exact I1|]. split; [discriminate|exact I3].
    - intros fuel s s1 (k & m & I1 & I2 & I3) Hw H. split; [|exact I].
      apply reweight_facts in H as (c & beta & logz & ess & w0 & neff & w1 & idx & w2 & lf & u & x & ldj & logl & logp & b & c1 & Ec & _ & _ & _ & _ & _ & _ & _ & _ & _ & _ & -> & ->).
      exists k, m. split; [exact I1|]. split; [cbn [s_warmup]; congruence|]. intros c' E. cbn [s_current] in E. injection E as <-. cbn [cu_iter]. now apply I3.
    - intros R s s2 (k & m & I1 & I2 & I3) _ Hw H. split; [|exact I]. apply train_facts in H as (c2 & now & fl & un & ug & tg & Ec & _ & _ & ->).
      exists k, m. split; [exact I1|]. split; [exact I2|]. intros c' E. cbn [s_current] in E. injection E as <-. now apply I3.
    - intros R s s3 (k & m & I1 & I2 & I3) _ _ Hw H. split; [|exact I].
      apply resample_facts in H as (c3 & w3 & idx3 & u3 & x3 & ldj3 & logl3 & logp3 & b3 & Ec & _ & _ & _ & _ & _ & _ & _ & _ & ->).
      exists k, m. split; [exact I1|]. split; [exact I2|]. intros c' E. cbn [with_current s_current] in E. injection E as <-. cbn [cu_iter]. now apply I3.
    - intros R s s4 (k & m & I1 & I2 & I3) _ _ Hw H. split; [|exact I]. apply mutate_facts in H as (c5 & b5 & ks & res & c' & Ec & _ & _ & _ & _ & -> & ->).
      exists k, m. split; [exact I1|]. split; [exact I2|]. intros c' E. cbn [s_current] in E. injection E as <-. cbn [cu_iter]. now apply I3.
    - intros s c (k & m & I1 & I2 & I3) _ Hw Ec. destruct (I3 c Ec) as [I4 I5]. exists k, (S m). unfold history_of in *. cbn [with_particles s_particles particles_update p_past s_warmup s_current].
      rewrite update_items. cbn [h_iter]. rewrite I1, I5. split; [now rewrite <- app_assoc, <- repeat_cons|]. split; [congruence|exact I3].
    - intros R s s' I _ _ H. apply evidence_facts in H as (? & ? & ? & ? & ? & ? & _ & -> & _). exact I.
    - intros s I. unfold results_of, iter_inv, history_of in *. unfold compute_results. destruct (p_results (s_particles s)); [exact I|].
      destruct (compute_logw_and_logz _ _ _) as [[? ?]|]; exact I.
    - intros saved self I _. exact I.
    - intros s p I _ _. exact I.
  Qed.

  (** ** The likelihood calls *)
  Variable lp ll : vec T -> T.
  Variable bl : option (vec T -> list C).
  Hypothesis RG : regular W lp ll bl.
  Hypothesis fair_sized : forall R, fair R -> sized R.
  Hypothesis fair_flow : forall R, fair R -> flow_sized R.
  Notation evaluated s := (Z.of_nat (length (s_evals s))).
  Record calls_inv s : Prop := {
    ci_pool : maps (s_pool s);
    ci_prior : forall ps, s_prior_samples s = Some ps -> length ps = c_n_prior (s_cfg s);
    ci_calls : s_calls s = (evaluated s + Z.of_nat (length (s_evidence_evals s)))%Z;
    ci_warm : s_warmup s = true -> s_evidence_evals s = [];
    ci_current : forall c, s_current s = Some c -> cu_calls c = evaluated s;
    ci_range : Forall (fun k => (0 <= k <= evaluated s)%Z) (h_calls (history_of s));
    ci_sorted : StronglySorted Z.le (h_calls (history_of s)) }.
  Definition even_current s : Prop := exists c n, s_current s = Some c /\ length (cu_u c) = n /\ length (cu_x c) = n /\ length (cu_logdetj c) = n /\
    length (cu_logl c) = n /\ length (cu_logp c) = n /\ (s_have_blobs s = true -> match cu_blobs c with Some b => length b = n | None => True end).
  Lemma sorted_snoc l k : StronglySorted Z.le l -> Forall (fun x => (x <= k)%Z) l -> StronglySorted Z.le (l ++ [k]).
  Proof.
    induction l as [|a l IH]; intros H1 H2; cbn [app]; [constructor; constructor|]. inversion H1; inversion H2; subst. constructor; [auto|]. apply Forall_app. split; [assumption|]. constructor; [assumption|constructor].
  Qed.
  Lemma gather_length {A} (l : list A) idx r : gather l idx = Ok r -> length r = length idx.
  Proof. intros H. now apply gather_in in H as [H _]. Qed.
  Theorem reachable_calls s : reachable s -> calls_inv s.
  Proof.
    revert s. apply (reach_phases W fair interrupts calls_inv (fun _ => True) even_current (fun _ => True)).
    - intros o s H Hmp. unfold new_sampler in H. do 12 (apply bind_ok in H as [? [_ H]]). apply Ok_inj in H. subst s. constructor; try discriminate; try reflexivity; try exact Hmp; constructor.
    - intros n m s []. now constructor.
    - intros R s s' I HR H. apply draw_facts in H as [[_ ->]|[_ (ps & sc & Hps & _ & ->)]]; [exact I|]. destruct I. constructor; auto.
      cbn [s_prior_samples s_cfg]. intros ps' E. injection E as <-. exact (fair_sized R HR _ _ Hps).
    - intros R i s s' [I0 I1 I2 I3 I4 I5 I6] _ Hw Hi H.
      apply warmup_facts in H as (ps & x0 & u0 & xi & ldj0 & logp0 & logl0 & b0 & x & u & ldj & logp & logl & b & c & Eps & Ex & _ & _ & _ & _ & Hx & -> & ->).
      specialize (I1 ps Eps). specialize (I3 Hw). rewrite I3 in I2. cbn [length] in I2. unfold n_batches in Hi.
      assert (L0 : length x0 = c_n_active (s_cfg s)) by (rewrite Ex; eapply slice_length; eauto).
      assert (L1 : length x = c_n_active (s_cfg s)).
      { destruct (existsb _ _); [|destruct Hx as [-> _]; exact L0]. destruct Hx as (idx & _ & Hx & _). unfold replace_rows in Hx. apply bind_ok in Hx as [v [_ Hx]]. apply Ok_inj in Hx. subst x. now rewrite put_length. }
      constructor; cbn [s_prior_samples s_cfg s_calls s_evals s_evidence_evals s_warmup s_current].
      + exact I0.
      + intros ps' E. injection E as <-. now apply set_slice_length.
      + rewrite I3, app_length. cbn [length]. lia.
      + auto.
      + intros c E. injection E as <-. cbn [cu_calls]. rewrite app_length. lia.
      + unfold history_of in *. cbn [s_particles particles_update p_past]. rewrite update_items. cbn [h_calls cu_calls]. rewrite app_length.
        apply Forall_app. split; [eapply Forall_impl; [|exact I5]; cbv beta; intros; lia|]. constructor; [lia|constructor].
      + unfold history_of in *. cbn [s_particles particles_update p_past]. rewrite update_items. cbn [h_calls cu_calls].
        apply sorted_snoc; [exact I6|]. eapply Forall_impl; [|exact I5]; cbv beta; intros; lia.
    - intros s [] _. constructor; auto; discriminate.
    - intros fuel s s1 [I0 I1 I2 I3 I4 I5 I6] Hw H. split; [|exact I].
      apply reweight_facts in H as (c & beta & logz & ess & w0 & neff & w1 & idx & w2 & lf & u & x & ldj & logl & logp & b & c1 & Ec & _ & _ & _ & _ & _ & _ & _ & _ & _ & _ & -> & ->).
      constructor; auto. intros c' E. cbn [s_current] in E. injection E as <-. cbn [cu_calls]. now apply I4.
    - intros R s s2 [I0 I1 I2 I3 I4 I5 I6] _ Hw H. split; [|exact I]. apply train_facts in H as (c2 & now & fl & un & ug & tg & Ec & _ & _ & ->).
      constructor; auto. intros c' E. cbn [s_current] in E. injection E as <-. now apply I4.
    - intros R s s3 [I0 I1 I2 I3 I4 I5 I6] _ _ Hw H.
      apply resample_facts in H as (c3 & w3 & idx3 & u3 & x3 & ldj3 & logl3 & logp3 & b3 & Ec & _ & _ & G1 & G2 & G3 & G4 & G5 & G6 & ->). split.
      + constructor; auto. intros c' E. cbn [with_current s_current] in E. injection E as <-. cbn [cu_calls]. now apply I4.
      + eexists. exists (length idx3). cbn [with_current s_current s_have_blobs]. split; [reflexivity|]. cbn [cu_u cu_x cu_logdetj cu_logl cu_logp cu_blobs].
        apply gather_length in G1, G2, G3, G4, G5. repeat (split; [assumption|]). intros E. rewrite E in G6. destruct G6 as (b0 & b' & _ & -> & G6). now apply gather_length in G6.
    - intros R s s4 [I0 I1 I2 I3 I4 I5 I6] (c & n & Ec & L1 & L2 & L3 & L4 & L5 & L6) _ Hw H. split; [|exact I]. apply mutate_facts in H as (c5 & b5 & ks & res & c' & Ec5 & Hb & -> & Hk & _ & -> & ->).
      rewrite Ec in Ec5. injection Ec5 as <-.
      assert (K : o_calls res = Z.of_nat (length (o_evals res)) /\ (0 <= o_calls res)%Z).
      { destruct (kernel_counts _ _ _ _ _ _ _ n Hk) as (_ & K1 & [K2 _] & _); [|auto].
        unfold input_walkers, walkers_of. constructor; cbn [w_u w_x w_logdetj w_logl w_logp w_blobs s_u s_x s_logdetj s_logl s_logp s_blobs]; try assumption.
        destruct (s_have_blobs s); [destruct Hb as [-> _]; now apply L6|now subst b5]. }
      destruct K as [K1 K2]. pose proof (I4 c Ec) as E4.
      constructor; cbn [s_prior_samples s_cfg s_calls s_evals s_evidence_evals s_warmup s_current cu_calls]; auto.
      + rewrite app_length. cbn [length]. lia.
      + intros c' E. injection E as <-. cbn [cu_calls]. rewrite app_length. lia.
      + rewrite app_length. eapply Forall_impl; [|exact I5]; cbv beta; intros; lia.
    - intros s c [I0 I1 I2 I3 I4 I5 I6] _ Hw Ec. specialize (I4 c Ec) as E4. constructor; auto; unfold history_of in *; cbn [with_particles s_particles particles_update p_past s_evals];
        rewrite update_items; cbn [h_calls].
      + apply Forall_app. split; [exact I5|]. constructor; [lia|constructor].
      + apply sorted_snoc; [exact I6|]. eapply Forall_impl; [|exact I5]; cbv beta; intros; lia.
    - intros R s s' I HR Hw H. apply evidence_facts in H as (n & logz & err & calls & evals & hb & En & -> & Hv). destruct I. constructor; auto; cbn [with_evidence s_calls s_evals s_evidence_evals s_warmup]; [|congruence].
      destruct (_ && _).
      + destruct Hv as (xq & ldj & logp & logl & b & Hv). pose proof (fair_flow R HR (s_flow s) (Z.to_nat n)) as Lq. destruct (rn_flow R (s_flow s) (Z.to_nat n)) as [theta logq].
        cbn [fst snd] in Lq. destruct Hv as (Hi & Hp & Ee & Hl & _ & _ & -> & _). apply (rg_prior _ _ _ _ RG) in Hp. apply inverse_length in Hi as [Lx Lj].
        apply (like_facts W lp ll bl RG) in Hl as [-> _]; [|assumption].
        assert (LK : forall {A} (v : list A), length v = length theta -> length (compress (map nisfinite logp) v) = length (compress (map nisfinite logp) xq)).
        { intros A v Lv. assert (Lm : length (map nisfinite logp) = length theta) by (rewrite map_length, Hp, map_length; exact Lx).
          rewrite !compress_length; [reflexivity| |]; rewrite Lm; [exact (Nat.eq_le_incl _ _ (eq_sym Lx))|exact (Nat.eq_le_incl _ _ (eq_sym Lv))]. }
        rewrite Ee. rewrite app_length. rewrite (map2_length_eq _ _ _ (length (compress (map nisfinite logp) xq))); [lia| |apply LK; congruence].
        apply map2_length_eq; [apply map2_length_eq; [now rewrite map_length|]|apply LK; exact Lj]. apply LK. rewrite Hp, map_length. exact Lx.
      + destruct Hv as (_ & -> & -> & _). now rewrite app_nil_r.
    - intros s []. unfold results_of, history_of in *. unfold compute_results. destruct (p_results (s_particles s)); [now constructor|].
      destruct (compute_logw_and_logz _ _ _) as [[? ?]|]; now constructor.
    - intros saved self [] [Q _ _ _ _ _ _]. constructor; auto. cbn [load with_pool s_pool]. destruct (s_pool saved); [exact Q|exact I].
    - intros s p [] _ _. constructor; auto.
  Qed.
  Theorem calls_exact s : reachable s ->
    s_calls s = (Z.of_nat (length (s_evals s)) + Z.of_nat (length (s_evidence_evals s)))%Z /\
    StronglySorted Z.le (h_calls (history_of s)) /\ Forall (fun k => (0 <= k <= s_calls s)%Z) (h_calls (history_of s)).
  Proof.
    intros H. destruct (reachable_calls s H). split; [assumption|]. split; [assumption|]. eapply Forall_impl; [|exact ci_range0]. cbv beta. intros; lia.
  Qed.
  (** what is counted and recorded by an iteration *)
  Theorem iteration_calls fuel R s s' : reachable s -> fair R -> s_warmup s = false -> not_termination s = Ok true -> iteration W fuel R s = Ok s' ->
    exists points, s_evals s' = s_evals s ++ points /\ s_evidence_evals s' = [] /\ s_calls s' = evaluated s' /\ h_calls (history_of s') = h_calls (history_of s) ++ [s_calls s'].
  Proof.
    intros H HR Hw Hn Hi. assert (H' : reachable s') by (exact (rc_iteration W fair interrupts fuel R s s' H HR Hw Hn Hi)).
    pose proof (reachable_calls s' H') as [_ _ I2 _ I4 _ _].
    apply iteration_facts in Hi as (s1 & s2 & s3 & s4 & c4 & H1 & H2 & H3 & H4 & Ec & ->).
    apply reweight_facts in H1 as (c & beta & logz & ess & w0 & neff & w1 & idx & w2 & lf & u & x & ldj & logl & logp & b & c1 & _ & _ & _ & _ & _ & _ & _ & _ & _ & _ & _ & _ & ->).
    apply train_facts in H2 as (c2 & now & fl & un & ug & tg & _ & _ & _ & ->).
    apply resample_facts in H3 as (c3 & w3 & idx3 & u3 & x3 & ldj3 & logl3 & logp3 & b3 & _ & _ & _ & _ & _ & _ & _ & _ & _ & ->).
    apply mutate_facts in H4 as (c5 & b5 & ks & res & c' & _ & _ & _ & _ & Ec' & -> & ->). rewrite Ec in Ec'. injection Ec' as ->.
    exists (o_evals res). unfold history_of. cbn [with_particles s_evals s_evidence_evals s_calls s_particles particles_update p_past with_current] in *. rewrite update_items. cbn [h_calls cu_calls].
    split; [reflexivity|]. split; [reflexivity|]. cbn [length] in I2. rewrite Z.add_0_r in I2. auto.
  Qed.
End Counters.

(** ** Geometries *)
Section Geometries.
  Context {T C P Opt : Type} {NT : NumT T}.
  Variable W : world T C P Opt.
  Variable fair : rand T C P -> Prop.
  Implicit Types s : sampler T C P.
  Lemma fit_fitted_geometry (o : fit_oracles T) off d th w g : geometry_fit o off d th w = Ok g -> fitted g.
  Proof.
    unfold geometry_fit. intros H. apply bind_ok in H as [[m c] [_ H]]. apply bind_ok in H as [data [_ H]]. apply bind_ok in H as [[[[tm tc] nu] k] [_ H]].
    apply Ok_inj in H. subst g. repeat split; discriminate.
  Qed.
  Definition theta_ready s : Prop := s_untrained s = false -> fitted (s_theta_geometry s).
  Lemma reweight_ready fuel s s1 : reweight fuel s = Ok s1 -> theta_ready s -> theta_ready s1.
  Proof. intros H. apply reweight_facts in H as (c & beta & logz & ess & w0 & neff & w1 & idx & w2 & lf & u & x & ldj & logl & logp & b & c1 & _ & _ & _ & _ & _ & _ & _ & _ & _ & _ & _ & _ & ->). auto. Qed.
  Lemma train_ready R s s2 : train W R s = Ok s2 -> theta_ready s -> theta_ready s2 /\ fitted (geometry_in_use s2).
  Proof.
    intros H I. apply train_facts in H as (c2 & now & fl & un & ug & tg & _ & Ht & Hn & ->). unfold theta_ready, geometry_in_use in *. cbn [s_untrained s_theta_geometry s_u_geometry s_cfg].
    apply trains_due in Ht. unfold training_due in Ht. destruct now.
    - destruct Hn as (_ & _ & _ & Hg). apply fit_fitted_geometry in Hg. destruct (proj1 Ht eq_refl) as [-> _]. auto.
    - destruct Hn as (_ & -> & -> & Hg). apply fit_fitted_geometry in Hg. split; [exact I|]. destruct (c_preconditioned (s_cfg s)); [|exact Hg].
      apply I. destruct (s_untrained s); [|reflexivity]. exfalso. assert (false = true) by (apply Ht; auto). discriminate.
  Qed.
  Lemma resample_ready R s s3 : resample R s = Ok s3 -> (theta_ready s -> theta_ready s3) /\ geometry_in_use s3 = geometry_in_use s.
  Proof. intros H. apply resample_facts in H as (c3 & w3 & idx3 & u3 & x3 & ldj3 & logl3 & logp3 & b3 & _ & _ & _ & _ & _ & _ & _ & _ & _ & ->). auto. Qed.
  Theorem reachable_ready s : reachable W fair false s -> theta_ready s.
  Proof.
    remember false as interrupts eqn:EI. intros H. revert EI.
    induction H as [o s H Hp|n m s _ IH|R s s' Hr IH HR H|R i s s' Hr IH HR Hw Hi H|s _ IH Hw|fuel R s s' Hr IH HR Hw Hnt H
      |R s s' Hr IH HR Hw H|s _ IH|saved self _ IH1 _ IH2|fuel s s1 Hr IH Hw Hnt H|fuel R s s1 s2 Hr IH HR Hw Hnt H H2|fuel R s s1 s2 s3 Hr IH HR Hw Hnt H H2 H3|fuel s s1 c p EI' Hr IH Hw Hnt H Hc Ht]; intros EI.
    - unfold new_sampler in H. do 12 (apply bind_ok in H as [? [_ H]]). apply Ok_inj in H. subst s. discriminate.
    - exact (IH EI).
    - specialize (IH EI). apply draw_facts in H as [[_ ->]|[_ (ps & sc & _ & _ & ->)]]; exact IH.
    - specialize (IH EI). apply warmup_facts in H as (ps & x0 & u0 & xi & ldj0 & logp0 & logl0 & b0 & x & u & ldj & logp & logl & b & c & _ & _ & _ & _ & _ & _ & _ & _ & ->). exact IH.
    - exact (IH EI).
    - specialize (IH EI). apply iteration_facts in H as (s1 & s2 & s3 & s4 & c4 & H1 & H2 & H3 & H4 & _ & ->).
      apply (reweight_ready _ _ _ H1) in IH. apply (train_ready _ _ _ H2) in IH as [IH _]. apply (resample_ready _ _ _ H3) in IH.
      apply mutate_facts in H4 as (c5 & b5 & ks & res & c' & _ & _ & _ & _ & _ & _ & ->). exact IH.
    - specialize (IH EI). apply evidence_facts in H as (? & ? & ? & ? & ? & ? & _ & -> & _). exact IH.
    - specialize (IH EI). unfold results_of. destruct (compute_results (s_particles s)). exact IH.
    - exact (IH1 EI).
    - exact (reweight_ready _ _ _ H (IH EI)).
    - apply (train_ready _ _ _ H2), (reweight_ready _ _ _ H), (IH EI).
    - apply (resample_ready _ _ _ H3), (train_ready _ _ _ H2), (reweight_ready _ _ _ H), (IH EI).
    - congruence.
  Qed.
  Theorem mutation_geometry fuel R s s1 s2 s3 : reachable W fair false s -> reweight fuel s = Ok s1 -> train W R s1 = Ok s2 -> resample R s2 = Ok s3 -> fitted (geometry_in_use s3).
  Proof.
    intros H H1 H2 H3. apply resample_ready in H3 as [_ ->]. apply (train_ready R s1 s2 H2). eapply reweight_ready; [exact H1|]. now apply reachable_ready.
  Qed.
End Geometries.

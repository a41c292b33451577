(** * The iterations of a run: temperatures, convergence, counters, training *)
From Coq Require Import ZArith String List Bool Lia Sorted.
From Verif Require Import Num PyBase PyBaseFacts Tools Scaler Particles ParticlesFacts LogLike Geometry GeometryFacts Mcmc SpecMcmc McmcFacts McmcInv Flow Sampler ConfigFacts
  SpecReach SamplerFacts Reach SpecRun BetaFacts RowFacts ParticleInv HistoryFacts SpecLoop.
Import ListNotations.
Set Bullet Behavior "Strict Subproofs".
Open Scope list_scope.

Section Loop.
  Context {T C P Opt : Type} {NT : NumT T}.
  Notation B := (list C).
  Variable W : world T C P Opt.
  Implicit Types s : sampler T C P.

  (** ** What an iteration records *)
  Lemma iteration_step fuel R s s' : iteration W fuel R s = Ok s' -> exists beta logz ess c,
    next_beta fuel (c_metric (s_cfg s)) (history_of s) (nofZ (s_n_effective s)) = Ok (beta, logz, ess) /\
    h_beta (history_of s') = h_beta (history_of s) ++ [beta] /\ h_logz (history_of s') = h_logz (history_of s) ++ [logz] /\
    h_ess (history_of s') = h_ess (history_of s) ++ [ess] /\
    s_current s' = Some c /\ cu_beta c = beta /\ cu_logz c = logz /\ cu_ess c = ess.
  Proof.
    intros H. apply iteration_facts in H as (s1 & s2 & s3 & s4 & c4 & H1 & H2 & H3 & H4 & Hc & ->).
    apply reweight_facts in H1 as (c & beta & logz & ess & w0 & neff & w1 & idx & w2 & lf & u & x & ldj & logl & logp & b & c1 & _ & Hb & _ & _ & _ & _ & _ & _ & _ & _ & _ & -> & ->).
    apply train_facts in H2 as (c2 & now & fl & un & ug & tg & E2 & _ & _ & ->). cbn [s_current] in E2. injection E2 as <-.
    apply resample_facts in H3 as (c3 & w3 & idx3 & u3 & x3 & ldj3 & logl3 & logp3 & b3 & E3 & _ & _ & _ & _ & _ & _ & _ & _ & ->). cbn [s_current] in E3. injection E3 as <-.
    apply mutate_facts in H4 as (c5 & b5 & ks & res & c' & E4 & _ & _ & _ & _ & -> & ->). cbn [with_current s_current] in E4. injection E4 as <-.
    cbn [s_current] in Hc. injection Hc as <-. exists beta, logz, ess. eexists.
    unfold history_of at 2 4 6. cbn [with_particles s_particles with_current particles_update p_past s_current]. rewrite update_items.
    cbn [h_beta h_logz h_ess cu_beta cu_logz cu_ess]. repeat (split; [first [exact Hb|reflexivity]|]). reflexivity.
  Qed.

  (** ** The choice of the temperature *)
  Lemma bisect_ess fuel m (p : past T B) n : forall lo hi b e, bisect fuel m p n lo hi = Ok (b, e) ->
    ess_at m p b = Ok e /\ (nltb (nabs (nsub e n)) (nmul (nfrac 1 100) n) = true \/ neqb b (nofZ 1) = true).
  Proof.
    induction fuel as [|fuel IH]; intros lo hi b e; cbn [bisect]; [discriminate|]. intros H. apply bind_ok in H as [e0 [He H]].
    destruct (_ || _) eqn:E.
    - apply bind_ok in H as [? [_ H]]. apply Ok_inj in H. injection H as <- <-. split; [exact He|]. now apply orb_true_iff in E.
    - destruct (nltb e0 n); eapply IH; exact H.
  Qed.
  Lemma next_beta_cases fuel m (p : past T B) n b z e : next_beta fuel m p n = Ok (b, z, e) ->
    ess_at m p b = Ok e /\ exists rest b0 e0 e1, h_beta p = rest ++ [b0] /\ ess_at m p b0 = Ok e0 /\ ess_at m p (nofZ 1) = Ok e1 /\
      ((nleb e0 n = true /\ b = b0) \/ (nleb e0 n = false /\ nleb n e1 = true /\ b = nofZ 1) \/
       (nleb e0 n = false /\ nleb n e1 = false /\ (nltb (nabs (nsub e n)) (nmul (nfrac 1 100) n) = true \/ neqb b (nofZ 1) = true))).
  Proof.
    unfold next_beta. intros H. apply bind_ok in H as [b0 [Hb H]]. apply bind_ok in H as [e0 [H0 H]]. apply bind_ok in H as [e1 [H1 H]].
    apply get_last in Hb as [rest Hb]. destruct (nleb e0 n) eqn:E0.
    - apply bind_ok in H as [z' [_ H]]. apply bind_ok in H as [? [_ H]]. apply Ok_inj in H. injection H as <- <- <-. split; [exact H0|].
      exists rest, b0, e0, e1. auto 10.
    - destruct (nleb n e1) eqn:E1.
      + apply bind_ok in H as [[? z'] [_ H]]. apply bind_ok in H as [? [_ H]]. apply Ok_inj in H. injection H as <- <- <-. split; [exact H1|].
        exists rest, b0, e0, e1. auto 10.
      + apply bind_ok in H as [[b' e'] [Hs H]]. apply bind_ok in H as [[? z'] [_ H]]. apply Ok_inj in H. injection H as <- <- <-.
        apply bisect_ess in Hs as [Hs1 Hs2]. split; [exact Hs1|]. exists rest, b0, e0, e1. auto 10.
  Qed.
  Theorem step_cases fuel R s s' : iteration W fuel R s = Ok s' ->
    let m := c_metric (s_cfg s) in let p := history_of s in let n := nofZ (s_n_effective s) in
    exists rest previous beta e0 e1 ess, h_beta p = rest ++ [previous] /\
      h_beta (history_of s') = h_beta p ++ [beta] /\ h_ess (history_of s') = h_ess p ++ [ess] /\
      ess_at m p previous = Ok e0 /\ ess_at m p (nofZ 1) = Ok e1 /\ ess_at m p beta = Ok ess /\
      ((nleb e0 n = true /\ beta = previous) \/ (nleb e0 n = false /\ nleb n e1 = true /\ beta = nofZ 1) \/
       (nleb e0 n = false /\ nleb n e1 = false /\ (nltb (nabs (nsub ess n)) (nmul (nfrac 1 100) n) = true \/ neqb beta (nofZ 1) = true))).
  Proof.
    intros H m p n. apply iteration_step in H as (beta & logz & ess & c & Hb & R1 & _ & R3 & _).
    apply next_beta_cases in Hb as (He & rest & b0 & e0 & e1 & E1 & E2 & E3 & E4). exists rest, b0, beta, e0, e1, ess. auto 10.
  Qed.

  (** ** Convergence *)
  Lemma converged_spec s n : s_n_total s = Some n -> (not_termination s = Ok false <-> converged s n).
  Proof.
    intros En. unfold not_termination, converged. fold (history_of s). split.
    - intros H. apply bind_ok in H as [e [He H]]. apply bind_ok in H as [c [Hc H]]. rewrite En in H. cbn [of_option bind] in H. apply Ok_inj in H.
      apply orb_false_iff in H as [H1 H2]. exists c, e. destruct (s_current s) as [c0|]; [|discriminate]. injection Hc as <-. auto.
    - intros (c & e & E1 & E2 & E3 & E4). rewrite E3. cbn [bind]. rewrite E1, En. cbn [of_option bind]. now rewrite E2, E4.
  Qed.
  Lemma evidence_converged R s s' n : final_evidence W R s = Ok s' -> converged s n -> converged s' n.
  Proof. intros H. apply evidence_facts in H as (? & ? & ? & ? & ? & ? & _ & -> & _). auto. Qed.

  Lemma iteration_total fuel R s s' : iteration W fuel R s = Ok s' -> s_n_total s' = s_n_total s.
  Proof.
    intros H. apply iteration_facts in H as (s1 & s2 & s3 & s4 & c4 & H1 & H2 & H3 & H4 & _ & ->).
    apply reweight_facts in H1 as (c & beta & logz & ess & w0 & neff & w1 & idx & w2 & lf & u & x & ldj & logl & logp & b & c1 & _ & _ & _ & _ & _ & _ & _ & _ & _ & _ & _ & _ & ->).
    apply train_facts in H2 as (c2 & now & fl & un & ug & tg & _ & _ & _ & ->).
    apply resample_facts in H3 as (c3 & w3 & idx3 & u3 & x3 & ldj3 & logl3 & logp3 & b3 & _ & _ & _ & _ & _ & _ & _ & _ & _ & ->).
    apply mutate_facts in H4 as (c5 & b5 & ks & res & c' & _ & _ & _ & _ & _ & _ & ->). reflexivity.
  Qed.
  Lemma checkpoint_same k t0 s s' : snd (checkpoint k t0 s) = Ok s' -> s' = s.
  Proof.
    unfold checkpoint. destruct k as [k|]; [|cbn; congruence]. destruct (k =? 0)%Z; [discriminate|]. destruct (_ && _); cbn; congruence.
  Qed.
  Lemma tbind_ok (m : traced T C P) f s' : snd (tbind m f) = Ok s' -> exists s, snd m = Ok s /\ snd (f s) = Ok s'.
  Proof. unfold tbind. destruct m as [evs [s|e]]; [|discriminate]. destruct (f s) as [evs' r] eqn:E. cbn [snd]. intros ->. exists s. rewrite E. auto. Qed.
  Lemma loop_total fuel bfuel save t0 R : forall s s', snd (smc_loop W fuel bfuel save t0 R s) = Ok s' -> s_n_total s' = s_n_total s /\ not_termination s' = Ok false.
  Proof.
    induction fuel as [|fuel IH]; intros s s'; cbn [smc_loop]; (destruct (not_termination s) as [[|]|] eqn:E; [|intros Q; injection Q as <-; auto|discriminate]); [discriminate|].
    intros H. apply tbind_ok in H as (s1 & H1 & H). apply checkpoint_same in H1. subst s1. apply tbind_ok in H as (s2 & H2 & H).
    cbn [lift snd] in H2. apply iteration_total in H2. apply IH in H as [H3 H4]. split; [congruence|exact H4].
  Qed.
  Lemma warmup_total save t0 R s s' : snd (warmup W save t0 R s) = Ok s' -> s_n_total s' = s_n_total s.
  Proof.
    unfold warmup. destruct (s_warmup s); [|cbn; congruence]. destruct (Nat.eqb _ _); [discriminate|]. intros H. apply tbind_ok in H as (s1 & H1 & H). cbn in H. injection H as <-.
    change (s_n_total (end_warmup s1)) with (s_n_total s1).
    set (k := n_batches (s_cfg s)) in H1. clearbody k. revert s H1. generalize 0%nat as i. induction k as [|k IH]; intros i s H1; cbn [warmup_loop] in H1; [cbn in H1; congruence|].
    apply tbind_ok in H1 as (s2 & H2 & H1). apply checkpoint_same in H2. subst s2. apply tbind_ok in H1 as (s2 & H2 & H1). cbn [lift snd] in H2.
    apply IH in H1. rewrite H1.
    apply warmup_facts in H2 as (ps & x0 & u0 & xi & ldj0 & logp0 & logl0 & b0 & x & u & ldj & logp & logl & b & c & _ & _ & _ & _ & _ & _ & _ & _ & ->). reflexivity.
  Qed.
  Theorem run_from_converged a R s evs s' : run_from W a R s = (evs, Ok s') -> converged s' (ra_n_total a).
  Proof.
    intros H. assert (Q : snd (run_from W a R s) = Ok s') by now rewrite H. clear H evs. unfold run_from in Q.
    apply tbind_ok in Q as (s1 & Q1 & Q). cbn [lift snd] in Q1. assert (E1 : s_n_total s1 = Some (ra_n_total a)).
    { apply draw_facts in Q1 as [[_ ->]|[_ (ps & sc & _ & _ & ->)]]; reflexivity. }
    apply tbind_ok in Q as (s2 & Q2 & Q). apply warmup_total in Q2. apply tbind_ok in Q as (s3 & Q3 & Q). apply loop_total in Q3 as [Q3 Q4].
    apply (converged_spec s3 (ra_n_total a)) in Q4; [|congruence].
    apply tbind_ok in Q as (s4 & Q5 & Q). cbn [lift snd] in Q5. assert (s' = s4) by (destruct (ra_save_every a); cbn in Q; congruence). subst s4.
    eapply evidence_converged; eauto.
  Qed.
  Theorem run_converged a R s evs s' : run W a R s = (evs, Ok s') -> converged s' (ra_n_total a).
  Proof. apply run_from_converged. Qed.
  Theorem resumed_converged a R saved self evs s' : run_resumed W a R saved self = (evs, Ok s') -> converged s' (ra_n_total a).
  Proof.
    intros H. assert (Q : snd (run_resumed W a R saved self) = Ok s') by now rewrite H. unfold run_resumed in Q. apply tbind_ok in Q as (s1 & _ & Q).
    destruct (run_from W a R s1) as [evs' r] eqn:E. cbn [snd] in Q. subst r. eapply run_from_converged; eauto.
  Qed.

  (** A converged sampler that is run again with the same target makes no iteration. *)
  Theorem run_again a R s : s_warmup s = false -> s_prior_samples s <> None -> converged s (ra_n_total a) ->
    run W a R s = match final_evidence W R (set_targets (ra_n_total a) (ra_n_evidence a) s) with
                  | Ok s' => (match ra_save_every a with None => [] | Some _ => [{| ev_file := Final; ev_state := s' |}] end, Ok s')
                  | Err e => ([], Err e)
                  end.
  Proof.
    intros Hw Hp Hc. unfold run, run_from. set (s0 := set_targets (ra_n_total a) (ra_n_evidence a) s).
    assert (D : draw_prior W R s0 = Ok s0) by (unfold draw_prior; change (s_prior_samples s0) with (s_prior_samples s); destruct (s_prior_samples s); [reflexivity|easy]).
    rewrite D. cbn [lift tbind]. unfold warmup. change (s_warmup s0) with (s_warmup s). rewrite Hw. cbn [tbind].
    assert (N : not_termination s0 = Ok false) by (apply (converged_spec s0 (ra_n_total a)); [reflexivity|exact Hc]).
    assert (L : smc_loop W (ra_fuel a) (ra_bfuel a) (ra_save_every a) (s_t s) R s0 = ([], Ok s0)) by (destruct (ra_fuel a); cbn [smc_loop]; now rewrite N).
    rewrite L. cbn [tbind app]. destruct (final_evidence W R s0); cbn [tbind app]; [|reflexivity]. destruct (ra_save_every a); reflexivity.
  Qed.
  Theorem run_again_adds_nothing a R s evs s' : s_warmup s = false -> s_prior_samples s <> None -> converged s (ra_n_total a) -> run W a R s = (evs, Ok s') ->
    history_of s' = history_of s /\ s_t s' = s_t s /\ s_current s' = s_current s /\ s_evals s' = s_evals s /\ (forall e, In e evs -> ev_file e = Final).
  Proof.
    intros Hw Hp Hc. rewrite (run_again a R s Hw Hp Hc). destruct (final_evidence W R _) as [s1|] eqn:E; [|discriminate]. intros H. injection H as <- <-.
    apply evidence_facts in E as (? & ? & ? & ? & ? & ? & _ & -> & _). repeat (split; [reflexivity|]). destruct (ra_save_every a); intros e He; [|easy].
    destruct He as [<-|[]]. reflexivity.
  Qed.

  (** A sampler returned by run has been warmed up. *)
  Lemma run_done a R s evs s' : run W a R s = (evs, Ok s') -> s_warmup s' = false /\ s_prior_samples s' <> None.
  Proof.
    intros H. assert (Q : snd (run W a R s) = Ok s') by now rewrite H. clear H evs. unfold run, run_from in Q.
    apply tbind_ok in Q as (s1 & Q1 & Q). cbn [lift snd] in Q1. assert (E1 : s_prior_samples s1 <> None).
    { apply draw_facts in Q1 as [[N ->]|[_ (ps & sc & _ & _ & ->)]]; [exact N|discriminate]. }
    apply tbind_ok in Q as (s2 & Q2 & Q). assert (E2 : s_warmup s2 = false /\ s_prior_samples s2 <> None).
    { clear -E1 Q2. unfold warmup in Q2. destruct (s_warmup s1) eqn:Ew; [|cbn in Q2; injection Q2 as <-; auto]. destruct (Nat.eqb _ _); [discriminate|].
      apply tbind_ok in Q2 as (s3 & Q2 & Q3). cbn in Q3. injection Q3 as <-. split; [reflexivity|]. change (s_prior_samples (end_warmup s3)) with (s_prior_samples s3). clear Ew.
      set (k := n_batches (s_cfg s1)) in Q2. clearbody k. revert s1 E1 Q2. generalize 0%nat as i. induction k as [|k IH]; intros i s1 E1 Q2; cbn [warmup_loop] in Q2; [cbn in Q2; congruence|].
      apply tbind_ok in Q2 as (s2 & H2 & H1). apply checkpoint_same in H2. subst s2. apply tbind_ok in H1 as (s2 & H2 & H1). cbn [lift snd] in H2.
      apply IH in H1; auto. apply warmup_facts in H2 as (ps & x0 & u0 & xi & ldj0 & logp0 & logl0 & b0 & x & u & ldj & logp & logl & b & c & _ & _ & _ & _ & _ & _ & _ & _ & ->). discriminate. }
    apply tbind_ok in Q as (s3 & Q3 & Q). assert (E3 : s_warmup s3 = false /\ s_prior_samples s3 <> None).
    { clear -E2 Q3. set (f := ra_fuel a) in *. clearbody f. revert s2 E2 Q3. generalize (s_t s) as t0. induction f as [|fuel IH]; intros t0 s2 E2; cbn [smc_loop]; (destruct (not_termination s2) as [[|]|]; [|intros Q; injection Q as <-; auto|discriminate]); [discriminate|].
      intros H. apply tbind_ok in H as (s1 & H1 & H). apply checkpoint_same in H1. subst s1. apply tbind_ok in H as (s4 & H2 & H).
      cbn [lift snd] in H2. apply IH in H; [exact H|]. pose proof (iteration_frame W _ _ _ _ H2) as (_ & F & _). split; [destruct E2; congruence|].
      apply iteration_facts in H2 as (t1 & t2 & t3 & t4 & c4 & H1 & H2 & H3 & H4 & _ & ->).
      apply reweight_facts in H1 as (c & beta & logz & ess & w0 & neff & w1 & idx & w2 & lf & u & x & ldj & logl & logp & b & c1 & _ & _ & _ & _ & _ & _ & _ & _ & _ & _ & _ & _ & ->).
      apply train_facts in H2 as (c2 & now & fl & un & ug & tg & _ & _ & _ & ->).
      apply resample_facts in H3 as (c3 & w3 & idx3 & u3 & x3 & ldj3 & logl3 & logp3 & b3 & _ & _ & _ & _ & _ & _ & _ & _ & _ & ->).
      apply mutate_facts in H4 as (c5 & b5 & ks & res & c' & _ & _ & _ & _ & _ & _ & ->). cbn [with_particles s_prior_samples with_current]. apply E2. }
    apply tbind_ok in Q as (s4 & Q5 & Q). cbn [lift snd] in Q5. assert (s' = s4) by (destruct (ra_save_every a); cbn in Q; congruence). subst s4.
    apply evidence_facts in Q5 as (? & ? & ? & ? & ? & ? & _ & -> & _). exact E3.
  Qed.

  (** ** Training *)
  Lemma trains_due s beta now : trains s beta = Ok now ->
    (now = true <-> training_due (c_preconditioned (s_cfg s)) (s_untrained s) (c_train_frequency (s_cfg s)) (s_t s) beta).
  Proof.
    unfold trains, training_due. destruct (c_preconditioned (s_cfg s)).
    - destruct (Z.eqb_spec (c_train_frequency (s_cfg s)) 0) as [|N]; [discriminate|]. intros H. apply Ok_inj in H. subst now. rewrite !orb_true_iff, Z.eqb_eq, Z.mod_divide by exact N. tauto.
    - intros H. apply Ok_inj in H. subst now. split; [discriminate|now intros [? _]].
  Qed.
  Theorem train_schedule R s c s2 : s_current s = Some c -> train W R s = Ok s2 ->
    let due := training_due (c_preconditioned (s_cfg s)) (s_untrained s) (c_train_frequency (s_cfg s)) (s_t s) (cu_beta c) in
    let options := set_train (c_train (s_cfg s)) (TC_batch_size (Z.min (Z.of_nat (length (cu_u c)) / 2) (c_batch_size (c_train (s_cfg s))))) in
    (due /\ s_untrained s2 = false /\ s_u_geometry s2 = s_u_geometry s /\
      exists history stop, flow_fit (wd_train W) options (ir_fit (rn_iter R (s_t s))) (s_flow s) (cu_u c) (cu_weights c) = Ok (s_flow s2, history, stop)) \/
    (~ due /\ s_flow s2 = s_flow s /\ s_untrained s2 = s_untrained s /\ s_theta_geometry s2 = s_theta_geometry s).
  Proof.
    intros Ec H due options. apply train_facts in H as (c2 & now & fl & un & ug & tg & E2 & Ht & Hn & ->). rewrite Ec in E2. injection E2 as <-.
    apply trains_due in Ht. fold due in Ht. destruct now.
    - left. destruct Hn as (-> & -> & (hist & stop & Hf) & _). split; [now apply Ht|]. split; [reflexivity|]. split; [reflexivity|]. exists hist, stop. exact Hf.
    - right. destruct Hn as (-> & -> & -> & _). split; [intros Q; apply Ht in Q; discriminate|]. auto.
  Qed.
  (** In terms of a whole iteration: t is counted from 1 at the first iteration. *)
  Theorem iteration_schedule fuel R s s' : iteration W fuel R s = Ok s' -> exists beta,
    h_beta (history_of s') = h_beta (history_of s) ++ [beta] /\ s_t s' = (s_t s + 1)%Z /\
    let due := training_due (c_preconditioned (s_cfg s)) (s_untrained s) (c_train_frequency (s_cfg s)) (s_t s') beta in
    (due /\ s_untrained s' = false /\ exists options u w history stop, flow_fit (wd_train W) options (ir_fit (rn_iter R (s_t s'))) (s_flow s) u w = Ok (s_flow s', history, stop)) \/
    (~ due /\ s_flow s' = s_flow s /\ s_untrained s' = s_untrained s).
  Proof.
    intros H. pose proof (iteration_step _ _ _ _ H) as (beta & logz & ess & c & Hb & R1 & _).
    apply iteration_facts in H as (s1 & s2 & s3 & s4 & c4 & H1 & H2 & H3 & H4 & Hc & ->).
    apply reweight_facts in H1 as (c0 & beta' & logz' & ess' & w0 & neff & w1 & idx & w2 & lf & u & x & ldj & logl & logp & b & c1 & _ & Hb' & _ & _ & _ & _ & _ & _ & _ & _ & _ & -> & ->).
    rewrite Hb in Hb'. apply Ok_inj in Hb'. injection Hb' as <- <- <-.
    pose proof H2 as H2'. apply train_facts in H2' as (c2 & now & fl & un & ug & tg & _ & _ & _ & E2).
    eapply train_schedule in H2; [|reflexivity]. rewrite E2 in *. clear E2 s2. cbn [s_cfg s_untrained s_t s_flow s_u_geometry s_theta_geometry cu_beta cu_u cu_weights] in H2.
    apply resample_facts in H3 as (c3 & w3 & idx3 & u3 & x3 & ldj3 & logl3 & logp3 & b3 & E3 & _ & _ & _ & _ & _ & _ & _ & _ & ->).
    apply mutate_facts in H4 as (c5 & b5 & ks & res & c' & E4 & _ & _ & _ & _ & -> & ->).
    exists beta. split; [exact R1|]. cbn [with_particles s_t s_flow s_untrained with_current]. split; [reflexivity|].
    destruct H2 as [(D & U & _ & hist & stop & F)|(D & F & U & _)]; [left|right; auto]. split; [exact D|]. split; [exact U|]. do 3 eexists. exists hist, stop. exact F.
  Qed.
End Loop.

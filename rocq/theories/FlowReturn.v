(** * With the flow, an iteration returns *)
From Coq Require Import Reals ZArith List Bool Lia Lra.
From Coquelicot Require Import Coquelicot.
From Coq Require Import List.
From Verif Require Import Num PyBase PyBaseFacts XReal RList Tools SpecTools ToolsFacts TrimFacts ToolsSpecFacts ResampleFacts SelectFacts RowFacts Scaler SpecScaler Particles SpecParticles LogLike Geometry SpecGeometry GeometryFacts
  Mcmc SpecMcmc SpecBalance SpecChain Flow Sampler ConfigFacts SpecReach SamplerFacts Reach SpecRun ParticleInv SpecExact SpecPosterior PosteriorFacts SpecIterate IterateFacts IterateFit IterateTotal
  SpecReturn ReturnFacts SpecTrainReturn TrainReturn SpecFlowReturn.
Import ListNotations.
Set Bullet Behavior "Strict Subproofs".
Local Open Scope R_scope.

Lemma spanning_distinct d xs : (0 < d)%nat -> spanning d xs -> Forall (fun x => length x = d) xs -> two_samples xs.
Proof.
  intros D0 Hs FD. destruct xs as [|x xs]; [pose proof (spanning_two d _ D0 Hs); cbn in *; lia|].
  destruct (List.Forall_dec (fun y => y = x) (fun y => list_eq_dec Req_EM_T y x) xs) as [A|A].
  - exfalso. assert (H : (1 : R) = 0); [|lra]. refine (Hs (fun _ => 1) (lin d (fun _ => 1) x) _ 0%nat D0). intros y [<-|Hy]; [reflexivity|]. rewrite Forall_forall in A. now rewrite (A y Hy).
  - apply neg_Forall_Exists_neg in A; [|intros y; apply list_eq_dec, Req_EM_T]. apply Exists_exists in A as (y & Hy & N). exists x, y. split; [now left|]. split; [now right|congruence].
Qed.
Lemma options_train c n : flow_options c -> (2 <= n)%nat -> training_options (with_batch_size c (Z.min (Z.of_nat n / 2) (c_batch_size c))) n.
Proof.
  intros [(v & Ev & Hv) HB HV] N. constructor; cbn [with_batch_size c_validation_split c_batch_size c_verbose c_epochs]; [|pose proof (Z.div_le_mono 2 (Z.of_nat n) 2 ltac:(lia) ltac:(lia)) as Q; change (2 / 2)%Z with 1%Z in Q; lia|exact HV].
  exists v. split; [exact Ev|]. destruct Hv as [Hv|[V1 V2]]; [now left|right; split; [|exact V2]]. apply le_INR in N. cbn [INR] in N. nra.
Qed.
Lemma images_at {A B} (f : A -> B -> Prop) xs ys idx qs : Forall2 f xs ys -> at_positions ys idx qs -> exists ps, at_positions xs idx ps /\ Forall2 f ps qs.
Proof.
  intros F. unfold at_positions. induction 1 as [|i q idx qs E _ (ps & H1 & H2)]; [exists []; split; constructor|].
  assert (X0 : exists p, nth_error xs i = Some p /\ f p q).
  { clear -F E. revert i E. induction F as [|x y xs ys Hf _ IH]; intros [|i] E; try discriminate; cbn in *; [injection E as <-; eauto|auto]. }
  destruct X0 as (p & Ep & Hp). exists (p :: ps). split; constructor; auto.
Qed.

Section Flow.
  Context {C P Opt : Type}.
  Variable W : world X C P Opt.
  Variable lp ll : vec X -> X.
  Variable bl : option (vec X -> list C).
  Variable rows : list (X * X).
  Hypothesis EM : exact_model W lp ll bl rows.
  Variable interrupts : bool.
  Notation reachable := (reachable W (exact_draws rows) interrupts).
  Implicit Types s : sampler X C P.
  Notation d := (length rows).

  Lemma latent_images p us : (forall u, length u = d -> exists th f, wd_flow_forward W p (map Fin u) = (map Fin th, Fin f) /\ length th = d) -> Forall (fun u => length u = d) us ->
    exists ths, latent W p (fin_mat us) = fin_mat ths /\ Forall (fun u => length u = d) ths /\ length ths = length us /\ images W p us ths.
  Proof.
    intros HF. induction 1 as [|u us Hu _ (ths & E & F & L & I)]; [exists []; repeat split; constructor|]. destruct (HF u Hu) as (th & f & E1 & L1).
    exists (th :: ths). split; [|split; [now constructor|split; [cbn; now rewrite L|constructor; [now rewrite E1|exact I]]]]. unfold latent, fin_mat in *. cbn [map]. rewrite E1, E. reflexivity.
  Qed.

  Theorem flow_returns s : reachable s -> exact_sampler rows s -> iterations (history_of s) <> 0%nat -> (s_have_blobs s = true -> blobs_of (s_cfg s) bl <> None) -> returning W lp bl ->
    c_preconditioned (s_cfg s) = true -> (c_sample (s_cfg s) = RWMH -> (2 <= d)%nat) -> c_train_frequency (s_cfg s) <> 0%Z -> flow_options (c_train (s_cfg s)) ->
    good_solve d (wd_fit W) -> good_bisect (wd_fit W) -> total_fit d (wd_fit W) -> good_linalg d (wd_linalg W) -> total_linalg d (wd_linalg W) ->
    (forall s, flow_bijection (kernel_env_of W s) d) -> proper_latent d s ->
    exists halvings, forall fuel, (halvings <= fuel)%nat -> exists s1, reweight fuel s = Ok s1 /\
      forall rnd normal uniform gamma, well_spread d rnd s1 -> well_spread_latent W rnd d s1 -> fit_permutations rnd s1 -> fit_number rnd (s_t s1) -> resampling_numbers rnd (s_t s1) ->
        exact_rand (c_n_active (s_cfg s)) (step_numbers rnd s1) normal uniform -> exact_gamma (step_numbers rnd s1) gamma ->
        exists s', iteration W fuel rnd s = Ok s' /\ proper_latent d s'.
  Proof.
    intros H ES NE HB RT NP K2 FQ FO GS GB TF GL TL FB PL. destruct (always_returns W lp ll bl rows EM interrupts s H ES NE HB RT) as [k Hk].
    exists k. intros fuel Hf. destruct (Hk fuel Hf) as (s1 & H1 & N). exists s1. split; [exact H1|]. intros rnd normal uniform gamma WS WL PM (off & Eo & Ho) RN ER EG.
    destruct (survivors W lp ll bl rows EM interrupts fuel s s1 H ES H1) as (c1 & q & us & e & Hc1 & Ew & Eu & FU & LQ & PQ & TQ & _ & _ & _ & _ & _ & F1).
    assert (U1 : s_untrained s1 = s_untrained s /\ s_theta_geometry s1 = s_theta_geometry s).
    { apply reweight_facts in H1 as (c & beta & logz & ess & w0' & neff' & w1' & idx' & w2' & lf' & u & x & ldj & logl & logp & b & cn & _ & _ & _ & _ & _ & _ & _ & _ & _ & _ & _ & _ & ->). split; reflexivity. }
    destruct U1 as [U1 G1]. assert (NU : us <> []) by (intros ->; destruct q; [cbn in TQ; lra|discriminate]). pose proof (em_dim _ _ _ _ _ EM) as D0.
    destruct (geometry_total (wd_fit W) off d us q D0 GS GB TF Ho) as (g & Eg & GG); auto.
    { intros again pts Pk At. apply WS. exists c1, q, us, off, again. auto 8. }
    (* some sample of the survivors: there are two different ones *)
    assert (TS : two_samples us).
    { assert (L1 : (1 <= length us)%nat) by (destruct us; [congruence|cbn; lia]).
      assert (NN : Forall (fun w => 0 <= w) q) by (eapply Forall_impl; [|exact PQ]; cbv beta; intros; lra).
      destruct (systematic_counts off (length us) q) as (idx & Ei & _ & _ & Fi & _); [split; [exact NN|split; [lra|now left]]|exact Ho|exact L1|].
      pose proof (picked_syst_nonneg (fun _ => 0) off (length us) q idx NN TQ Ho L1 Ei) as PK.
      pose proof (gather_all us idx [] ltac:(intros i Hi; rewrite <- LQ; exact (proj1 (Forall_forall _ _) Fi i Hi))) as Egt. set (ys := map (fun i => nth i us []) idx) in *.
      pose proof (gather_in _ _ _ Egt) as [_ Iy].
      assert (SP : spanning d ys) by (apply WS; exists c1, q, us, off, idx; repeat (split; [assumption|]); now apply gather_Forall2).
      apply (spanning_distinct d us D0); [exact (spanning_more d us ys Iy SP)|exact FU]. }
    assert (LU : (2 <= length us)%nat).
    { destruct TS as (a & b & Ha & Hb & AB). destruct us as [|x [|y us]]; [contradiction| |cbn; lia]. destruct Ha as [<-|[]]. destruct Hb as [<-|[]]. congruence. }
    assert (H2 : exists s2, train W rnd s1 = Ok s2 /\ s_t s2 = s_t s1 /\ s_cfg s2 = s_cfg s /\ good_geometry d (s_theta_geometry s2)).
    { unfold train. rewrite Hc1. cbn [of_option bind]. unfold trains at 1. rewrite F1, NP. apply Z.eqb_neq in FQ. rewrite FQ. cbn [bind].
      destruct ((s_t s1 mod c_train_frequency (s_cfg s) =? 0)%Z || (cu_beta c1 =? nofZ 1)%num || s_untrained s1) eqn:Et.
      - destruct (training_returns (wd_train W) (with_batch_size (c_train (s_cfg s)) (Z.min (Z.of_nat (length us) / 2) (c_batch_size (c_train (s_cfg s))))) (ir_fit (rn_iter rnd (s_t s1))) (s_flow s1) d us (Some (map Fin q)))
          as (p & hist & early & EF); auto.
        { apply options_train; auto. }
        { specialize (PM c1 Hc1). rewrite F1, Eu in PM. unfold fin_mat in PM. rewrite map_length in PM. exact PM. }
        { intros v [= <-]. now rewrite map_length. }
        assert (TT : trained_to W rnd s1 p).
        { exists c1, hist, early. split; [exact Hc1|]. rewrite Eu, Ew, F1. unfold fin_mat. rewrite map_length. exact EF. }
        destruct (latent_images p us) as (ths & El & FT & LT & IM); [|exact FU|].
        { intros u Hu. set (sp := {| s_cfg := s_cfg s; s_pool := s_pool s; s_n_effective := s_n_effective s; s_have_blobs := s_have_blobs s;
            s_n_total := s_n_total s; s_n_evidence := s_n_evidence s; s_particles := s_particles s; s_t := s_t s;
            s_u_geometry := s_u_geometry s; s_theta_geometry := s_theta_geometry s; s_flow := p; s_untrained := s_untrained s;
            s_scaler := s_scaler s; s_prior_samples := s_prior_samples s;
            s_logz := s_logz s; s_logz_err := s_logz_err s; s_current := s_current s; s_warmup := s_warmup s;
            s_calls := s_calls s; s_scale := s_scale s; s_evals := s_evals s; s_evidence_evals := s_evidence_evals s |}).
          destruct (fb_forward _ _ (FB sp) u Hu) as (th & f & E1 & E2 & _). exists th, f. split; [exact E1|exact E2]. }
        destruct (geometry_total (wd_fit W) off d ths q D0 GS GB TF Ho) as (gl & Egl & GGl); auto; try congruence.
        { intros ->. destruct us; [congruence|discriminate]. }
        { intros again pts Pk At. destruct (images_at _ _ _ _ _ IM At) as (ps & At' & IM'). apply (WL p ps pts TT); [|exact IM'].
          exists c1, q, us, off, again. rewrite LT in Pk. auto 8. }
        rewrite (es_dim _ _ ES), Ew, Eu, Eo.
        assert (EF' : flow_fit (wd_train W) (set_train (c_train (s_cfg s)) (TC_batch_size (Z.min (Z.of_nat (length (fin_mat us)) / 2) (c_batch_size (c_train (s_cfg s)))))) (ir_fit (rn_iter rnd (s_t s1))) (s_flow s1) (fin_mat us) (Some (map Fin q)) = Ok (p, hist, early)).
        { unfold fin_mat. rewrite map_length. exact EF. }
        assert (EG' : geometry_fit (wd_fit W) (Fin off) d (latent W p (fin_mat us)) (Some (map Fin q)) = Ok gl) by (rewrite El; exact Egl).
        eexists. split.
        { refine (eq_trans (f_equal (fun m => bind m _) (f_equal (fun m => bind m _) EF')) _). cbn [bind]. refine (eq_trans (f_equal (fun m => bind m _) (f_equal (fun m => bind m _) EG')) _). cbn [bind]. reflexivity. }
        split; [reflexivity|]. split; [reflexivity|]. exact GGl.
      - rewrite (es_dim _ _ ES), Ew, Eu, Eo.
        eexists. split; [refine (eq_trans (f_equal (fun m => bind m _) (f_equal (fun m => bind m _) Eg)) _); cbn [bind]; reflexivity|].
        split; [reflexivity|]. split; [reflexivity|]. cbn [s_theta_geometry]. rewrite G1. apply PL. apply orb_false_iff in Et as [_ Et]. congruence. }
    destruct H2 as (s2 & H2 & T2 & C2 & G2).
    assert (Gu : geometry_in_use s2 = s_theta_geometry s2) by (unfold geometry_in_use; now rewrite C2, NP).
    destruct (fits_ready rows (kernel_env_of W s2) (geometry_in_use s2) GL TL) as [Q1 Q2]; [now rewrite Gu|]. unfold step_numbers in *.
    destruct (N rnd s2 normal uniform H2) as [s' HI]; [now rewrite T2|now unfold step_numbers; rewrite T2| |].
    { unfold ready. rewrite C2, NP. split; [|intros _; apply FB]. destruct (c_sample (s_cfg s)) eqn:Es; [|now apply Q1, K2].
      split; [exact Q2|]. exists gamma. unfold step_numbers. now rewrite T2. }
    exists s'. split; [exact HI|]. intros _.
    assert (GE : s_theta_geometry s' = s_theta_geometry s2).
    { apply iteration_facts in HI as (s1' & s2' & s3 & s4 & c4 & H1' & H2' & H3 & H4 & Hc & ->). rewrite H1 in H1'. apply Ok_inj in H1'. subst s1'. rewrite H2 in H2'. apply Ok_inj in H2'. subst s2'.
      apply resample_facts in H3 as (c3 & w3 & idx3 & u3 & x3 & ldj3 & logl3 & logp3 & b3 & _ & _ & _ & _ & _ & _ & _ & _ & _ & ->).
      apply mutate_facts in H4 as (c5 & b5 & ks & res & c' & _ & _ & _ & _ & _ & _ & ->). reflexivity. }
    rewrite GE. exact G2.
  Qed.
End Flow.

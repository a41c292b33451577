(** * Survivors of the trimming, the geometry fitted to them, and totality of an iteration *)
From Coq Require Import Reals ZArith List Bool Lia Lra.
From Coquelicot Require Import Coquelicot.
From Coq Require Import List.
From Verif Require Import Num PyBase PyBaseFacts XReal RList Tools SpecTools ToolsFacts TrimFacts ToolsSpecFacts ResampleFacts ChoiceFacts Scaler ScalerStruct SpecScaler ScalerFacts ScalerSpecFacts ScalerFitFacts ScalerReal Particles SpecParticles LogLike LogLikeFacts Geometry SpecGeometry GeometryFacts
  Mcmc SpecMcmc McmcFacts McmcNum McmcInv McmcSigma
  SpecBalance SpecChain ChainLaws ChainCases Flow Sampler ConfigFacts SpecReach SamplerFacts Reach SpecRun BetaFacts XUnit RowFacts ParticleInv HistoryFacts SpecExact HistoryExact HistoryMain
  SpecEss BisectFacts FiniteHistory LoopFacts LoopExact SpecIterate IterateFacts.
Import ListNotations.
Set Bullet Behavior "Strict Subproofs".
Local Open Scope R_scope.

Lemma in_combine_snd {A} (f : A * R -> bool) (a : list A) (p : list R) x : In x (map snd (filter f (combine a p))) -> In x p.
Proof. intros H. apply in_map_iff in H as [[y q] [<- H]]. apply filter_In in H as [H _]. now apply in_combine_r in H. Qed.

Lemma map_map_inj {A B} (f : A -> B) : (forall x y, f x = f y -> x = y) -> forall l l', map f l = map f l' -> l = l'.
Proof. intros Hf. induction l as [|a l IH]; intros [|b l'] E; try discriminate; [reflexivity|]. cbn in E. injection E as E1 E2. f_equal; auto. Qed.
Lemma Fin_inj x y : Fin x = Fin y -> x = y.
Proof. now intros [= ->]. Qed.
Lemma history_unique {B} (p : past X B) ls bs zs ls' bs' zs' : history p ls bs zs -> history p ls' bs' zs' -> ls = ls' /\ bs = bs' /\ zs = zs'.
Proof.
  intros (A1 & A2 & A3 & _) (B1 & B2 & B3 & _). rewrite A1 in B1. rewrite A2 in B2. rewrite A3 in B3.
  split; [|split]; revert B1 B2 B3; [intros E _ _|intros _ E _|intros _ _ E]; revert E; apply map_map_inj; try exact Fin_inj. intros x y. apply map_map_inj, Fin_inj.
Qed.
Lemma fit_real o offset d us q g : good_solve d o -> good_bisect o -> (2 <= length q)%nat -> length q = length us -> Forall (fun u => length u = d) us -> Forall (fun x => 0 < x) q ->
  geometry_fit o offset d (fin_mat us) (Some (map Fin q)) = Ok g ->
  (exists nu, t_nu g = Some (Fin nu) /\ 0 < nu) /\ (exists V, t_cov g = Some (fin_mat V) /\ square d V /\ symmetric d V) /\
  (exists V, normal_cov g = Some (squeeze (fin_mat V)) /\ square d V /\ symmetric d V) /\ (exists mu, t_mean g = Some (map Fin mu) /\ length mu = d).
Proof.
  intros GS GB L2 LQ LU PQ E.
  destruct (geometry_fit_good o offset d us (Some q) g GS GB ltac:(lia) LU) as (A1 & (V & A2 & A3 & A4 & _) & (V' & B2 & B3 & B4 & _) & (mu & M1 & M2 & _)).
  - split; [exact LQ|]. split; [eapply Forall_impl; [|exact PQ]; cbv beta; intros; lra|]. exists 0%nat, 1%nat. split; [lia|].
    rewrite Forall_forall in PQ. split; apply PQ, nth_In; lia.
  - exact E.
  - split; [exact A1|]. split; [eauto|]. split; eauto.
Qed.

Section Fit.
  Context {C P Opt : Type}.
  Variable W : world X C P Opt.
  Variable lp ll : vec X -> X.
  Variable bl : option (vec X -> list C).
  Variable rows : list (X * X).
  Hypothesis EM : exact_model W lp ll bl rows.
  Variable interrupts : bool.
  Notation reachable := (reachable W (exact_draws rows) interrupts).
  Implicit Types s : sampler X C P.
  Let RG := em_regular _ _ _ _ _ EM.
  Let HN : forall x, strictly_inside rows x -> ll x <> NaN.
  Proof. intros x Hx E. destruct (em_inside _ _ _ _ _ EM x Hx) as [_ Q]. rewrite E in Q. discriminate. Qed.
  Let weaken s (H : reachable s) := weaken W interrupts rows s H.
  Notation d := (length rows).

  Lemma survivors fuel s s1 : reachable s -> exact_sampler rows s -> reweight fuel s = Ok s1 ->
    exists c1 q us e, s_current s1 = Some c1 /\ cu_weights c1 = Some (map Fin q) /\ cu_u c1 = fin_mat us /\ Forall (fun u => length u = d) us /\ length q = length us /\
      Forall (fun x => 0 < x) q /\ total q = 1 /\ cu_ess c1 = Fin e /\ (c_metric (s_cfg s) = ESS -> 99 / 100 * e <= INR (length q)) /\
      rectangular (current_arrays c1) (length q) /\ has_blobs (current_arrays c1) = with_blobs bl s /\ s_have_blobs s1 = with_blobs bl s /\ s_cfg s1 = s_cfg s.
  Proof.
    intros H ES H1. pose proof (weaken s H) as Hw.
    pose proof (reachable_pinv W x_undefined x_random X_ieee _ x_unit_interval lp ll bl RG (strictly_inside rows) interrupts s Hw) as I.
    pose proof I as [Pp _ [A _] _ _].
    destruct (reweight_rows_trim W x_undefined lp ll bl (strictly_inside rows) fuel s s1 I H1) as (EH & NE & idx & c1 & Hc1 & G & w0 & neff & w1 & w2 & lf & Q1 & Q2 & Q3 & Q4 & F1 & F2).
    destruct (flat_rows _ _ _ A) as (FR & FB & _). destruct (gathered_rows _ _ _ _ FR G) as (Y1 & Y2 & Y3).
    assert (S1 : exists b' , cu_beta c1 = Fin b' /\ exists ls bs zs, history (history_of s) ls bs zs /\ cu_ess c1 = Fin (sample_size (c_metric (s_cfg s)) (weights_at ls bs zs b'))).
    { pose proof H1 as H1'. apply reweight_facts in H1' as (c & beta & logz & ess & w0' & neff' & w1' & idx' & w2' & lf' & u & x & ldj & logl & logp & b & cn & _ & Hb & _ & _ & _ & _ & _ & _ & _ & _ & _ & -> & ->).
      cbn [s_current] in Hc1. injection Hc1 as <-. cbn [cu_beta cu_ess].
      destruct (exact_past W lp ll bl RG _ HN (em_bounded _ _ _ _ _ EM) interrupts s Hw NE) as (ls & bs & zs & HH & B01 & _).
      destruct (next_beta_sound _ ls bs zs HH fuel _ (IZR (s_n_effective s)) beta logz ess Hb) as (rest & b0 & b' & E1 & -> & -> & _ & Cs).
      exists b'. split; [reflexivity|]. exists ls, bs, zs. auto. }
    destruct S1 as (beta & Eb & ls1 & bs1 & zs1 & HH1 & Ee).
    destruct (weights_finite W lp ll bl RG _ HN (em_bounded _ _ _ _ _ EM) interrupts s beta Hw NE) as (ls & bs & zs & w & HH2 & Ew0 & P1 & P2 & LW & w0' & Ew & En).
    rewrite Eb in Q1. rewrite Ew in Q1. apply Ok_inj in Q1. subst w0'.
    destruct (adjust_exact (s_cfg s) (s_n_effective s) w _ (effective_nonneg W lp ll bl RG _ HN (em_bounded _ _ _ _ _ EM) interrupts s Hw) (active_pos W lp ll bl RG _ HN (em_bounded _ _ _ _ _ EM) interrupts s Hw NE) P1 P2 eq_refl) as (n' & Ea & _).
    change (@normalise X (@numT_Num X XNumT) w0) with (@normalise X XNum w0) in Q2. rewrite En in Q2.
    set (p := map (fun x => x / Rsum w) w) in *.
    assert (Q' : Ok (neff, w1) = Ok (n', map Fin p)) by (rewrite <- Q2; exact Ea). apply Ok_inj in Q'. injection Q' as _ ->.
    assert (PP : Forall (fun x => 0 < x) p) by (apply Forall_map; eapply Forall_impl; [|exact P1]; cbv beta; intros y Hy; apply Rdiv_lt_0_compat; lra).
    assert (NN : Forall (fun x => 0 <= x) p) by (eapply Forall_impl; [|exact PP]; cbv beta; intros; lra).
    assert (NP : p <> []) by (intros E; unfold p in E; apply map_eq_nil in E; subst w; rewrite E in P2; cbn in P2; lra).
    assert (TP : 0 < total p) by (rewrite total_Rsum; now apply Rsum_pos).
    destruct (trim_weights_ok (seq 0 (length (map Fin p))) p (99 / 100) 1000 NN TP) as (j & tau & _ & _ & Et & TK & K1 & _); [rewrite seq_length; apply map_length|lia|lra|].
    change (@nfrac X (@numT_Num X XNumT) 99 100) with (@nfrac X XNum 99 100) in Q3. rewrite frac_fin in Q3 by lra.
    set (kept := filter _ _) in *. set (kw := map snd kept) in *.
    assert (Q5 : Ok (idx, w2, lf) = Ok (map fst kept, map Fin (map (fun w => w / total kw) kw), map Fin (map (fun w => w / total p) p))) by (rewrite <- Q3; exact Et).
    apply Ok_inj in Q5. injection Q5 as Ei -> _.
    assert (KP : Forall (fun x => 0 < x) kw).
    { apply Forall_forall. intros x Hx. apply in_combine_snd in Hx. apply in_map_iff in Hx as (y & <- & Hy). apply Rdiv_lt_0_compat; [|exact TP]. rewrite Forall_forall in PP. now apply PP. }
    assert (LK : length idx = length kw) by (rewrite Ei; unfold kw; now rewrite !map_length).
    assert (PT : forall k, (k < length idx)%nat -> in_history s (particle_at (current_arrays c1) k)).
    { intros k Hk. destruct (Y3 _ Hk) as [V3 V4].
      destruct (flat_index _ _ _ _ A V3) as (t & j' & Ht & Hj & Eq & V5). exists t, j'. split; [exact Ht|]. split; [|congruence].
      destruct A as [_ _ _ _ _ A6]. destruct (A6 t Ht) as [[R1 _ _ _ _ _] _]. cbn [stored w_u] in R1. change (vec X) with (list X) in *. rewrite R1. exact Hj. }
    assert (LU : length (cu_u c1) = length idx) by apply Y1.
    destruct (points_real (cu_u c1) d) as (us & EU & FU).
    { intros k Hk. change (vec X) with (list X) in *. rewrite LU in Hk.
      destruct (history_point W lp ll bl rows EM interrupts s _ H ES (PT k Hk)) as (_ & _ & _ & u & x & a & b & l & R1 & R2 & _). exists u. auto. }
    exists c1, (map (fun w => w / total kw) kw), us, (sample_size (c_metric (s_cfg s)) (weights_at ls1 bs1 zs1 beta)).
    split; [exact Hc1|]. split; [exact Q4|]. split; [exact EU|]. split; [exact FU|].
    split; [rewrite map_length, <- LK, <- LU; rewrite EU; apply map_length|].
    split; [apply Forall_map; eapply Forall_impl; [|exact KP]; cbv beta; intros; now apply Rdiv_lt_0_compat|].
    split; [rewrite !total_Rsum in *; now apply Rsum_norm|]. split; [exact Ee|]. split.
    { intros ME. rewrite ME. cbn [sample_size]. rewrite map_length.
      assert (KB : kish_ess kw <= INR (length kw)).
      { destruct (C14_lemma kw) as (e & _ & -> & B & _); [eapply Forall_impl; [|exact KP]; cbv beta; intros; lra|exact TK|]. apply B. }
      assert (KE : kish_ess p = kish_ess (weights_at ls1 bs1 zs1 beta)).
      { destruct (history_unique _ _ _ _ _ _ _ HH1 HH2) as (-> & -> & ->). rewrite <- Ew0.
        destruct (C14_lemma w) as (e & _ & Ee1 & _ & _ & _ & SC); [eapply Forall_impl; [|exact P1]; cbv beta; intros; lra|now rewrite total_Rsum|].
        destruct (C14_lemma p NN TP) as (e' & Ee2 & Ee3 & _). specialize (SC (/ Rsum w) ltac:(now apply Rinv_0_lt_compat)).
        replace (map (fun x => / Rsum w * x) w) with p in SC by (unfold p; apply map_ext; intros; unfold Rdiv; ring). rewrite Ee2 in SC. cbn [fst] in SC. injection SC as SC. congruence. }
      rewrite <- KE. lra. }
    split; [rewrite map_length, <- LK; exact Y1|]. split; [exact (eq_trans Y2 FB)|]. split; [congruence|exact F1].
  Qed.

  (** the geometry fitted in this iteration *)
  Definition real_geometry (g : geometry X) : Prop :=
    (exists nu, t_nu g = Some (Fin nu) /\ 0 < nu) /\ (exists V, t_cov g = Some (fin_mat V) /\ square d V /\ symmetric d V) /\
    (exists V, normal_cov g = Some (squeeze (fin_mat V)) /\ square d V /\ symmetric d V) /\ (exists mu, t_mean g = Some (map Fin mu) /\ length mu = d).
  Lemma real_fit (env : kernel_env X (list C)) k g scale ks rand res : good_linalg d (k_linalg env) -> real_geometry g -> kernel_fun k env g scale ks rand = Ok res ->
    match k with RWM | PRWM => exists V L, normal_fit env d g V L | PCN | PPCN => exists V L Vi mu nu, student_fit env d g V L Vi mu nu end.
  Proof.
    intros [GC GI] ((nu & Enu & Hnu) & (V & EV & SV & YV) & (V' & EV' & SV' & YV') & (mu & Em & Lm)) E.
    assert (NF : forall m, need_cov (normal_cov g) = Ok m -> forall M, la_cholesky (k_linalg env) m = Ok M -> exists V L, normal_fit env d g V L).
    { intros m E1 M E2. rewrite EV' in E1. unfold need_cov, squeeze in E1. destruct (fin_mat V') as [|[|c [|]] [|]] eqn:Q; try discriminate;
        injection E1 as <-; rewrite <- Q in E2; destruct (GC V' M SV' YV' E2) as (L & -> & HL); exists V', L; (constructor; [rewrite EV', Q; reflexivity|split; assumption]). }
    assert (SF : forall m, need_mat (t_cov g) = Ok m -> forall M N, la_inv (k_linalg env) m = Ok M -> la_cholesky (k_linalg env) m = Ok N -> exists V L Vi mu nu, student_fit env d g V L Vi mu nu).
    { intros m E0 M N E1 E2. rewrite EV in E0. injection E0 as <-. destruct (GC V N SV YV E2) as (L & -> & HL). destruct (GI V M SV YV E1) as (Vi & -> & HI). exists V, L, Vi, mu, nu. constructor; auto. }
    destruct k; cbn [kernel_fun] in E.
    - unfold preconditioned_pcn in E. rewrite (surjective_pairing (flow_forward env (s_u ks))) in E. apply bind_ok in E as [m [E1 E]]. apply bind_ok in E as [M [E2 E]]. apply bind_ok in E as [N [E3 E]]. exact (SF _ E1 _ _ E2 E3).
    - unfold preconditioned_rwm in E. apply bind_ok in E as [m [E1 E]]. apply bind_ok in E as [M [E2 E]]. exact (NF _ E1 _ E2).
    - unfold pcn in E. apply bind_ok in E as [m [E1 E]]. apply bind_ok in E as [M [E2 E]]. apply bind_ok in E as [N [E3 E]]. exact (SF _ E1 _ _ E2 E3).
    - unfold rwm in E. apply bind_ok in E as [m [E1 E]]. apply bind_ok in E as [M [E2 E]]. exact (NF _ E1 _ E2).
  Qed.
  Lemma latent_real p us : (forall u, length u = d -> exists th f, wd_flow_forward W p (map Fin u) = (map Fin th, Fin f) /\ length th = d) -> Forall (fun u => length u = d) us ->
    exists ths, latent W p (fin_mat us) = fin_mat ths /\ Forall (fun u => length u = d) ths /\ length ths = length us.
  Proof.
    intros HF. induction 1 as [|u us Hu _ (ths & E & F & L)]; [exists []; repeat split; constructor|]. destruct (HF u Hu) as (th & f & E1 & L1).
    exists (th :: ths). split; [|split; [now constructor|cbn; now rewrite L]]. unfold latent, fin_mat in *. cbn [map]. rewrite E1, E. reflexivity.
  Qed.
  Lemma trained_geometry fuel R s s1 s2 : reachable s -> exact_sampler rows s -> reweight fuel s = Ok s1 -> train W R s1 = Ok s2 ->
    good_solve d (wd_fit W) -> good_bisect (wd_fit W) -> (2 <= kept s2)%nat ->
    (c_preconditioned (s_cfg s) = true -> (forall c, s_current s1 = Some c -> trains s1 (cu_beta c) = Ok true) /\ flow_bijection (kernel_env_of W s2) d) ->
    real_geometry (geometry_in_use s2).
  Proof.
    intros H ES H1 H2 GS GB HK HT. destruct (survivors fuel s s1 H ES H1) as (c1 & q & us & e & Hc1 & Ew & Eu & FU & LQ & PQ & _ & _ & _ & _ & _ & _ & F1).
    apply train_facts in H2 as (c2 & now & fl & un & ug & tg & Ec & Hn & HF & ->). rewrite Hc1 in Ec. injection Ec as <-.
    unfold kept in HK. cbn [s_current] in HK. rewrite Ew, map_length in HK.
    pose proof ES as [D1 _ _ _ _]. unfold geometry_in_use. cbn [s_cfg s_theta_geometry s_u_geometry]. rewrite F1 in *. rewrite D1, Ew, Eu in HF.
    destruct (c_preconditioned (s_cfg s)) eqn:Ep.
    - destruct (HT eq_refl) as [T1 T2]. specialize (T1 c1 Hc1). rewrite T1 in Hn. apply Ok_inj in Hn. subst now. destruct HF as (_ & _ & _ & HF).
      destruct (latent_real fl us) as (ths & El & FT & LT); [|exact FU|].
      { intros u Hu. destruct (fb_forward _ _ T2 u Hu) as (th & f & E1 & E2 & _). exists th, f. split; [exact E1|exact E2]. }
      change (latent W fl (fin_mat us)) with (latent W fl (fin_mat us)) in HF. rewrite El in HF.
      refine (fit_real _ _ _ _ _ _ GS GB _ _ _ _ HF); auto. congruence.
    - unfold trains in Hn. rewrite F1, Ep in Hn. apply Ok_inj in Hn. subst now. destruct HF as (_ & _ & _ & HF).
      refine (fit_real _ _ _ _ _ _ GS GB _ _ _ _ HF); auto.
  Qed.
  Theorem fitted_geometry fuel R s s' : reachable s -> exact_sampler rows s -> iteration W fuel R s = Ok s' ->
    good_solve d (wd_fit W) -> good_bisect (wd_fit W) -> good_linalg d (wd_linalg W) -> (2 <= kept s')%nat ->
    (c_preconditioned (s_cfg s) = true -> trained_in s s' /\ flow_bijection (kernel_env_of W s') d) ->
    match c_sample (s_cfg s) with
    | RWMH => exists V L, normal_fit (kernel_env_of W s') d (geometry_in_use s') V L
    | TPCN => exists V L Vi mu nu, student_fit (kernel_env_of W s') d (geometry_in_use s') V L Vi mu nu
    end.
  Proof.
    intros H ES HI GS GB GL HK HT. pose proof HI as HI'. apply iteration_facts in HI as (s1 & s2 & s3 & s4 & c4 & H1 & H2 & H3 & H4 & Hc & Es').
    assert (RG2 : real_geometry (geometry_in_use s2)).
    { pose proof H1 as H1'. apply reweight_facts in H1' as (c & beta & logz & ess & w0' & neff' & w1' & idx' & w2' & lf' & u & x & ldj & logl & logp & b & cn & _ & Hb & _ & _ & _ & _ & _ & _ & _ & _ & _ & Ecn & Es1).
      pose proof H2 as H2'. apply train_facts in H2' as (c2 & now & fl & un & ug & tg & Ec & Hn & _ & Es2). rewrite Es1 in Ec. cbn [s_current] in Ec. injection Ec as <-.
      pose proof H3 as H3'. apply resample_facts in H3' as (c3 & w3 & idx3 & u3 & x3 & ldj3 & logl3 & logp3 & b3 & Ec3 & Ew3 & _ & _ & _ & _ & _ & _ & _ & Es3). rewrite Es2 in Ec3. cbn [s_current] in Ec3. injection Ec3 as <-.
      pose proof H4 as H4'. apply mutate_facts in H4' as (c5 & b5 & ks & res & c' & Ec5 & _ & _ & _ & _ & Ec' & Es4). rewrite Es3 in Ec5. cbn [s_current with_current] in Ec5. injection Ec5 as <-.
      assert (K2 : kept s' = kept s2) by (subst s' s4 s2; unfold kept; cbn [with_particles s_current]; subst c'; reflexivity).
      assert (E4 : cu_beta c4 = beta) by (subst s4 s'; cbn [s_current] in Hc; injection Hc as <-; subst c'; cbn [cu_beta]; now subst cn).
      apply (trained_geometry fuel R s s1 s2 H ES H1 H2 GS GB); [now rewrite <- K2|].
      intros Ep. destruct (HT Ep) as [T1 T2]. split; [|subst s' s4 s3; exact T2].
      intros c0 Ec0. rewrite Es1 in Ec0. cbn [s_current] in Ec0. injection Ec0 as <-. unfold trains in Hn |- *. rewrite Es1 in *. cbn [s_cfg s_t s_untrained] in *. rewrite Ep in *.
      destruct (c_train_frequency (s_cfg s) =? 0)%Z; [discriminate|]. f_equal. apply orb_true_iff. rewrite orb_true_iff. destruct T1 as [T1|[T1|[bs T1]]]; [now right| |].
      - left. left. apply Z.eqb_eq. rewrite <- T1. f_equal. subst s' s4 s3 s2. reflexivity.
      - left. right. subst s'. unfold history_of in T1. cbn [with_particles s_particles particles_update p_past] in T1. rewrite update_items in T1. cbn [h_beta] in T1.
        apply app_inj_tail in T1 as [_ T1]. rewrite E4 in T1. subst cn. cbn [cu_beta]. rewrite T1. now apply Reqb_true. }
    apply mutate_facts in H4 as (c5 & b5 & ks & res & c' & Ec5 & _ & _ & Hk & _ & Ec' & Es4).
    apply resample_facts in H3 as (c3 & w3 & idx3 & u3 & x3 & ldj3 & logl3 & logp3 & b3 & _ & _ & _ & _ & _ & _ & _ & _ & _ & Es3).
    assert (EC : s_cfg s2 = s_cfg s).
    { apply train_facts in H2 as (c2 & now & fl & un & ug & tg & _ & _ & _ & ->). apply reweight_facts in H1 as (c & beta & logz & ess & w0' & neff' & w1' & idx' & w2' & lf' & u & x & ldj & logl & logp & b & cn & _ & _ & _ & _ & _ & _ & _ & _ & _ & _ & _ & _ & ->). reflexivity. }
    assert (Hk' : kernel_fun (kernel_of (s_cfg s)) (kernel_env_of W s2) (geometry_in_use s2) (s_scale s3) ks (ir_step (rn_iter R (s_t s3))) = Ok res).
    { rewrite <- EC. subst s3. exact Hk. }
    pose proof (real_fit (kernel_env_of W s2) _ _ _ _ _ _ GL RG2 Hk') as F. clear -F Es' Es4 Es3.
    assert (F' : match kernel_of (s_cfg s) with RWM | PRWM => exists V L, normal_fit (kernel_env_of W s') d (geometry_in_use s') V L | PCN | PPCN => exists V L Vi mu nu, student_fit (kernel_env_of W s') d (geometry_in_use s') V L Vi mu nu end)
      by (subst s' s4 s3; exact F).
    unfold kernel_of in F'. destruct (c_preconditioned (s_cfg s)), (c_sample (s_cfg s)); exact F'.
  Qed.
  Theorem enough_survivors fuel R s s' es e : reachable s -> exact_sampler rows s -> iteration W fuel R s = Ok s' -> c_metric (s_cfg s) = ESS ->
    h_ess (history_of s') = es ++ [Fin e] -> 100 / 99 < e -> (2 <= kept s')%nat.
  Proof.
    intros H ES HI ME HE He. apply iteration_facts in HI as (s1 & s2 & s3 & s4 & c4 & H1 & H2 & H3 & H4 & Hc & Es').
    destruct (survivors fuel s s1 H ES H1) as (c1 & q & us & e' & Hc1 & Ew & _ & _ & _ & _ & _ & Ee & B & _). specialize (B ME).
    apply train_facts in H2 as (c2 & now & fl & un & ug & tg & Ec & Hn & _ & Es2). rewrite Hc1 in Ec. injection Ec as <-.
    apply resample_facts in H3 as (c3 & w3 & idx3 & u3 & x3 & ldj3 & logl3 & logp3 & b3 & Ec3 & Ew3 & _ & _ & _ & _ & _ & _ & _ & Es3). rewrite Es2 in Ec3. cbn [s_current] in Ec3. injection Ec3 as <-.
    apply mutate_facts in H4 as (c5 & b5 & ks & res & c' & Ec5 & _ & _ & _ & _ & Ec' & Es4). rewrite Es3 in Ec5. cbn [s_current with_current] in Ec5. injection Ec5 as <-.
    assert (E4 : c4 = c') by (subst s4; cbn [s_current] in Hc; now injection Hc as <-). subst c4.
    assert (K2 : kept s' = length q) by (subst s' s4; unfold kept; cbn [with_particles s_current]; subst c'; cbn [cu_weights]; rewrite Ew; apply map_length).
    subst s'. unfold history_of in HE. cbn [with_particles s_particles particles_update p_past] in HE. rewrite update_items in HE. cbn [h_ess] in HE.
    apply app_inj_tail in HE as [_ HE]. subst c'. cbn [cu_ess] in HE. rewrite Ee in HE. injection HE as ->.
    assert (1 < INR (length q)) by lra. rewrite K2. destruct (length q) as [|[|m]]; [cbn in *; lra|cbn in *; lra|lia].
  Qed.
End Fit.

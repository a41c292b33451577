(** * The MCMC phase of an iteration of the sampler, in real numbers *)
From Coq Require Import Reals ZArith List Bool Lia Lra.
From Coquelicot Require Import Coquelicot.
From Coq Require Import List.
From Verif Require Import Num PyBase PyBaseFacts XReal RList Tools Scaler ScalerStruct SpecScaler ScalerFacts ScalerSpecFacts ScalerFitFacts ScalerReal Particles LogLike Geometry SpecGeometry Mcmc SpecMcmc McmcFacts McmcNum McmcInv McmcSigma
  SpecBalance SpecChain ChainLaws ChainCases Flow Sampler ConfigFacts SpecReach SamplerFacts Reach SpecRun BetaFacts XUnit RowFacts ParticleInv HistoryFacts SpecExact HistoryExact HistoryMain
  SpecEss BisectFacts FiniteHistory LoopFacts LoopExact SpecIterate SelectFacts.
Import ListNotations.
Set Bullet Behavior "Strict Subproofs".
Local Open Scope R_scope.

Lemma initial_scale_fin d : (0 < d)%nat -> @initial_scale X XNumT d = Fin (optimal_scale d).
Proof.
  intros Hd. unfold initial_scale, optimal_scale.
  assert (P : 0 < IZR (Z.of_nat d)) by (apply (IZR_lt 0); lia).
  assert (E : @npow X XNumT (@nofZ X (@numT_Num X XNumT) (Z.of_nat d)) (@nfrac X (@numT_Num X XNumT) 1 2) = Fin (sqrt (INR d))).
  { change (@nfrac X (@numT_Num X XNumT) 1 2) with (@nfrac X XNum 1 2). rewrite nfrac_fin by lra. cbn -[IZR]. rcase; [|lra].
    f_equal. rewrite INR_IZR_INZ. replace (1 / 2) with (/ 2) by lra. now apply Rpower_sqrt. }
  rewrite E. change (@nfrac X (@numT_Num X XNumT) 238 100) with (@nfrac X XNum 238 100). rewrite nfrac_fin by lra.
  apply xdiv_fin. rewrite INR_IZR_INZ. apply Rgt_not_eq, sqrt_lt_R0, P.
Qed.

Section Iterate.
  Context {C P Opt : Type}.
  Variable W : world X C P Opt.
  Variable lp ll : vec X -> X.
  Variable bl : option (vec X -> list C).
  Variable rows : list (X * X).
  Hypothesis EM : exact_model W lp ll bl rows.
  Variable interrupts : bool.
  Notation reachable := (reachable W (exact_draws rows) interrupts).
  Implicit Types s : sampler X C P.
  Let RG := em_regular _ _ _ _ _ EM.
  Let HN : forall x, strictly_inside rows x -> ll x <> NaN.
  Proof. intros x Hx E. destruct (em_inside _ _ _ _ _ EM x Hx) as [_ Q]. rewrite E in Q. discriminate. Qed.
  Let weaken s (H : reachable s) := weaken W interrupts rows s H.

  (** the particles handed to the kernel *)
  Lemma resampled fuel R s s1 s2 s3 : reachable s -> reweight fuel s = Ok s1 -> train W R s1 = Ok s2 -> resample R s2 = Ok s3 ->
    exists c3 beta, s_current s3 = Some c3 /\ cu_beta c3 = Fin beta /\ 0 <= beta <= 1 /\ (0 < c_n_active (s_cfg s))%nat /\
      rectangular (current_arrays c3) (c_n_active (s_cfg s)) /\
      (forall k, (k < c_n_active (s_cfg s))%nat -> in_history s (particle_at (current_arrays c3) k)) /\
      s_cfg s3 = s_cfg s /\ s_scale s3 = s_scale s /\ s_scaler s3 = s_scaler s /\ s_pool s3 = s_pool s /\ maps (s_pool s3) /\ s_particles s3 = s_particles s /\
      (match cu_blobs c3 with Some _ => true | None => false end) = with_blobs bl s /\ s_have_blobs s3 = with_blobs bl s.
  Proof.
    intros H H1 H2 H3. pose proof (weaken s H) as Hw.
    pose proof (reachable_pinv W x_undefined x_random X_ieee _ x_unit_interval lp ll bl RG (strictly_inside rows) interrupts s Hw) as I.
    pose proof I as [Pp _ [A _] _ _].
    destruct (reweight_rows_trim W x_undefined lp ll bl (strictly_inside rows) fuel s s1 I H1) as (EH & NE & idx & c1 & Hc1 & G & w0 & neff & w1 & w2 & lf & Q1 & Q2 & Q3 & Q4 & F1 & F2).
    destruct (flat_rows _ _ _ A) as (FR & FB & _). destruct (gathered_rows _ _ _ _ FR G) as (Y1 & Y2 & Y3).
    pose proof (active_pos W lp ll bl RG _ HN (em_bounded _ _ _ _ _ EM) interrupts s Hw NE) as NA.
    assert (S1 : s_scale s1 = s_scale s /\ s_scaler s1 = s_scaler s /\ s_pool s1 = s_pool s /\ s_particles s1 = s_particles s /\ exists b, cu_beta c1 = Fin b /\ 0 <= b <= 1).
    { pose proof H1 as H1'. apply reweight_facts in H1' as (c & beta & logz & ess & w0' & neff' & w1' & idx' & w2' & lf' & u & x & ldj & logl & logp & b & cn & _ & Hb & _ & _ & _ & _ & _ & _ & _ & _ & _ & -> & ->).
      repeat (split; [reflexivity|]). cbn [s_current] in Hc1. injection Hc1 as <-. cbn [cu_beta].
      destruct (exact_past W lp ll bl RG _ HN (em_bounded _ _ _ _ _ EM) interrupts s Hw NE) as (ls & bs & zs & HH & B01 & _).
      destruct (next_beta_sound _ ls bs zs HH fuel _ (IZR (s_n_effective s)) beta logz ess Hb) as (rest & b0 & b' & E1 & -> & _ & _ & Cs).
      assert (B0 : 0 <= b0 <= 1) by (apply B01; rewrite E1; apply in_or_app; right; now left).
      exists b'. split; [reflexivity|]. destruct Cs as [[_ ->]|[(_ & _ & ->)|(_ & _ & Q)]]; [lra|lra|specialize (Q (proj2 B0)); lra]. }
    destruct S1 as (S1 & S2 & S3 & S4 & beta & Eb & Hb).
    pose proof H2 as H2'. apply train_facts in H2' as (c2' & now & fl & un & ug & tg & Ec & _ & _ & Es2). rewrite Hc1 in Ec. injection Ec as <-.
    assert (C2 : s_current s2 = Some c1) by now rewrite Es2. assert (F3 : s_cfg s2 = s_cfg s) by (rewrite Es2; exact F1).
    assert (F4 : s_have_blobs s2 = with_blobs bl s) by (rewrite Es2; cbn [s_have_blobs]; congruence).
    assert (WB : with_blobs bl s2 = with_blobs bl s) by (unfold with_blobs; now rewrite F3).
    destruct (resample_rows bl R s2 s3 (length idx) c1 ltac:(congruence) H3 C2 Y1 ltac:(congruence)) as (idx3 & c3 & Hc3 & G3 & L3).
    destruct (gathered_rows _ _ _ _ Y1 G3) as (Z1 & Z2 & Z3). rewrite F3 in L3. rewrite L3 in Z1, Z3.
    apply resample_facts in H3 as (c' & w3 & idx4 & u3 & x3 & ldj3 & logl3 & logp3 & b3 & Ec & _ & _ & _ & _ & _ & _ & _ & _ & Es3).
    rewrite C2 in Ec. injection Ec as <-. exists c3, beta. split; [exact Hc3|].
    split; [rewrite Es3 in Hc3; cbn [with_current s_current] in Hc3; injection Hc3 as <-; exact Eb|]. split; [exact Hb|]. split; [lia|]. split; [exact Z1|]. split.
    - intros k Hk. destruct (Z3 k Hk) as [V1 V2]. destruct (Y3 _ V1) as [V3 V4].
      destruct (flat_index _ _ _ _ A V3) as (t & j & Ht & Hj & Eq & V5). exists t, j. split; [exact Ht|]. split; [|congruence].
      destruct A as [_ _ _ _ _ A6]. destruct (A6 t Ht) as [[R1 _ _ _ _ _] _]. cbn [stored w_u] in R1. change (vec X) with (list X) in *. rewrite R1. exact Hj.
    - rewrite Es3, Es2. cbn [with_current s_cfg s_scale s_scaler s_pool s_particles s_have_blobs]. repeat (split; [congruence|]). split; [|congruence].
      exact (eq_trans Z2 (eq_trans Y2 FB)).
  Qed.

  (** ** The step size *)
  Definition scaled s : Prop := (0 < c_n_dim (s_cfg s))%nat -> exists p, s_scale s = Fin p /\ (kernel_of (s_cfg s) = PRWM \/ 0 <= p).
  Lemma mutated R s s4 c p n : mutate W R s = Ok s4 -> s_current s = Some c -> rectangular (current_arrays c) n -> (0 < n)%nat -> (0 < c_n_dim (s_cfg s))%nat ->
    (match cu_blobs c with Some _ => true | None => false end) = s_have_blobs s -> s_scale s = Fin p -> kernel_of (s_cfg s) = PRWM \/ 0 <= p -> scaled s4.
  Proof.
    intros H Hc HR Hn Hd HB Hs Hp _. apply mutate_facts in H as (c5 & b5 & ks & res & c' & Ec & Hb5 & -> & Hk & _ & _ & ->). rewrite Hc in Ec. injection Ec as <-.
    cbn [s_scale s_cfg]. rewrite Hs in Hk.
    assert (Eb : b5 = cu_blobs c) by (rewrite <- HB in Hb5; destruct (cu_blobs c); [tauto|exact Hb5]). subst b5.
    destruct (kernel_sigma_from (kernel_env_of W s) Hd _ _ _ _ _ _ n Hk HR Hn Hp) as (sg & E & G). exists sg. split; [exact E|].
    destruct (kernel_of (s_cfg s)); cbn [in_range] in G; [right; lra|now left|right; lra|now right].
  Qed.
  Lemma reachable_scaled s : reachable s -> scaled s.
  Proof.
    intros H. induction H as [o s H Hp|n m s _ IH|R s s' Hr IH HR H|R i s s' Hr IH HR Hw Hi H|s _ IH Hw|fuel R s s' Hr IH HR Hw Hnt H
      |R s s' Hr IH HR Hw H|s _ IH|saved self _ IH1 _ IH2|fuel s s1 Hr IH Hw Hnt H|fuel R s s1 s2 Hr IH HR Hw Hnt H H2|fuel R s s1 s2 s3 Hr IH HR Hw Hnt H H2 H3|fuel s s1 c p _ Hr IH Hw Hnt H Hc Ht].
    - unfold new_sampler in H. do 12 (apply bind_ok in H as [? [_ H]]). apply Ok_inj in H. subst s. intros Hd. cbn [s_scale s_cfg c_n_dim] in *.
      rewrite initial_scale_fin by exact Hd. eexists. split; [reflexivity|]. right. left. apply optimal_scale_pos. exact Hd.
    - exact IH.
    - apply draw_facts in H as [[_ ->]|[_ (ps & sc & _ & _ & ->)]]; exact IH.
    - apply warmup_facts in H as (ps & x0 & u0 & xi & ldj0 & logp0 & logl0 & b0 & x & u & ldj & logp & logl & b & c & _ & _ & _ & _ & _ & _ & _ & _ & ->). exact IH.
    - exact IH.
    - apply iteration_facts in H as (s1 & s2 & s3 & s4 & c4 & H1 & H2 & H3 & H4 & Hc & ->).
      destruct (resampled fuel R s s1 s2 s3 Hr H1 H2 H3) as (c3 & beta & E1 & E2 & E3 & E4 & E5 & E6 & E7 & E8 & E9 & E10 & E11 & E12 & E13 & E14).
      assert (C4 : s_cfg s4 = s_cfg s) by (apply mutate_facts in H4 as (c5 & b5 & ks & res & c' & _ & _ & _ & _ & _ & _ & ->); exact E7).
      intros Hd. change (0 < c_n_dim (s_cfg s4))%nat in Hd. change (exists p, s_scale s4 = Fin p /\ (kernel_of (s_cfg s4) = PRWM \/ 0 <= p)).
      rewrite C4 in Hd. destruct (IH Hd) as (p & Ep & Hp).
      apply (mutated R s3 s4 c3 p (c_n_active (s_cfg s)) H4 E1 E5 E4); rewrite ?E7, ?C4; congruence.
    - apply evidence_facts in H as (? & ? & ? & ? & ? & ? & _ & -> & _). exact IH.
    - unfold results_of. destruct (compute_results (s_particles s)). exact IH.
    - exact IH1.
    - apply reweight_facts in H as (c & beta & logz & ess & w0 & neff & w1 & idx & w2 & lf & u & x & ldj & logl & logp & b & c1 & _ & _ & _ & _ & _ & _ & _ & _ & _ & _ & _ & _ & ->). exact IH.
    - apply reweight_facts in H as (c & beta & logz & ess & w0 & neff & w1 & idx & w2 & lf & u & x & ldj & logl & logp & b & c1 & _ & _ & _ & _ & _ & _ & _ & _ & _ & _ & _ & _ & ->).
      apply train_facts in H2 as (c2 & now & fl & un & ug & tg & _ & _ & _ & ->). exact IH.
    - apply reweight_facts in H as (c & beta & logz & ess & w0 & neff & w1 & idx & w2 & lf & u & x & ldj & logl & logp & b & c1 & _ & _ & _ & _ & _ & _ & _ & _ & _ & _ & _ & _ & ->).
      apply train_facts in H2 as (c2 & now & fl & un & ug & tg & _ & _ & _ & ->).
      apply resample_facts in H3 as (c3 & w3 & idx3 & u3 & x3 & ldj3 & logl3 & logp3 & b3 & _ & _ & _ & _ & _ & _ & _ & _ & _ & ->). exact IH.
    - apply reweight_facts in H as (c0 & beta & logz & ess & w0 & neff & w1 & idx & w2 & lf & u & x & ldj & logl & logp & b & c1 & _ & _ & _ & _ & _ & _ & _ & _ & _ & _ & _ & _ & ->). exact IH.
  Qed.

  (** ** The input of the kernel *)
  Definition some_blobs s : vec X -> list C := match blobs_of (s_cfg s) bl with Some f => f | None => fun _ => [] end.
  Lemma history_point s p : reachable s -> exact_sampler rows s -> in_history s p ->
    constructed (s_scaler s) (length rows) rows /\ diagonal_scaling (s_scaler s) (length rows) /\
    coherent (s_scaler s) (wd_junk W) lp ll (some_blobs s) (with_blobs bl s) p /\
    exists u x a b l, pt_u p = map Fin u /\ length u = length rows /\ pt_x p = map Fin x /\ pt_logl p = Fin a /\ pt_logp p = Fin b /\ pt_logdetj p = Fin l.
  Proof.
    intros H [D1 D2 _ _ _] HP. pose proof EM as [_ BD AD HI BL HJ HD].
    destruct (exact_history W lp ll bl RG interrupts rows BD AD s p H D1 HJ D2 HP) as ([B1 B2 B3] & SC & SD & IV & [x Ex] & [l El] & _ & _).
    destruct (support_exact W lp ll bl interrupts rows s p RG BD AD HI H D1 HJ D2 HP) as (_ & _ & [b Eb] & L1 & L2).
    assert (La : exists a, pt_logl p = Fin a).
    { destruct (pt_logl p) as [a| | |] eqn:Q; [eauto| |now destruct L2|now destruct L1]. now destruct (BL (pt_x p)). }
    destruct La as [a Ea].
    assert (LU : length (pt_u p) = length rows).
    { destruct HP as (t & k & Ht & Hk & ->). 
      destruct (main_rectangular x_undefined x_random float_like_X W lp ll bl RG (strictly_inside rows) interrupts s (weaken s H)) as [_ Q _ _].
      - rewrite BD. intros f r E. injection E as _ <-. now rewrite D1.
      - now rewrite D1.
      - rewrite <- D1. destruct (Q (nth t (h_u (history_of s)) [])) as [_ Q']; [left; now apply nth_In|]. apply Q'. cbn [particle_at pt_u stored w_u]. now apply nth_In. }
    rewrite Ex, El in IV. destruct (inverse_real (s_scaler s) (length rows) rows (wd_junk W) (pt_u p) x l SC SD HJ LU IV) as [u Eu].
    split; [exact SC|]. split; [exact SD|]. split.
    - constructor; auto.
      + now rewrite Ex, El.
      + unfold with_blobs, some_blobs. rewrite B3. destruct (blobs_of (s_cfg s) bl); [reflexivity|discriminate].
      + rewrite Ex. clear. induction x; [reflexivity|exact IHx].
      + now rewrite El.
      + now rewrite Eb.
    - exists u, x, a, b, l. repeat (split; [assumption|]). split; [now rewrite Eu, map_length in LU|]. repeat (split; [assumption|]). assumption.
  Qed.
  Lemma points_real (m : mat X) n : (forall k, (k < length m)%nat -> exists u, nth k m [] = map Fin u /\ length u = n) -> exists us, m = map (map Fin) us /\ Forall (fun u => length u = n) us.
  Proof.
    induction m as [|r m IH]; intros H; [exists []; split; [reflexivity|constructor]|]. destruct (H 0%nat) as [u [E L]]; [cbn; lia|]. cbn in E. subst r.
    destruct IH as (us & -> & F); [intros k Hk; apply (H (S k)); cbn; lia|]. exists (u :: us). split; [reflexivity|now constructor].
  Qed.

  Definition input_of (c : current X C) : kstate X (list C) :=
    {| s_u := cu_u c; s_x := cu_x c; s_logdetj := cu_logdetj c; s_logl := cu_logl c; s_logp := cu_logp c; s_blobs := cu_blobs c; s_beta := cu_beta c |}.
  Lemma prepared fuel R s s1 s2 s3 normal uniform : reachable s -> exact_sampler rows s -> reweight fuel s = Ok s1 -> train W R s1 = Ok s2 -> resample R s2 = Ok s3 ->
    exact_rand (c_n_active (s_cfg s)) (step_numbers R s3) normal uniform ->
    exists c3 beta p us, s_current s3 = Some c3 /\ cu_beta c3 = Fin beta /\ 0 <= beta <= 1 /\
      s_cfg s3 = s_cfg s /\ s_particles s3 = s_particles s /\ s_scale s3 = Fin p /\ s_scale s = Fin p /\ (kernel_of (s_cfg s) = PRWM \/ 0 <= p) /\
      (match cu_blobs c3 with Some _ => true | None => false end) = with_blobs bl s /\ s_have_blobs s3 = with_blobs bl s /\ maps (s_pool s3) /\
      length us = c_n_active (s_cfg s) /\ resampled_points R s s3 beta us /\ (forall u, In u us -> exists q, in_history s q /\ pt_u q = map Fin u) /\
      phase (kernel_env_of W s3) (length rows) (c_n_active (s_cfg s)) lp ll (some_blobs s) beta (input_of c3) us (step_numbers R s3) normal uniform.
  Proof.
    intros H ES H1 H2 H3 HR. pose proof ES as [D1 D2 D3 D4 D5]. pose proof EM as [_ BD AD HIN BL HJ HD].
    destruct (resampled fuel R s s1 s2 s3 H H1 H2 H3) as (c3 & beta & E1 & E2 & E3 & E4 & E5 & E6 & E7 & E8 & E9 & E10 & E11 & E12 & E13 & E14).
    set (ks := input_of c3).
    destruct (reachable_scaled s H) as (p & Ep & Hp); [lia|].
    set (n := c_n_active (s_cfg s)) in *. set (d := length rows) in *.
    change (rectangular (input_walkers ks) n) in E5.
    assert (PT : forall k, (k < n)%nat -> in_history s (particle_at (input_walkers ks) k)) by exact E6.
    assert (US : exists us, cu_u c3 = map (map Fin) us /\ Forall (fun u => length u = d) us).
    { apply points_real. intros k Hk'. destruct E5 as [R1 _ _ _ _ _]. cbn [input_walkers walkers_of w_u ks input_of s_u] in R1. change (vec X) with (list X) in *. rewrite R1 in Hk'.
      destruct (history_point s _ H ES (PT k Hk')) as (_ & _ & _ & u & x & a & b & l & Q1 & Q2 & _). exists u. auto. }
    destruct US as (us & EU & LU).
    assert (LUS : length us = n). { destruct E5 as [R1 _ _ _ _ _]. cbn [input_walkers walkers_of w_u ks input_of s_u] in R1. change (vec X) with (list X) in *. rewrite EU, map_length in R1. exact R1. }
    destruct (history_point s _ H ES (PT 0%nat E4)) as (SC & SD & _).
    assert (IU : forall u, In u us -> exists k, (k < n)%nat /\ pt_u (particle_at (input_walkers ks) k) = map Fin u).
    { intros u Hu. apply (In_nth _ _ []) in Hu as (k & Hk' & <-). exists k. split; [congruence|]. unfold particle_at, input_walkers, walkers_of. cbn [pt_u w_u ks input_of s_u]. rewrite EU. change [] with (map Fin []) at 1. now rewrite map_nth. }
    assert (SEL : resampled_points R s s3 beta us).
    { destruct (selection W lp ll bl RG _ HN (em_bounded _ _ _ _ _ EM) interrupts fuel R s s1 s2 s3 (weaken s H) H1 H2 H3) as (c3' & b' & remain & q & again & S1 & S2 & S3 & S4 & S5 & S6).
      rewrite E1 in S1. injection S1 as <-. rewrite E2 in S2. injection S2 as <-. exists remain, q, again, (rows_of (current_arrays c3) n).
      split; [exact S3|]. split; [exact S5|]. split; [|exact S6]. rewrite rows_u by exact S4. exact EU. }
    exists c3, beta, p, us. rewrite E8. repeat (split; [assumption|]). split; [intros u Hu; destruct (IU u Hu) as (k & Hk' & Eu); eauto|].
    constructor.
    + exists rows. constructor; cbn [kernel_env_of k_scaler k_junk k_n_dim]; rewrite ?E9, ?E7; auto. now apply diagonal_scaling_ok.
    + intros xs v. apply (rg_prior _ _ _ _ RG).
    + intros xs l b E. apply (like_facts W lp ll bl RG _ _ _ _ E11) in E as [-> ->]. split; [reflexivity|]. unfold some_blobs. rewrite E7. destruct xs; [exact I|]. now destruct (blobs_of (s_cfg s) bl).
    + exact BL.
    + constructor.
      * exact E4.
      * exact HD.
      * exact E5.
      * intros k Hk'. assert (LX : length (w_x (input_walkers ks)) = n) by apply E5. assert (Hk2 : (k < n)%nat) by (rewrite <- LX; exact Hk').
        destruct (history_point s _ H ES (PT k Hk2)) as (_ & _ & CO & _). cbn [kernel_env_of k_scaler k_junk]. rewrite E9.
        replace (match w_blobs (input_walkers (input_of c3)) with Some _ => true | None => false end) with (with_blobs bl s); exact CO.
      * exact EU.
      * exact LU.
      * cbn [ks input_of s_beta]. split; [exact E2|lra].
      * intros u Hu. destruct (IU u Hu) as (k & Hk' & Eu). destruct (history_point s _ H ES (PT k Hk')) as (_ & _ & [CO1 CO2 CO3 _ _ _ _] & u' & x & a & b & l & Q1 & Q2 & Q3 & Q4 & Q5 & Q6).
        exists (beta * a + b + l), x, a, b, l. cbn [kernel_env_of k_scaler k_junk]. rewrite E9. rewrite Eu, Q3, Q6 in CO1. rewrite Q3 in CO2, CO3. split; [exact CO1|]. split; [exact (eq_trans (eq_sym CO2) Q4)|]. split; [exact (eq_trans (eq_sym CO3) Q5)|reflexivity].
      * cbn [ks input_of s_blobs]. intros HNb xs l E. apply (like_facts W lp ll bl RG _ _ _ _ E11) in E as [_ E]. destruct xs; [reflexivity|].
        unfold with_blobs in E13. rewrite E7 in E. destruct (blobs_of (s_cfg s) bl); [discriminate|]. now destruct (cu_blobs c3).
    + exact HR.
    + cbn [kernel_env_of k_n_steps]. now rewrite E7.
  Qed.
  Lemma iteration_phase fuel R s s' normal uniform : reachable s -> exact_sampler rows s -> iteration W fuel R s = Ok s' ->
    exact_rand (c_n_active (s_cfg s)) (step_numbers R s') normal uniform ->
    exists beta p us ks res, phase (kernel_env_of W s') (length rows) (c_n_active (s_cfg s)) lp ll (some_blobs s) beta ks us (step_numbers R s') normal uniform /\
      kernel_fun (kernel_of (s_cfg s)) (kernel_env_of W s') (geometry_in_use s') (Fin p) ks (step_numbers R s') = Ok res /\
      (kernel_of (s_cfg s) = PRWM \/ 0 <= p) /\
      forall c, result_of res (c_n_active (s_cfg s)) c -> moved R s s' beta p us c (w_u (o_w res)).
  Proof.
    intros H ES HI HR. pose proof ES as [D1 _ _ _ _]. pose proof EM as [_ _ _ _ _ _ HD].
    apply iteration_facts in HI as (s1 & s2 & s3 & s4 & c4 & H1 & H2 & H3 & H4 & Hc & ->).
    apply mutate_facts in H4 as (c5 & b5 & ks & res & c' & Ec & Hb5 & -> & Hk & Hc' & Ec' & ->).
    cbn [s_current] in Hc. injection Hc as ->. clear Hc'.
    match type of HR with exact_rand _ (step_numbers R ?x) _ _ => change (step_numbers R x) with (step_numbers R s3) in * end.
    destruct (prepared fuel R s s1 s2 s3 normal uniform H ES H1 H2 H3 HR) as (c3 & beta & p & us & E1 & E2 & E3 & E7 & E12 & E8 & Ep & Hp & E13 & E14 & E11 & LUS & SEL & IU & PH).
    rewrite E1 in Ec. injection Ec as <-.
    assert (Eb : b5 = cu_blobs c3) by (rewrite E14, <- E13 in Hb5; destruct (cu_blobs c3); [tauto|exact Hb5]). subst b5.
    exists beta, p, us, (input_of c3), res.
    change (kernel_env_of W (with_particles _ _)) with (kernel_env_of W s3) in *.
    change (geometry_in_use (with_particles _ _)) with (geometry_in_use s3).
    split; [exact PH|]. split; [|split; [exact Hp|]].
    - rewrite E7, E8 in Hk. unfold geometry_in_use. rewrite E7. exact Hk.
    - intros c [RO1 RO2 RO3]. constructor; unfold history_of; cbn [with_particles s_particles particles_update p_past s_scale]; rewrite ?update_items, ?E12; subst c4; cbn [h_beta h_u h_steps h_accept h_efficiency cu_beta cu_u cu_steps cu_accept cu_efficiency]; auto.
      + rewrite E2. auto.
      + now rewrite RO1.
      + now rewrite RO3.
      + rewrite E7, RO2, D1. do 2 f_equal. rewrite initial_scale_fin by exact HD. apply xdiv_fin. apply Rgt_not_eq, optimal_scale_pos. exact HD.
  Qed.

  (** ** The four kernels *)
  Section Four.
    Variables (fuel : nat) (rnd : rand X C P) (s s' : sampler X C P) (normal : nat -> nat -> list R) (uniform : nat -> nat -> R).
    Hypothesis HR : reachable s.
    Hypothesis HS : exact_sampler rows s.
    Hypothesis HI : iteration W fuel rnd s = Ok s'.
    Hypothesis HU : exact_rand (c_n_active (s_cfg s)) (step_numbers rnd s') normal uniform.
    Notation env := (kernel_env_of W s').
    Notation d := (length rows).
    Notation n := (c_n_active (s_cfg s)).
    Theorem iteration_rwm V L : c_preconditioned (s_cfg s) = false -> c_sample (s_cfg s) = RWMH -> normal_fit env d (geometry_in_use s') V L ->
      exists beta p us c final, moved rnd s s' beta p us c final /\ rwm_law env d n lp ll beta normal uniform p us c final L.
    Proof.
      intros E1 E2 NF. destruct (iteration_phase fuel rnd s s' normal uniform HR HS HI HU) as (beta & p & us & ks & res & PH & K & Hp & M).
      unfold kernel_of in K, Hp. rewrite E1, E2 in K, Hp. destruct Hp as [?|Hp]; [discriminate|].
      destruct (rwm_phase env d n lp ll (some_blobs s) beta ks us _ normal uniform PH p (geometry_in_use s') V L res NF Hp K) as (c & RO & LAW).
      exists beta, p, us, c, (w_u (o_w res)). split; [now apply M|exact LAW].
    Qed.
    Theorem iteration_prwm V L : c_preconditioned (s_cfg s) = true -> c_sample (s_cfg s) = RWMH -> normal_fit env d (geometry_in_use s') V L -> flow_bijection env d ->
      exists beta p us c final, moved rnd s s' beta p us c final /\ preconditioned_rwm_law env d n lp ll beta normal uniform p us c final L.
    Proof.
      intros E1 E2 NF FB. destruct (iteration_phase fuel rnd s s' normal uniform HR HS HI HU) as (beta & p & us & ks & res & PH & K & _ & M).
      unfold kernel_of in K. rewrite E1, E2 in K.
      destruct (prwm_phase env d n lp ll (some_blobs s) beta ks us _ normal uniform PH p (geometry_in_use s') V L res NF FB K) as (c & RO & LAW).
      exists beta, p, us, c, (w_u (o_w res)). split; [now apply M|exact LAW].
    Qed.
    Theorem iteration_pcn V L Ci mu nu gamma : c_preconditioned (s_cfg s) = false -> c_sample (s_cfg s) = TPCN -> student_fit env d (geometry_in_use s') V L Ci mu nu ->
      exact_gamma (step_numbers rnd s') gamma ->
      exists beta p us c final, moved rnd s s' beta p us c final /\ pcn_law env d n lp ll beta normal uniform p us c final L Ci mu nu gamma.
    Proof.
      intros E1 E2 NF HG. destruct (iteration_phase fuel rnd s s' normal uniform HR HS HI HU) as (beta & p & us & ks & res & PH & K & Hp & M).
      unfold kernel_of in K, Hp. rewrite E1, E2 in K, Hp. destruct Hp as [?|Hp]; [discriminate|].
      destruct (pcn_phase env d n lp ll (some_blobs s) beta ks us _ normal uniform PH p (geometry_in_use s') V L Ci mu nu gamma res NF HG Hp K) as (c & RO & LAW).
      exists beta, p, us, c, (w_u (o_w res)). split; [now apply M|exact LAW].
    Qed.
    Theorem iteration_ppcn V L Ci mu nu gamma : c_preconditioned (s_cfg s) = true -> c_sample (s_cfg s) = TPCN -> student_fit env d (geometry_in_use s') V L Ci mu nu ->
      exact_gamma (step_numbers rnd s') gamma -> flow_bijection env d ->
      exists beta p us c final, moved rnd s s' beta p us c final /\ preconditioned_pcn_law env d n lp ll beta normal uniform p us c final L Ci mu nu gamma.
    Proof.
      intros E1 E2 NF HG FB. destruct (iteration_phase fuel rnd s s' normal uniform HR HS HI HU) as (beta & p & us & ks & res & PH & K & Hp & M).
      unfold kernel_of in K, Hp. rewrite E1, E2 in K, Hp. destruct Hp as [?|Hp]; [discriminate|].
      destruct (ppcn_phase env d n lp ll (some_blobs s) beta ks us _ normal uniform PH p (geometry_in_use s') V L Ci mu nu gamma res NF HG FB Hp K) as (c & RO & LAW).
      exists beta, p, us, c, (w_u (o_w res)). split; [now apply M|exact LAW].
    Qed.
  End Four.
End Iterate.

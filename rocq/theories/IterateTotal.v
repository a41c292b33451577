(** * An iteration returns *)
From Coq Require Import Reals ZArith List Bool Lia Lra.
From Coquelicot Require Import Coquelicot.
From Coq Require Import List.
From Verif Require Import Num PyBase PyBaseFacts XReal RList Tools SpecTools ToolsFacts TrimFacts ToolsSpecFacts ResampleFacts ChoiceFacts Scaler ScalerStruct SpecScaler ScalerFacts ScalerSpecFacts ScalerFitFacts ScalerReal Particles SpecParticles LogLike LogLikeFacts Geometry SpecGeometry GeometryFacts
  Mcmc SpecMcmc McmcFacts McmcNum McmcInv McmcSigma
  SpecBalance SpecChain ChainLaws ChainCases Flow Sampler ConfigFacts SpecReach SamplerFacts Reach SpecRun BetaFacts XUnit RowFacts ParticleInv HistoryFacts SpecExact HistoryExact HistoryMain
  SpecEss BisectFacts FiniteHistory LoopFacts LoopExact SpecIterate IterateFacts IterateFit.
Import ListNotations.
Set Bullet Behavior "Strict Subproofs".
Local Open Scope R_scope.

Section Total.
  Context {C P Opt : Type}.
  Variable W : world X C P Opt.
  Variable lp ll : vec X -> X.
  Variable bl : option (vec X -> list C).
  Variable rows : list (X * X).
  Hypothesis EM : exact_model W lp ll bl rows.
  Variable interrupts : bool.
  Notation reachable := (reachable W (exact_draws rows) interrupts).
  Implicit Types s : sampler X C P.
  Let RG := em_regular _ _ _ _ _ EM.
  Let HN : forall x, strictly_inside rows x -> ll x <> NaN.
  Proof. intros x Hx E. destruct (em_inside _ _ _ _ _ EM x Hx) as [_ Q]. rewrite E in Q. discriminate. Qed.
  Let weaken s (H : reachable s) := weaken W interrupts rows s H.
  Notation d := (length rows).

  Lemma like_total s xs : maps (s_pool s) ->
    sampler_like W s xs = Ok (map ll xs, match xs, blobs_of (s_cfg s) bl with _ :: _, Some f => Some (map f xs) | _, _ => None end).
  Proof.
    intros HM. assert (E : exists l b, sampler_like W s xs = Ok (l, b)).
    { unfold sampler_like, log_like. destruct (c_vectorize (s_cfg s)); [eauto|].
      assert (E : exists l b, split_results (map (wd_like W) xs) = Ok (l, b)).
      { pose proof (rg_like _ _ _ _ RG) as G. destruct bl as [f|].
        - destruct xs as [|x xs]; [cbn; eauto|]. rewrite (map_ext _ (fun x => RTuple (ll x) (f x))) by (intros; apply G).
          rewrite split_tuple; [eauto|intros; apply G|discriminate].
        - assert (Hm : mapM as_float (map (wd_like W) xs) = Ok (map ll xs)).
          { induction xs as [|x xs IH]; [reflexivity|]. cbn [map mapM]. destruct (G x) as [-> | ->]; cbn [as_float bind]; rewrite IH; reflexivity. }
          assert (Hf : flat_map blob_of (map (wd_like W) xs) = []).
          { clear Hm. induction xs as [|x xs IH]; [reflexivity|]. cbn [map flat_map]. rewrite IH. now destruct (G x) as [-> | ->]. }
          unfold split_results. rewrite Hm, Hf. cbn [bind]. destruct (existsb is_scalar _); eauto. }
      destruct (s_pool s) as [m|]; [|exact E]. now rewrite (HM (wd_like W) xs). }
    destruct E as (l & b & E). pose proof E as E'. apply (like_facts W lp ll bl RG _ _ _ _ HM) in E' as [-> ->]. exact E.
  Qed.

  Definition blobs_expected s : bool := match blobs_of (s_cfg s) bl with Some _ => true | None => false end.
  Lemma sampler_returns s : returning W lp bl -> maps (s_pool s) -> model_returns (kernel_env_of W s) lp ll (some_blobs bl s) (blobs_expected s).
  Proof.
    intros [RP RB] HM. unfold some_blobs, blobs_expected. constructor.
    - exact RP.
    - intros [|x xs] Hx; [easy|]. cbn [kernel_env_of k_like]. rewrite like_total by exact HM. now destruct (blobs_of (s_cfg s) bl).
    - right. cbn [kernel_env_of k_like k_none_blob]. rewrite like_total by exact HM. split; [reflexivity|]. intros E. apply RB. unfold blobs_of in E. destruct (c_vectorize (s_cfg s)), bl; easy.
  Qed.

  Ltac by_step H := match goal with |- exists _, bind ?m _ = _ => match type of H with _ = ?r => replace m with r by (symmetry; exact H) end end; cbn [bind].
  Lemma resample_total R s c q : s_current s = Some c -> cu_weights c = Some (map Fin q) -> Forall (fun x => 0 < x) q -> total q = 1 -> (0 < c_n_active (s_cfg s))%nat ->
    rectangular (current_arrays c) (length q) -> s_have_blobs s = has_blobs (current_arrays c) -> resampling_numbers R (s_t s) -> exists s', resample R s = Ok s'.
  Proof.
    intros Hc Hw PQ TQ NA [r1 r2 r3 r4 r5 r6] HB [HU [o [HO1 HO2]]]. cbn [current_arrays w_u w_x w_logdetj w_logl w_logp w_blobs] in *.
    assert (NN : Forall (fun x => 0 <= x) q) by (eapply Forall_impl; [|exact PQ]; cbv beta; intros; lra).
    assert (HI : exists idx, resample_indices R s (map Fin q) = Ok idx /\ forall i, In i idx -> (i < length q)%nat).
    { unfold resample_indices. destruct (c_resample (s_cfg s)).
      - assert (HM : exists us, map (ir_uniform (rn_iter R (s_t s))) (seq 0 (c_n_active (s_cfg s))) = map Fin us /\ Forall (fun u => 0 <= u < 1) us).
        { generalize (seq 0 (c_n_active (s_cfg s))). induction l as [|k l (us & E & F)]; [exists []; split; [reflexivity|constructor]|]. destruct (HU k) as (u & Eu & Hu).
          exists (u :: us). split; [cbn; now rewrite Eu, E|now constructor]. }
        destruct HM as (us & -> & FU). destruct (random_choice_spec us q NN) as (idx & E & F2); [rewrite TQ, Rminus_diag_eq by reflexivity; rewrite Rabs_R0; left; apply Rinv_0_lt_compat, pow_lt; lra|exact FU|].
        exists idx. split; [exact E|]. clear -F2. induction F2 as [|a b l l' [A _] _ IH]; [easy|]. intros i [->|Hi]; auto.
      - rewrite HO1. destruct (systematic_counts o (c_n_active (s_cfg s)) q) as (idx & E & _ & _ & F & _); [split; [exact NN|split; [lra|now left]]|exact HO2|lia|].
        exists idx. split; [exact E|]. now apply Forall_forall. }
    destruct HI as (idx & EI & BI). unfold resample. rewrite Hc. cbn [of_option bind]. rewrite Hw. cbn [of_option bind]. by_step EI.
    pose proof (gather_all (cu_u c) idx [] ltac:(intros i Hi; rewrite r1; auto)) as K. by_step K. clear K.
    pose proof (gather_all (cu_x c) idx [] ltac:(intros i Hi; rewrite r2; auto)) as K. by_step K. clear K.
    pose proof (gather_all (cu_logdetj c) idx (Fin 0) ltac:(intros i Hi; rewrite r3; auto)) as K. by_step K. clear K.
    pose proof (gather_all (cu_logl c) idx (Fin 0) ltac:(intros i Hi; rewrite r4; auto)) as K. by_step K. clear K.
    pose proof (gather_all (cu_logp c) idx (Fin 0) ltac:(intros i Hi; rewrite r5; auto)) as K. by_step K. clear K.
    unfold has_blobs in HB. cbn [current_arrays w_blobs] in HB. rewrite HB. destruct (cu_blobs c) as [b|]; [|cbn [bind]; eauto]. cbn [of_option bind].
    pose proof (gather_all b idx [] ltac:(intros i Hi; rewrite r6; auto)) as K.
    assert (K' : (let! b0 := gather b idx in Ok (Some b0)) = Ok (Some (map (fun i => nth i b []) idx))) by exact (f_equal (fun m => let! b := m in Ok (Some b)) K).
    by_step K'. eauto.
  Qed.

  Theorem iteration_returns fuel R s s1 s2 normal uniform : reachable s -> exact_sampler rows s -> reweight fuel s = Ok s1 -> train W R s1 = Ok s2 ->
    returning W lp bl -> resampling_numbers R (s_t s2) -> exact_rand (c_n_active (s_cfg s)) (step_numbers R s2) normal uniform -> ready W d s2 (step_numbers R s2) ->
    exists s', iteration W fuel R s = Ok s'.
  Proof.
    intros H ES H1 H2 RT RN ER RD.
    destruct (survivors W lp ll bl rows EM interrupts fuel s s1 H ES H1) as (c1 & q & us & e & Hc1 & Ew & _ & _ & _ & PQ & TQ & _ & _ & RC & HBl & HB1 & F1).
    assert (NA : (0 < c_n_active (s_cfg s))%nat).
    { pose proof (reweight_rows_trim W x_undefined lp ll bl (strictly_inside rows) fuel s s1 (reachable_pinv W x_undefined x_random X_ieee _ x_unit_interval lp ll bl RG (strictly_inside rows) interrupts s (weaken s H)) H1) as (_ & NE & _).
      pose proof (active_pos W lp ll bl RG _ HN (em_bounded _ _ _ _ _ EM) interrupts s (weaken s H) NE). lia. }
    assert (R3 : exists s3, resample R s2 = Ok s3).
    { pose proof H2 as H2'. apply train_facts in H2' as (c2 & now & fl & un & ug & tg & Ec & _ & _ & ->). rewrite Hc1 in Ec. injection Ec as <-.
      apply (resample_total R _ c1 q); cbn [s_current s_cfg s_have_blobs s_t]; auto; [now rewrite F1|congruence]. }
    destruct R3 as (s3 & H3). pose proof H3 as H3'. apply resample_facts in H3' as (c3' & w3 & idx3 & u3 & x3 & ldj3 & logl3 & logp3 & b3 & _ & _ & _ & _ & _ & _ & _ & _ & _ & Es3).
    assert (ER3 : exact_rand (c_n_active (s_cfg s)) (step_numbers R s3) normal uniform) by (rewrite Es3; exact ER).
    destruct (prepared W lp ll bl rows EM interrupts fuel R s s1 s2 s3 normal uniform H ES H1 H2 H3 ER3) as (c3 & beta & p & vs & E1 & E2 & E3 & E7 & E12 & E8 & Ep & Hp & E13 & E14 & E11 & LUS & SEL & IU & PH).
    pose proof (sampler_returns s3 RT E11) as MR. unfold some_blobs, blobs_expected in MR. rewrite E7 in MR. fold (some_blobs bl s) in MR. change (match blobs_of (s_cfg s) bl with Some _ => true | None => false end) with (with_blobs bl s) in MR.
    assert (HBL : s_blobs (input_of c3) <> None -> with_blobs bl s = true) by (cbn [input_of s_blobs]; rewrite <- E13; destruct (cu_blobs c3); easy).
    assert (C2 : s_cfg s2 = s_cfg s) by (rewrite <- E7, Es3; reflexivity).
    assert (RD3 : ready W d s3 (step_numbers R s3)) by (rewrite Es3; exact RD). destruct RD3 as [RD1 RD2]. rewrite E7 in RD1, RD2.
    assert (KF : exists o, kernel_fun (kernel_of (s_cfg s)) (kernel_env_of W s3) (geometry_in_use s3) (Fin p) (input_of c3) (step_numbers R s3) = Ok o).
    { unfold kernel_of in *. destruct (c_preconditioned (s_cfg s)) eqn:Ec; destruct (c_sample (s_cfg s)) eqn:Es; cbn [kernel_fun].
      - destruct RD1 as ((V & L & Vi & mu & nu & SF) & gamma & HG). destruct Hp as [?|Hp]; [discriminate|]. eapply ppcn_returns; eauto.
      - destruct RD1 as (V & L & NF). eapply prwm_returns; eauto.
      - destruct RD1 as ((V & L & Vi & mu & nu & SF) & gamma & HG). destruct Hp as [?|Hp]; [discriminate|]. eapply pcn_returns; eauto.
      - destruct RD1 as (V & L & NF). destruct Hp as [?|Hp]; [discriminate|]. eapply rwm_returns; eauto. }
    destruct KF as [o KF]. unfold iteration. rewrite H1. cbn [bind]. rewrite H2. cbn [bind]. rewrite H3. cbn [bind].
    assert (HM : exists s4 c4, mutate W R s3 = Ok s4 /\ s_current s4 = Some c4).
    { unfold mutate. rewrite E1. cbn [of_option bind].
      assert (Hb : (if s_have_blobs s3 then let! b := of_option AttributeError (cu_blobs c3) in Ok (Some b) else Ok None) = Ok (cu_blobs c3)) by (rewrite E14, <- E13; destruct (cu_blobs c3); reflexivity).
      rewrite Hb. cbn [bind]. rewrite E7, E8. unfold kernel_of, geometry_in_use in KF. rewrite E7 in KF. unfold input_of, step_numbers in KF.
      destruct (c_preconditioned (s_cfg s)), (c_sample (s_cfg s)); cbn [kernel_fun] in KF; rewrite KF; cbn [bind]; (eexists; eexists; split; reflexivity). }
    destruct HM as (s4 & c4 & HM & Hc4). rewrite HM. cbn [bind]. rewrite Hc4. cbn [of_option bind]. eauto.
  Qed.
  Theorem always_returns s : reachable s -> exact_sampler rows s -> iterations (history_of s) <> 0%nat -> (s_have_blobs s = true -> blobs_of (s_cfg s) bl <> None) -> returning W lp bl ->
    exists halvings, forall fuel, (halvings <= fuel)%nat -> exists s1, reweight fuel s = Ok s1 /\
      forall rnd s2 normal uniform, train W rnd s1 = Ok s2 -> resampling_numbers rnd (s_t s2) -> exact_rand (c_n_active (s_cfg s)) (step_numbers rnd s2) normal uniform ->
        ready W d s2 (step_numbers rnd s2) -> exists s', iteration W fuel rnd s = Ok s'.
  Proof.
    intros H ES NE HB RT. destruct (exact_progress W lp ll bl RG _ HN (em_bounded _ _ _ _ _ EM) interrupts s (weaken s H) NE HB) as [k Hk].
    exists k. intros fuel Hf. destruct (Hk fuel Hf) as [s1 H1]. exists s1. split; [exact H1|]. intros rnd s2 normal uniform H2 RN ER RD.
    exact (iteration_returns fuel rnd s s1 s2 normal uniform H ES H1 H2 RT RN ER RD).
  Qed.
End Total.

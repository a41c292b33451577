(** * What the flow and the proposal of an iteration are fitted to *)
From Coq Require Import Reals ZArith Lra Sorted.
From Coq Require Import List Bool Lia.
From Verif Require Import Num PyBase PyBaseFacts XReal Tools SpecTools Scaler Particles SpecParticles LogLike Geometry Mcmc SpecMcmc McmcNum Flow Sampler ConfigFacts SpecReach SamplerFacts SpecRun
  RowFacts ParticleInv SpecIterate SelectFacts.
Import ListNotations.
Set Bullet Behavior "Strict Subproofs".
Local Open Scope R_scope.

Section Fit.
  Context {C P Opt : Type}.
  Variable W : world X C P Opt.
  Variable lp ll : vec X -> X.
  Variable bl : option (vec X -> list C).
  Hypothesis RG : regular W lp ll bl.
  Variable drawn : vec X -> Prop.
  Hypothesis HN : forall x, drawn x -> ll x <> NaN.
  Hypothesis HI : forall x, ll x <> PInf.
  Variable interrupts : bool.
  Notation reachable := (reachable W (good_draws x_random drawn) interrupts).
  Implicit Types s : sampler X C P.

  Lemma trained_when s1 s' b r : trains s1 (Fin b) = Ok r -> s_cfg s1 = s_cfg s' -> s_t s1 = s_t s' -> forall s, s_untrained s1 = s_untrained s -> s_cfg s = s_cfg s' ->
    h_beta (history_of s') = h_beta (history_of s) ++ [Fin b] -> (r = true <-> c_preconditioned (s_cfg s) = true /\ trained_in s s').
  Proof.
    intros E Ec Et s Eu Es Eh. unfold trains in E. unfold trained_in. rewrite Ec, Et, Eu, <- Es in E. destruct (c_preconditioned (s_cfg s)); [|apply Ok_inj in E; subst r; split; [discriminate|intros [? _]; discriminate]].
    destruct (c_train_frequency (s_cfg s) =? 0)%Z; [discriminate|]. apply Ok_inj in E. subst r. rewrite !orb_true_iff. split.
    - intros [[Q|Q]|Q]; (split; [reflexivity|]); [right; left; now apply Z.eqb_eq|right; right|now left]. exists (h_beta (history_of s)). rewrite Eh. do 3 f_equal. now apply Reqb_true in Q.
    - intros [_ [Q|[Q|[bs Q]]]]; [now right|left; left; now apply Z.eqb_eq|left; right]. rewrite Eh in Q. apply app_inj_tail in Q as [_ Q]. injection Q as ->. now apply Reqb_true.
  Qed.

  Theorem fit_data fuel R0 s s' : reachable s -> iteration W fuel R0 s = Ok s' ->
    exists b remain q, h_beta (history_of s') = h_beta (history_of s) ++ [Fin b] /\ remaining s b remain q /\ kept s' = length remain /\
      Forall (fun w => 0 < w) q /\ total q = 1 /\ length q = length remain /\ s_t s' = (s_t s + 1)%Z /\
      let random := rn_iter R0 (s_t s') in let d := c_n_dim (s_cfg s) in
      if c_preconditioned (s_cfg s) then
        (trained_in s s' /\
         (exists losses early, flow_fit (wd_train W) (with_batch_size (c_train (s_cfg s)) (Z.min (Z.of_nat (length remain) / 2) (c_batch_size (c_train (s_cfg s)))))
            (ir_fit random) (s_flow s) (map pt_u remain) (Some (map Fin q)) = Ok (s_flow s', losses, early)) /\
         geometry_fit (wd_fit W) (ir_geometry random) d (map (fun p => fst (wd_flow_forward W (s_flow s') (pt_u p))) remain) (Some (map Fin q)) = Ok (s_theta_geometry s')) \/
        (~ trained_in s s' /\ s_flow s' = s_flow s /\ s_theta_geometry s' = s_theta_geometry s)
      else s_flow s' = s_flow s /\ geometry_fit (wd_fit W) (ir_geometry random) d (map pt_u remain) (Some (map Fin q)) = Ok (s_u_geometry s').
  Proof.
    intros H HI0. apply iteration_facts in HI0 as (s1 & s2 & s3 & s4 & c4 & H1 & H2 & H3 & H4 & Hc & Es').
    destruct (reweighted W lp ll bl RG drawn HN HI interrupts fuel s s1 H H1) as (c1 & b & remain & q & Hc1 & Eb & RM & PQ & TQ & LQ & Ew & Y1 & ER).
    assert (EU : map pt_u remain = cu_u c1) by (rewrite ER; now apply rows_u).
    assert (F1 : s_cfg s1 = s_cfg s /\ s_t s1 = (s_t s + 1)%Z /\ s_untrained s1 = s_untrained s /\ s_flow s1 = s_flow s /\ s_theta_geometry s1 = s_theta_geometry s /\ s_particles s1 = s_particles s).
    { apply reweight_facts in H1 as (c & beta & logz & ess & w0 & neff & w1 & idx & w2 & lf & u & x & ldj & logl & logp & bb & cn & _ & _ & _ & _ & _ & _ & _ & _ & _ & _ & _ & _ & ->). repeat split. }
    destruct F1 as (F1 & F2 & F3 & F4 & F5 & F6).
    apply train_facts in H2 as (c2 & now & fl & un & ug & tg & Ec & Hn & HF & Es2). rewrite Hc1 in Ec. injection Ec as <-.
    apply resample_facts in H3 as (c3 & w3 & idx3 & u3 & x3 & ldj3 & logl3 & logp3 & b3 & Ec3 & _ & _ & _ & _ & _ & _ & _ & _ & Es3). rewrite Es2 in Ec3. cbn [s_current] in Ec3. injection Ec3 as <-.
    apply mutate_facts in H4 as (c5 & b5 & ks & res & c' & Ec5 & _ & _ & _ & _ & Ec' & Es4). rewrite Es3 in Ec5. cbn [s_current with_current] in Ec5. injection Ec5 as <-.
    assert (E4 : cu_beta c4 = Fin b) by (rewrite Es4 in Hc; cbn [s_current] in Hc; injection Hc as <-; rewrite Ec'; exact Eb).
    assert (HB : h_beta (history_of s') = h_beta (history_of s) ++ [Fin b]).
    { rewrite Es', <- E4. unfold history_of. cbn [with_particles s_particles particles_update p_past]. rewrite update_items. cbn [h_beta]. rewrite Es4, Es3, Es2. cbn [with_current s_particles]. now rewrite F6. }
    assert (G : s_cfg s' = s_cfg s /\ s_t s' = s_t s1 /\ s_flow s' = fl /\ s_u_geometry s' = ug /\ s_theta_geometry s' = tg) by (rewrite Es', Es4, Es3, Es2; cbn [with_particles with_current s_cfg s_t s_flow s_u_geometry s_theta_geometry]; auto).
    destruct G as (G1 & G2 & -> & -> & ->).
    exists b, remain, q. split; [exact HB|]. split; [exact RM|]. split.
    { rewrite Es'. unfold kept. cbn [with_particles s_current]. rewrite Es4 in Hc |- *. cbn [s_current] in Hc |- *. rewrite Ec'. cbn [cu_weights]. rewrite Ew, map_length. exact LQ. }
    split; [exact PQ|]. split; [exact TQ|]. split; [exact LQ|]. split; [congruence|]. cbv zeta.
    pose proof Hn as Hn'. rewrite Eb in Hn'. pose proof (trained_when s1 s' b now Hn' ltac:(congruence) (eq_sym G2) s F3 ltac:(congruence) HB) as TW.
    rewrite G2. rewrite <- EU, Ew, F1, F4 in HF. rewrite map_length in HF. destruct now.
    - destruct (proj1 TW eq_refl) as [-> TI]. left. split; [exact TI|]. destruct HF as (_ & _ & HF & HG). split; [exact HF|]. unfold latent in HG. rewrite map_map in HG. exact HG.
    - destruct HF as (-> & _ & -> & HG). destruct (c_preconditioned (s_cfg s)); [right|auto]. split; [intros TI; discriminate (proj2 TW (conj eq_refl TI))|]. split; [reflexivity|exact F5].
  Qed.
End Fit.

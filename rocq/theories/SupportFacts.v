(** * The likelihood is evaluated inside the support of the prior *)
From Coq Require Import ZArith List Bool Lia FunctionalExtensionality.
From Verif Require Import Num PyBase PyBaseFacts Tools Scaler Particles LogLike Geometry GeometryFacts Mcmc SpecMcmc McmcFacts McmcGuard Flow Sampler
  ConfigFacts SpecReach SamplerFacts Reach RowFacts ParticleInv SpecSupport.
Import ListNotations.
Set Bullet Behavior "Strict Subproofs".

Lemma compress_forall {A} (f : A -> bool) (l : list A) : forallb f (compress (map f l) l) = true.
Proof. induction l as [|a l IH]; [reflexivity|]. cbn [map compress]. destruct (f a) eqn:E; [|exact IH]. cbn [forallb]. now rewrite E. Qed.
Lemma set_nth_in {A} i (v : A) l y : In y (set_nth i v l) -> y = v \/ In y l.
Proof.
  revert i. induction l as [|a l IH]; intros i H; [destruct i; destruct H|]. destruct i; cbn [set_nth] in H; destruct H as [<-|H]; auto.
  - right. now right.
  - right. now left.
  - destruct (IH _ H); auto. right. now right.
Qed.
Lemma forallb_incl {A} (f : A -> bool) l l' : (forall x, In x l' -> In x l) -> forallb f l = true -> forallb f l' = true.
Proof. intros H Hl. apply forallb_forall. intros x Hx. rewrite forallb_forall in Hl. auto. Qed.

Section Support.
  Context {T C P Opt : Type} {NT : NumT T}.
  Notation B := (list C).
  Variable W : world T C P Opt.
  Variable lp : vec T -> T.
  Hypothesis HP : forall xs v, wd_logpdf W xs = Ok v -> v = map lp xs.
  Variable ok : vec T -> bool.
  Variable like : vec T -> lret T C.
  Variable vlike : mat T -> vec T.
  Hypothesis HA : agrees W ok like vlike.
  Notation W' := (with_likelihood W like vlike).
  Implicit Types s : sampler T C P.

  Lemma like_same s xs : maps (s_pool s) -> forallb ok xs = true -> sampler_like W' s xs = sampler_like W s xs.
  Proof.
    intros HM Hx. destruct HA as [A1 A2]. unfold sampler_like, log_like. cbn [with_likelihood wd_vlike wd_like].
    destruct (c_vectorize (s_cfg s)); [now rewrite A2|].
    assert (E : map like xs = map (wd_like W) xs). { apply map_ext_in. intros x Hi. apply A1. rewrite forallb_forall in Hx. auto. }
    destruct (s_pool s) as [m|]; [|now rewrite E]. cbn [maps] in HM. now rewrite !HM, E.
  Qed.

  (** ** The Markov chains *)
  Section Chains.
    Hypothesis Hok : forall x, supported lp x = true -> ok x = true.
    Lemma kernel_same s k g ps ks rnd : maps (s_pool s) -> kernel_fun k (kernel_env_of W' s) g ps ks rnd = kernel_fun k (kernel_env_of W s) g ps ks rnd.
    Proof.
      intros HM. rewrite <- (kernel_guard_eq (kernel_env_of W' s) ok lp HP Hok). rewrite <- (kernel_guard_eq (kernel_env_of W s) ok lp HP Hok).
      f_equal. unfold with_like. cbn [kernel_env_of k_like k_prior k_scaler k_flow_forward k_flow_inverse k_linalg k_none_blob k_junk k_bc_fuel k_n_dim k_n_max k_n_steps].
      cbn [with_likelihood wd_logpdf wd_flow_forward wd_flow_inverse wd_linalg wd_none_blob wd_junk wd_bc_fuel].
      f_equal. apply functional_extensionality. intros xs. unfold guarded. destruct (forallb ok xs) eqn:E; [|reflexivity]. now apply like_same.
    Qed.
    Lemma mutate_same R s : maps (s_pool s) -> mutate W' R s = mutate W R s.
    Proof.
      intros HM. unfold mutate. destruct (of_option AttributeError (s_current s)) as [c|]; [|reflexivity]. cbn [bind].
      destruct (if s_have_blobs s then _ else _) as [b|]; [|reflexivity]. cbn [bind].
      set (ks := {| s_u := _ |}).
      pose proof (fun k g => kernel_same s k g (s_scale s) ks (ir_step (rn_iter R (s_t s))) HM) as K.
      pose proof (K PPCN (s_theta_geometry s)) as K1. pose proof (K PRWM (s_theta_geometry s)) as K2.
      pose proof (K PCN (s_u_geometry s)) as K3. pose proof (K RWM (s_u_geometry s)) as K4. cbn [kernel_fun] in K1, K2, K3, K4.
      destruct (c_preconditioned (s_cfg s)), (c_sample (s_cfg s)); rewrite ?K1, ?K2, ?K3, ?K4; reflexivity.
    Qed.
    Lemma iteration_same fuel R s : maps (s_pool s) -> iteration W' fuel R s = iteration W fuel R s.
    Proof.
      intros HM. unfold iteration. destruct (reweight fuel s) as [s1|] eqn:E1; [|reflexivity]. cbn [bind].
      change (train W' R s1) with (train W R s1). destruct (train W R s1) as [s2|] eqn:E2; [|reflexivity]. cbn [bind].
      destruct (resample R s2) as [s3|] eqn:E3; [|reflexivity]. cbn [bind]. rewrite mutate_same; [reflexivity|].
      apply resample_facts in E3 as (c3 & w3 & idx3 & u3 & x3 & ldj3 & logl3 & logp3 & b3 & _ & _ & _ & _ & _ & _ & _ & _ & _ & ->).
      apply train_facts in E2 as (c2 & now & fl & un & ug & tg & _ & _ & _ & ->).
      apply reweight_facts in E1 as (c & beta & logz & ess & w0 & neff & w1 & idx & w2 & lf & u & x & ldj & logl & logp & b & c1 & _ & _ & _ & _ & _ & _ & _ & _ & _ & _ & _ & _ & ->).
      exact HM.
    Qed.
    Lemma iteration_pool fuel R s s' : iteration W fuel R s = Ok s' -> s_pool s' = s_pool s.
    Proof.
      intros H. apply iteration_facts in H as (s1 & s2 & s3 & s4 & c4 & E1 & E2 & E3 & E4 & _ & ->).
      apply reweight_facts in E1 as (c & beta & logz & ess & w0 & neff & w1 & idx & w2 & lf & u & x & ldj & logl & logp & b & c1 & _ & _ & _ & _ & _ & _ & _ & _ & _ & _ & _ & _ & ->).
      apply train_facts in E2 as (c2 & now & fl & un & ug & tg & _ & _ & _ & ->).
      apply resample_facts in E3 as (c3 & w3 & idx3 & u3 & x3 & ldj3 & logl3 & logp3 & b3 & _ & _ & _ & _ & _ & _ & _ & _ & _ & ->).
      apply mutate_facts in E4 as (c5 & b5 & ks & res & c' & _ & _ & _ & _ & _ & _ & ->). reflexivity.
    Qed.
    Lemma loop_same fuel bfuel save t0 R s : maps (s_pool s) -> smc_loop W' fuel bfuel save t0 R s = smc_loop W fuel bfuel save t0 R s.
    Proof.
      revert s. induction fuel as [|fuel IH]; intros s HM; cbn [smc_loop]; [reflexivity|].
      destruct (not_termination s) as [[|]|]; [|reflexivity|reflexivity].
      assert (Hb : forall s', s_pool s' = s_pool s -> tbind (lift (iteration W' bfuel R s')) (fun s => smc_loop W' fuel bfuel save t0 R s)
        = tbind (lift (iteration W bfuel R s')) (fun s => smc_loop W fuel bfuel save t0 R s)).
      { intros s' Hs. rewrite iteration_same by (rewrite Hs; exact HM). unfold lift, tbind. destruct (iteration W bfuel R s') as [s2|] eqn:E; [|reflexivity].
        rewrite IH; [reflexivity|]. now rewrite (iteration_pool _ _ _ _ E), Hs. }
      unfold tbind at 1 3. unfold checkpoint. destruct save as [k|]; [|now rewrite Hb].
      destruct (k =? 0)%Z; [reflexivity|]. destruct (_ && _); now rewrite Hb.
    Qed.
  End Chains.

  (** ** Evidence *)
  Lemma evidence_same R s : (forall x, nisfinite (lp x) = true -> ok x = true) -> maps (s_pool s) -> final_evidence W' R s = final_evidence W R s.
  Proof.
    intros Hok HM. unfold final_evidence. destruct (of_option TypeError (s_n_evidence s)) as [n|]; [|reflexivity]. cbn [bind].
    destruct ((0 <? n)%Z && _); [|reflexivity]. unfold compute_evidence. destruct (rn_flow R (s_flow s) (Z.to_nat n)) as [theta logq].
    cbn [with_likelihood wd_junk wd_logpdf].
    destruct (inverse _ _ theta) as [[xq ldj]|]; [|reflexivity]. cbn [bind]. destruct (wd_logpdf W xq) as [logp|] eqn:Ep; [|reflexivity]. cbn [bind].
    rewrite like_same; [reflexivity|exact HM|]. apply HP in Ep. rewrite Ep, map_map.
    apply forallb_forall. intros x Hx. apply Hok. pose proof (compress_forall (fun x => nisfinite (lp x)) xq) as F. rewrite forallb_forall in F. now apply F.
  Qed.

  (** ** Warm-up *)
  Definition drawn_ok s : Prop := maps (s_pool s) /\ match s_prior_samples s with Some ps => forallb ok ps = true | None => True end.
  Lemma batch_same R i s : drawn_ok s -> warmup_batch W' R i s = warmup_batch W R i s.
  Proof.
    intros [HM Hps]. unfold warmup_batch. destruct (s_prior_samples s) as [ps|]; [|reflexivity]. cbn [of_option bind with_likelihood wd_junk wd_logpdf].
    destruct (forward _ _ _ _); [|reflexivity]. cbn [bind]. destruct (inverse _ _ _) as [[]|]; [|reflexivity]. cbn [bind].
    destruct (wd_logpdf W _); [|reflexivity]. cbn [bind]. rewrite like_same; [reflexivity|exact HM|].
    eapply forallb_incl; [|exact Hps]. intros x. apply slice_in.
  Qed.
  Lemma batch_drawn R i s s' : drawn_ok s -> warmup_batch W R i s = Ok s' -> drawn_ok s'.
  Proof.
    intros [HM Hps] H. apply warmup_facts in H as (ps & x0 & u0 & xi & ldj0 & logp0 & logl0 & b0 & x & u & ldj & logp & logl & b & c & Eps & Ex & _ & _ & _ & _ & Hx & _ & ->).
    split; [exact HM|]. cbn [s_prior_samples]. rewrite Eps in Hps. eapply forallb_incl; [|exact Hps]. intros y Hy.
    apply set_slice_in in Hy as [Hy|Hy]; [|exact Hy]. apply (slice_in i (c_n_active (s_cfg s))). rewrite <- Ex.
    destruct (existsb _ _); [|destruct Hx as [-> _]; exact Hy]. destruct Hx as [idx (_ & Hr & _)]. unfold replace_rows in Hr.
    apply bind_ok in Hr as [v [Hv Hr]]. apply Ok_inj in Hr. subst x. clear -Hy Hv.
    assert (Hv' : forall y, In y v -> In y x0) by (intros; eapply gather_in; eauto). clear Hv.
    assert (G : forall inf (l : mat T), (forall y, In y l -> In y x0) -> In y (put inf v l) -> In y x0); [|exact (G _ _ (fun y H => H) Hy)].
    clear Hy. revert Hv'. induction v as [|a v IH]; intros Hv' inf l Hl; [destruct inf; cbn [put]; auto|]. destruct inf as [|j inf]; cbn [put]; auto.
    apply IH; [intros; apply Hv'; now right|]. intros z Hz. apply set_nth_in in Hz as [->|Hz]; [apply Hv'; now left|auto].
  Qed.
  Lemma warmup_same save t0 R s : drawn_ok s -> warmup W' save t0 R s = warmup W save t0 R s /\
    (forall s', snd (warmup W save t0 R s) = Ok s' -> s_pool s' = s_pool s).
  Proof.
    intros Hs. unfold warmup. destruct (s_warmup s); [|split; [reflexivity|cbn; intros ? [= <-]; reflexivity]].
    destruct (Nat.eqb _ _); [split; [reflexivity|cbn; discriminate]|].
    assert (G : forall k i s, drawn_ok s -> warmup_loop W' save t0 R i k s = warmup_loop W save t0 R i k s /\
      (forall s', snd (warmup_loop W save t0 R i k s) = Ok s' -> s_pool s' = s_pool s)).
    { clear s Hs. induction k as [|k IH]; intros i s Hs; cbn [warmup_loop]; [split; [reflexivity|cbn; intros ? [= <-]; reflexivity]|].
      assert (Hb : forall s0, s0 = s -> (tbind (lift (warmup_batch W' R i s0)) (fun s => warmup_loop W' save t0 R (S i) k s)
        = tbind (lift (warmup_batch W R i s0)) (fun s => warmup_loop W save t0 R (S i) k s)) /\
        (forall s', snd (tbind (lift (warmup_batch W R i s0)) (fun s => warmup_loop W save t0 R (S i) k s)) = Ok s' -> s_pool s' = s_pool s)).
      { intros ? ->. rewrite (batch_same R i s Hs). unfold lift, tbind. destruct (warmup_batch W R i s) as [s1|] eqn:E; [|split; [reflexivity|cbn; discriminate]].
        destruct (IH (S i) s1 (batch_drawn _ _ _ _ Hs E)) as [I1 I2]. rewrite I1. split; [reflexivity|].
        destruct (warmup_loop W save t0 R (S i) k s1) as [evs r]. cbn [snd] in *. intros s' ->. rewrite (I2 s' eq_refl).
        apply warmup_facts in E as (ps & x0 & u0 & xi & ldj0 & logp0 & logl0 & b0 & x & u & ldj & logp & logl & b & c & _ & _ & _ & _ & _ & _ & _ & _ & ->). reflexivity. }
      destruct (Hb s eq_refl) as [B1 B2]. clear Hb.
      unfold tbind at 1 3 5. unfold checkpoint. destruct save as [z|].
      - destruct (z =? 0)%Z; [split; [reflexivity|cbn; discriminate]|]. destruct (_ && _);
          rewrite B1; (split; [reflexivity|]); clear B1; destruct (tbind _ _) as [evs r]; exact B2.
      - rewrite B1. split; [reflexivity|]. clear B1. destruct (tbind _ _) as [evs r]; exact B2. }
    destruct (G (n_batches (s_cfg s)) 0%nat s Hs) as [G1 G2]. rewrite G1. split; [reflexivity|].
    unfold tbind. destruct (warmup_loop W save t0 R 0 _ s) as [evs [s1|e]]; cbn [snd] in *; [|discriminate]. intros s' [= <-]. exact (G2 s1 eq_refl).
  Qed.

  (** ** Whole runs *)
  Lemma run_same a R s : (forall x, nisfinite (lp x) = true -> ok x = true) -> maps (s_pool s) ->
    (forall n ps, rn_prior R n = Ok ps -> forallb ok ps = true) -> (forall ps, s_prior_samples s = Some ps -> forallb ok ps = true) ->
    run W' a R s = run W a R s.
  Proof.
    intros Hok HM HR Hs. unfold run, run_from. change (draw_prior W' R) with (draw_prior W R).
    destruct (draw_prior W R _) as [s0|] eqn:E0; [|reflexivity]. unfold tbind at 1 5. cbn [lift].
    assert (D0 : drawn_ok s0).
    { apply draw_facts in E0 as [[_ ->]|[_ (ps & sc & Hps & _ & ->)]].
      - split; [exact HM|]. cbn [set_targets s_prior_samples]. destruct (s_prior_samples s) eqn:E; [now apply Hs|exact I].
      - split; [exact HM|]. cbn [s_prior_samples]. eapply HR, Hps. }
    destruct (warmup_same (ra_save_every a) (s_t s) R s0 D0) as [-> WP].
    unfold tbind at 1 4. destruct (warmup W _ _ R s0) as [evs1 [s1|e]]; [|reflexivity]. cbn [snd] in WP.
    assert (M1 : maps (s_pool s1)) by (rewrite (WP s1 eq_refl); exact (proj1 D0)).
    rewrite (loop_same (fun x Hx => Hok x (proj2 (proj1 (andb_true_iff _ _) Hx))) _ _ _ _ _ s1 M1).
    assert (M2 : forall fuel bfuel save t0 s s', maps (s_pool s) -> snd (smc_loop W fuel bfuel save t0 R s) = Ok s' -> maps (s_pool s')).
    { clear. induction fuel as [|fuel IH]; intros bfuel save t0 s s' HM; cbn [smc_loop]; (destruct (not_termination s) as [[|]|]; [|cbn; intros [= <-]; exact HM|discriminate]); [discriminate|].
      unfold tbind at 1. unfold checkpoint. destruct save as [z|]; [destruct (z =? 0)%Z; [cbn; discriminate|]; destruct (_ && _)|];
        unfold lift, tbind; (destruct (iteration W bfuel R s) as [s1|] eqn:E; [|cbn; discriminate]);
        match goal with |- context [smc_loop W fuel bfuel ?sv t0 R s1] => pose proof (IH bfuel sv t0 s1) as I; destruct (smc_loop W fuel bfuel sv t0 R s1) as [evs [s2|]] end;
        cbn [snd] in *; try discriminate; intros [= <-]; (apply I; [rewrite (iteration_pool _ _ _ _ E); exact HM|reflexivity]). }
    specialize (M2 (ra_fuel a) (ra_bfuel a) (ra_save_every a) (s_t s) s1).
    unfold tbind at 1 3. destruct (smc_loop W _ _ _ _ R s1) as [evs2 [s2|e]]; [|reflexivity].
    rewrite (evidence_same R s2 Hok (M2 s2 M1 eq_refl)). reflexivity.
  Qed.
End Support.

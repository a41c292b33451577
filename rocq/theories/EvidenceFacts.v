(** * The evidence estimates *)
From Coq Require Import ZArith Reals Lra Lia.
From Coq Require Import String List Bool.
From Verif Require Import Num PyBase XReal Tools SpecTools Scaler Particles SpecParticles ParticlesFacts LogLike Geometry Mcmc SpecMcmc McmcFacts McmcNum Flow Sampler ConfigFacts
  SpecReach SamplerFacts Reach SpecRun TrimFacts XUnit RowFacts ParticleInv HistoryFacts SpecEss BisectFacts FiniteHistory SpecLoop LoopFacts LoopExact SpecEvidence SupportFacts.
Import ListNotations.
Set Bullet Behavior "Strict Subproofs".
Local Open Scope R_scope.

(** the number of which an extended real <= +infinity is the logarithm *)
Definition xexpR (a : X) : R := match a with Fin r => exp r | _ => 0 end.
Definition lognum (a : X) : Prop := (exists r, a = Fin r) \/ a = NInf.
Lemma logaddexp_num a b : lognum a -> lognum b -> lognum (nlogaddexp a b) /\ xexpR (nlogaddexp a b) = xexpR a + xexpR b.
Proof.
  intros [[r ->]| ->] [[q ->]| ->].
  - rewrite nlogaddexp_fin. split; [left; eauto|]. cbn [xexpR]. apply exp_ln. pose proof (exp_pos r); pose proof (exp_pos q); lra.
  - assert (E : nlogaddexp (Fin r) NInf = Fin r).
    { unfold nlogaddexp; cbn -[xlog xadd]. rewrite xadd_fin, xlog_fin by lra. cbv [xadd]. f_equal. rewrite Rplus_0_r, ln_1. ring. }
    rewrite E. split; [left; eauto|]. cbn [xexpR]. lra.
  - rewrite nlogaddexp_ninf_fin. split; [left; eauto|]. cbn [xexpR]. lra.
  - assert (E : nlogaddexp NInf NInf = NInf).
    { unfold nlogaddexp; cbn -[xlog xadd]. rewrite xlog_fin by lra. reflexivity. }
    rewrite E. split; [right; reflexivity|]. cbn [xexpR]. lra.
Qed.
Lemma lse_num l : Forall lognum l -> lognum (nlse l) /\ xexpR (nlse l) = Rsum (map xexpR l).
Proof.
  unfold nlse. change (nopp ninf) with NInf.
  assert (G : forall l a, Forall lognum l -> lognum a -> lognum (fold_left nlogaddexp l a) /\ xexpR (fold_left nlogaddexp l a) = xexpR a + Rsum (map xexpR l)).
  { clear. induction l as [|b l IH]; intros a H Ha; cbn [fold_left map Rsum]; [split; [exact Ha|lra]|].
    apply Forall_cons_iff in H as [H1 H2]. destruct (logaddexp_num a b Ha H1) as [L E]. destruct (IH _ H2 L) as [I1 I2]. split; [exact I1|]. rewrite I2, E. lra. }
  intros H. destruct (G l NInf H (or_intror eq_refl)) as [G1 G2]. split; [exact G1|]. rewrite G2. cbn [xexpR]. lra.
Qed.
Lemma log_mean_num l : Forall lognum l -> 0 < Rsum (map xexpR l) -> exists z, log_mean l = Fin z /\ exp z = Rsum (map xexpR l) / INR (length l).
Proof.
  intros H HS. assert (HL : (0 < length l)%nat) by (destruct l; [cbn in HS; lra|cbn; lia]).
  assert (HI : 0 < INR (length l)) by (apply lt_0_INR; exact HL).
  destruct (lse_num l H) as [[[r E]|E] Q]; rewrite E in Q; cbn [xexpR] in Q; [|lra].
  exists (r - ln (INR (length l))). split.
  - unfold log_mean. change (@nofZ X _ (Z.of_nat (length l))) with (Fin (IZR (Z.of_nat (length l)))). rewrite <- INR_IZR_INZ.
    change (xsub (nlse l) (xlog (Fin (INR (length l)))) = Fin (r - ln (INR (length l)))). rewrite xlog_fin by exact HI. rewrite E. reflexivity.
  - unfold Rminus. rewrite exp_plus, exp_Ropp, exp_ln by exact HI. rewrite Q. reflexivity.
Qed.
Lemma log_mean_none : log_mean [] = NaN.
Proof. unfold log_mean, nlse. cbn -[xlog]. unfold xlog. destruct (Rltb 0 0) eqn:E; [apply Rltb_true in E; lra|]. destruct (Reqb 0 0) eqn:E0; [reflexivity|]. apply Reqb_false in E0. lra. Qed.

(** ** Runs end with the evidence *)
Section Ends.
  Context {T C P Opt : Type} {NT : NumT T}.
  Variable W : world T C P Opt.
  Variable fair : rand T C P -> Prop.
  Variable interrupts : bool.
  Implicit Types s : sampler T C P.

  Lemma iteration_targets fuel R s s' : iteration W fuel R s = Ok s' -> s_n_evidence s' = s_n_evidence s.
  Proof.
    intros H. apply iteration_facts in H as (s1 & s2 & s3 & s4 & c4 & H1 & H2 & H3 & H4 & _ & ->).
    apply reweight_facts in H1 as (c & beta & logz & ess & w0 & neff & w1 & idx & w2 & lf & u & x & ldj & logl & logp & b & c1 & _ & _ & _ & _ & _ & _ & _ & _ & _ & _ & _ & _ & ->).
    apply train_facts in H2 as (c2 & now & fl & un & ug & tg & _ & _ & _ & ->).
    apply resample_facts in H3 as (c3 & w3 & idx3 & u3 & x3 & ldj3 & logl3 & logp3 & b3 & _ & _ & _ & _ & _ & _ & _ & _ & _ & ->).
    apply mutate_facts in H4 as (c5 & b5 & ks & res & c' & _ & _ & _ & _ & _ & _ & ->). reflexivity.
  Qed.
  Lemma loop_targets fuel bfuel save t0 R : forall s s', snd (smc_loop W fuel bfuel save t0 R s) = Ok s' -> s_n_evidence s' = s_n_evidence s.
  Proof.
    induction fuel as [|fuel IH]; intros s s'; cbn [smc_loop]; (destruct (not_termination s) as [[|]|] eqn:E; [|intros Q; injection Q as <-; auto|discriminate]); [discriminate|].
    intros H. apply tbind_ok in H as (s1 & H1 & H). apply checkpoint_same in H1. subst s1. apply tbind_ok in H as (s2 & H2 & H).
    cbn [lift snd] in H2. apply iteration_targets in H2. apply IH in H. congruence.
  Qed.
  Lemma warmup_targets save t0 R s s' : snd (warmup W save t0 R s) = Ok s' -> s_n_evidence s' = s_n_evidence s.
  Proof.
    unfold warmup. destruct (s_warmup s); [|cbn; congruence]. destruct (Nat.eqb _ _); [discriminate|]. intros H. apply tbind_ok in H as (s1 & H1 & H). cbn in H. injection H as <-.
    change (s_n_evidence (end_warmup s1)) with (s_n_evidence s1).
    set (k := n_batches (s_cfg s)) in H1. clearbody k. revert s H1. generalize 0%nat as i. induction k as [|k IH]; intros i s H1; cbn [warmup_loop] in H1; [cbn in H1; congruence|].
    apply tbind_ok in H1 as (s2 & H2 & H1). apply checkpoint_same in H2. subst s2. apply tbind_ok in H1 as (s2 & H2 & H1). cbn [lift snd] in H2.
    apply IH in H1. rewrite H1.
    apply warmup_facts in H2 as (ps & x0 & u0 & xi & ldj0 & logp0 & logl0 & b0 & x & u & ldj & logp & logl & b & c & _ & _ & _ & _ & _ & _ & _ & _ & ->). reflexivity.
  Qed.
  Lemma run_ends a R s evs s' : run W a R s = (evs, Ok s') -> exists s2, final_evidence W R s2 = Ok s' /\ s_n_evidence s2 = Some (ra_n_evidence a) /\
    s_cfg s' = s_cfg s /\ (reachable W fair interrupts s -> fair R -> reachable W fair interrupts s2).
  Proof.
    intros H. assert (Q : snd (run W a R s) = Ok s') by now rewrite H. clear H evs. unfold run, run_from in Q.
    apply tbind_ok in Q as (s1 & Q1 & Q). cbn [lift snd] in Q1. assert (E1 : s_n_evidence s1 = Some (ra_n_evidence a)).
    { apply draw_facts in Q1 as [[_ ->]|[_ (ps & sc & _ & _ & ->)]]; reflexivity. }
    pose proof (draw_frame W _ _ _ Q1) as [F1 _].
    apply tbind_ok in Q as (s2 & Q2 & Q). pose proof (warmup_targets _ _ _ _ _ Q2) as E2.
    apply tbind_ok in Q as (s3 & Q3 & Q). pose proof (loop_targets _ _ _ _ _ _ _ Q3) as E3.
    apply tbind_ok in Q as (s4 & Q4 & Q). cbn [lift snd] in Q4. assert (s' = s4) by (destruct (ra_save_every a); cbn in Q; congruence). subst s4.
    exists s3. split; [exact Q4|]. split; [congruence|]. split.
    - assert (E4 : s_cfg s' = s_cfg s3) by (apply evidence_facts in Q4 as (? & ? & ? & ? & ? & ? & _ & -> & _); reflexivity). rewrite E4. clear -Q3 Q2 F1.
      assert (E5 : s_cfg s3 = s_cfg s2).
      { clear -Q3. revert s2 Q3. generalize (ra_fuel a) as f. induction f as [|f IH]; intros s2 Q3; cbn [smc_loop] in Q3; (destruct (not_termination s2) as [[|]|]; [|cbn in Q3; congruence|discriminate]); [discriminate|].
        apply tbind_ok in Q3 as (s1 & H1 & H). apply checkpoint_same in H1. subst s1. apply tbind_ok in H as (s4 & H2 & H). apply IH in H. cbn [lift snd] in H2.
        apply iteration_frame in H2 as [H2 _]. congruence. }
      rewrite E5. clear -Q2 F1. change (s_cfg s) with (s_cfg (set_targets (ra_n_total a) (ra_n_evidence a) s)). rewrite <- F1. clear F1.
      unfold warmup in Q2. destruct (s_warmup s1); [|cbn in Q2; congruence]. destruct (Nat.eqb _ _); [discriminate|].
      apply tbind_ok in Q2 as (s3 & H1 & H). cbn in H. injection H as <-. change (s_cfg (end_warmup s3)) with (s_cfg s3).
      set (k := n_batches (s_cfg s1)) in H1. clearbody k. revert s1 H1. generalize 0%nat as i. induction k as [|k IH]; intros i s1 H1; cbn [warmup_loop] in H1; [cbn in H1; congruence|].
      apply tbind_ok in H1 as (s2 & H2 & H1). apply checkpoint_same in H2. subst s2. apply tbind_ok in H1 as (s2 & H2 & H1). cbn [lift snd] in H2.
      apply IH in H1. apply batch_frame in H2 as [H2 _]. congruence.
    - intros Hr HR. assert (R1 : reachable W fair interrupts s1) by (eapply rc_prior; [apply rc_targets, Hr|exact HR|exact Q1]).
      destruct (warmup_reachable W fair interrupts (ra_save_every a) (s_t s) R s1 R1 HR) as [_ K]. destruct (K s2 Q2) as [R2 W2].
      destruct (loop_reachable W fair interrupts (ra_fuel a) (ra_bfuel a) (ra_save_every a) (s_t s) R s2 R2 HR W2) as [_ K2]. now apply K2.
  Qed.
  Lemma new_evidence o s : new_sampler W o = Ok s -> evidence s = (None, None).
  Proof. intros H. unfold new_sampler in H. do 12 (apply bind_ok in H as [? [_ H]]). apply Ok_inj in H. subst s. reflexivity. Qed.
  Lemma maps_pool s : reachable W fair interrupts s -> maps (s_pool s).
  Proof.
    revert s. apply (reach_phases W fair interrupts (fun s => maps (s_pool s)) (fun _ => True) (fun _ => True) (fun _ => True)).
    - intros o s _ H. exact H.
    - intros n m s I. exact I.
    - intros R s s' I _ H. apply draw_facts in H as [[_ ->]|[_ (ps & sc & _ & _ & ->)]]; exact I.
    - intros R i s s' I _ _ _ H. apply warmup_facts in H as (ps & x0 & u0 & xi & ldj0 & logp0 & logl0 & b0 & x & u & ldj & logp & logl & b & c & _ & _ & _ & _ & _ & _ & _ & _ & ->). exact I.
    - intros s I _. exact I.
    - intros fuel s s1 I _ H. apply reweight_facts in H as (c & beta & logz & ess & w0 & neff & w1 & idx & w2 & lf & u & x & ldj & logl & logp & b & c1 & _ & _ & _ & _ & _ & _ & _ & _ & _ & _ & _ & _ & ->). auto.
    - intros R s s2 I _ _ H. apply train_facts in H as (c2 & now & fl & un & ug & tg & _ & _ & _ & ->). auto.
    - intros R s s3 I _ _ _ H. apply resample_facts in H as (c3 & w3 & idx3 & u3 & x3 & ldj3 & logl3 & logp3 & b3 & _ & _ & _ & _ & _ & _ & _ & _ & _ & ->). auto.
    - intros R s s4 I _ _ _ H. apply mutate_facts in H as (c5 & b5 & ks & res & c' & _ & _ & _ & _ & _ & _ & ->). auto.
    - intros s c I _ _ _. exact I.
    - intros R s s' I _ _ H. apply evidence_facts in H as (? & ? & ? & ? & ? & ? & _ & -> & _). exact I.
    - intros s I. unfold results_of. destruct (compute_results (s_particles s)). exact I.
    - intros saved self I I'. cbn [load with_pool s_pool]. destruct (s_pool saved); [exact I'|exact I].
    - intros s p I _ _. exact I.
  Qed.
End Ends.

(** ** Exact arithmetic *)
Section Exact.
  Context {C P Opt : Type}.
  Variable W : world X C P Opt.
  Variable lp ll : vec X -> X.
  Variable bl : option (vec X -> list C).
  Hypothesis RG : regular W lp ll bl.
  Implicit Types s : sampler X C P.

  Lemma weights_listed (xq : mat X) ldj logq : length ldj = length xq -> length logq = length xq ->
    let ds := combine xq (combine ldj logq) in
    let keep := map nisfinite (map lp xq) in
    let logw := map2 nsub (map2 nadd (map2 nadd (map ll (compress keep xq)) (compress keep (map lp xq))) (compress keep ldj)) (compress keep logq) in
    Forall (evaluable lp ll) ds ->
    Forall lognum logw /\ length logw = kept lp ds /\ Rsum (map xexpR logw) = Rsum (map (importance_weight lp ll) ds).
  Proof.
    revert ldj logq. induction xq as [|x xq IH]; intros ldj logq L1 L2; [cbn; auto|].
    destruct ldj as [|j ldj]; [discriminate|]. destruct logq as [|q logq]; [discriminate|].
    cbn in L1, L2. injection L1 as L1. injection L2 as L2. cbn zeta. cbn [combine map compress]. intros H. apply Forall_cons_iff in H as [H0 H].
    specialize (IH ldj logq L1 L2). cbn zeta in IH. destruct (IH H) as (I1 & I2 & I3). unfold kept in *. cbn [filter]. cbn [fst].
    unfold evaluable in H0. cbn [fst snd] in H0.
    destruct (nisfinite (lp x)) eqn:E.
    - destruct (H0 eq_refl) as (Hl & [j' ->] & [q' ->]). destruct (lp x) as [p| | |] eqn:Ep; try discriminate.
      cbn [map map2 length Rsum]. rewrite I2, I3.
      assert (K : lognum (nsub (nadd (nadd (ll x) (Fin p)) (Fin j')) (Fin q')) /\
        xexpR (nsub (nadd (nadd (ll x) (Fin p)) (Fin j')) (Fin q')) = importance_weight lp ll (x, (Fin j', Fin q'))).
      { unfold importance_weight. cbn [fst snd]. rewrite Ep. destruct Hl as [[l ->]| ->].
        - split; [left; eexists; reflexivity|]. cbn [xexpR nsub nadd xsub xadd xopp]. change (exp (l + p + j' - q') = exp l * exp p * exp j' / exp q').
          unfold Rminus. rewrite !exp_plus, exp_Ropp. reflexivity.
        - split; [right; reflexivity|reflexivity]. }
      destruct K as [K1 K2]. split; [constructor; [exact K1|exact I1]|]. split; [reflexivity|]. now rewrite <- K2.
    - split; [exact I1|]. split; [exact I2|]. cbn [Rsum]. rewrite I3. unfold importance_weight at 2. cbn [fst snd].
      destruct (lp x); [discriminate| | |]; destruct (ll x); lra.
  Qed.

  (** the points, log-Jacobians and log-densities of the draws made for the evidence *)
  Theorem evidence_is_mean R s s' n theta logq xq ldj :
    maps (s_pool s) -> final_evidence W R s = Ok s' -> s_n_evidence s = Some n -> (0 < n)%Z -> c_preconditioned (s_cfg s) = true ->
    rn_flow R (s_flow s) (Z.to_nat n) = (theta, logq) -> length logq = length theta ->
    inverse (s_scaler s) (wd_junk W) theta = Ok (xq, ldj) ->
    let ds := combine xq (combine ldj logq) in
    let ws := map (importance_weight lp ll) ds in
    Forall (evaluable lp ll) ds ->
    (0 < total ws -> exists z err, evidence s' = (Some (Fin z), Some err) /\ exp z = total ws / INR (kept lp ds)) /\
    (kept lp ds = 0%nat -> exists err, evidence s' = (Some NaN, Some err)).
  Proof.
    intros HM H En Hn Hp Ef Lq Hi ds ws HE. apply evidence_facts in H as (n' & logz & err & calls & evals & hb & En' & -> & Hv).
    rewrite En in En'. injection En' as <-. rewrite Hp, (proj2 (Z.ltb_lt _ _) Hn) in Hv. cbn [andb] in Hv. destruct Hv as (xq' & ldj' & logp & logl & b & Hv). rewrite Ef in Hv.
    destruct Hv as (Hi' & Hlp & -> & Hl & _ & -> & _ & ->). rewrite Hi in Hi'. apply Ok_inj in Hi'. injection Hi' as <- <-.
    apply (rg_prior _ _ _ _ RG) in Hlp. subst logp. apply (like_facts W lp ll bl RG _ _ _ _ HM) in Hl as [-> _].
    destruct (inverse_length _ _ _ _ _ Hi) as [L1 L2].
    destruct (weights_listed xq ldj logq) as (K1 & K2 & K3); [congruence|congruence|exact HE|]. fold ds in K2, K3. fold ws in K3.
    unfold evidence. cbn [with_evidence s_logz s_logz_err]. split.
    - intros HS. rewrite total_Rsum in HS. rewrite <- K3 in HS. destruct (log_mean_num _ K1 HS) as (z & Ez & Hz). exists z. eexists. split; [do 2 f_equal; exact Ez|].
      rewrite Hz, K2, K3, total_Rsum. reflexivity.
    - intros K0. rewrite K0 in K2. eexists. do 2 f_equal. exact (eq_trans (f_equal log_mean (proj1 (length_zero_iff_nil _) K2)) log_mean_none).
  Qed.
End Exact.

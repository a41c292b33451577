(** * The history of a reachable sampler, in exact arithmetic *)
From Coq Require Import ZArith Reals Lra Lia.
From Coq Require Import String List Bool.
From Verif Require Import Num PyBase XReal Tools Scaler Particles SpecParticles ParticlesFacts LogLike Geometry Mcmc SpecMcmc McmcNum Flow Sampler ConfigFacts
  SpecReach SamplerFacts Reach SpecRun BetaFacts XUnit RowFacts ParticleInv HistoryFacts SpecEss BisectFacts.
Import ListNotations.
Set Bullet Behavior "Strict Subproofs".
Local Open Scope R_scope.

Lemma finite_list (l : list X) : (forall k, (k < length l)%nat -> exists r, nth k l (Fin 0) = Fin r) -> exists rs, l = map Fin rs.
Proof.
  induction l as [|a l IH]; intros H; [now exists []|]. destruct (H 0%nat) as [r Hr]; [cbn; lia|]. cbn in Hr.
  destruct IH as [rs ->]; [intros k Hk; apply (H (S k)); cbn; lia|]. exists (r :: rs). now rewrite Hr.
Qed.
Lemma finite_lists (l : list (list X)) : (forall t, (t < length l)%nat -> exists rs, nth t l [] = map Fin rs) -> exists ls, l = map (map Fin) ls.
Proof.
  induction l as [|a l IH]; intros H; [now exists []|]. destruct (H 0%nat) as [r Hr]; [cbn; lia|]. cbn in Hr.
  destruct IH as [rs ->]; [intros k Hk; apply (H (S k)); cbn; lia|]. exists (r :: rs). now rewrite Hr.
Qed.

Section Finite.
  Context {C P Opt : Type}.
  Variable W : world X C P Opt.
  Variable lp ll : vec X -> X.
  Variable bl : option (vec X -> list C).
  Hypothesis RG : regular W lp ll bl.
  Variable drawn : vec X -> Prop.
  Hypothesis HN : forall x, drawn x -> ll x <> NaN.
  Hypothesis HI : forall x, ll x <> PInf.
  Variable interrupts : bool.
  Notation reachable := (reachable W (good_draws x_random drawn) interrupts).
  Implicit Types s : sampler X C P.
  Notation pinv_of s H := (reachable_pinv W x_undefined x_random X_ieee _ x_unit_interval lp ll bl RG drawn interrupts s H).

  Lemma legit_logl s p : legit W x_undefined lp ll bl drawn s p -> exists l, pt_logl p = Fin l.
  Proof.
    intros [[B1 _ _] D]. pose proof (HI (pt_x p)) as H1.
    destruct D as [[D1 _ _ D4]|[_ _ _ _ A5]]; rewrite B1 in *.
    - pose proof (HN _ D1) as H2. destruct (ll (pt_x p)); try contradiction; try discriminate; eauto.
    - unfold x_undefined in A5. destruct (ll (pt_x p)); try contradiction; try (exfalso; apply A5; auto; fail); eauto.
  Qed.
  Lemma logl_finite s : reachable s -> exists ls, h_logl (history_of s) = map (map Fin) ls /\
    length ls = iterations (history_of s) /\ (forall l, In l ls -> length l = c_n_active (s_cfg s)).
  Proof.
    intros H. pose proof (pinv_of s H) as [_ _ [A LG] _ _]. destruct A as [_ _ A3 _ _ A6].
    destruct (finite_lists (h_logl (history_of s))) as [ls E].
    - intros t Ht0. pose proof (eq_ind _ (fun n => (t < n)%nat) Ht0 _ A3) as Ht. cbv beta in Ht. destruct (A6 t Ht) as [[_ _ _ R4 _ _] _]. cbn [stored w_logl] in R4. apply finite_list.
      intros k Hk. exact (legit_logl s _ (LG t k Ht (eq_ind _ (fun n => (k < n)%nat) Hk _ R4))).
    - exists ls. split; [exact E|]. assert (L : length ls = iterations (history_of s)) by (refine (eq_trans _ A3); rewrite E; symmetry; exact (map_length _ _)).
      split; [exact L|]. intros l Hl. apply (In_nth _ _ []) in Hl as [t [Ht <-]]. rewrite L in Ht.
      destruct (A6 t Ht) as [[_ _ _ R4 _ _] _]. cbn [stored w_logl] in R4. rewrite E in R4.
      change (@nil X) with (map Fin []) in R4. rewrite map_nth in R4. now rewrite map_length in R4.
  Qed.
  Lemma betas_finite s : reachable s -> exists bs, h_beta (history_of s) = map Fin bs /\ forall b, In b bs -> 0 <= b <= 1.
  Proof.
    intros H. pose proof (exact_ladder W _ interrupts s H) as [[T1 _ _] _]. revert T1. generalize (h_beta (history_of s)).
    induction l as [|a l IH]; intros T1; [exists []; split; [reflexivity|easy]|]. destruct IH as [bs [-> Hb]]; [intros b Hb; apply T1; now right|].
    destruct (T1 a (or_introl eq_refl)) as [Q1 Q2]. destruct a as [r| | |]; try discriminate.
    exists (r :: bs). split; [reflexivity|]. intros b [<-|Q]; [|auto].
    change (Rleb 0 r = true) in Q1. change (Rleb r 1 = true) in Q2. apply Rleb_true in Q1, Q2. lra.
  Qed.

  Definition finite_logz s : Prop := (exists zs, h_logz (history_of s) = map Fin zs) /\ (iterations (history_of s) <> 0%nat -> c_n_active (s_cfg s) <> 0%nat).
  Lemma build s : reachable s -> finite_logz s -> iterations (history_of s) <> 0%nat ->
    exists ls bs zs, history (history_of s) ls bs zs /\ (forall b, In b bs -> 0 <= b <= 1) /\
      length ls = iterations (history_of s) /\ (forall l, In l ls -> length l = c_n_active (s_cfg s)).
  Proof.
    intros H [[zs Ez] HA] NE. destruct (logl_finite s H) as (ls & El & Ll & Ln). destruct (betas_finite s H) as (bs & Eb & Rb).
    pose proof (reachable_even W _ interrupts s H) as EV. unfold even, counts in EV. cbn [repeat] in EV. injection EV as _ _ _ _ _ _ _ Vz _ _ _ _ _ Vb.
    exists ls, bs, zs. split; [|auto]. unfold iterations in *. rewrite Ez, map_length in Vz. rewrite Eb, map_length in Vb.
    split; [exact El|]. split; [exact Eb|]. split; [exact Ez|]. split; [congruence|]. split; [intros ->; cbn in Vb; congruence|].
    destruct ls as [|l ls]; [cbn in Ll; congruence|]. specialize (Ln l (or_introl eq_refl)). destruct l; [|discriminate]. cbn in Ln. specialize (HA NE). congruence.
  Qed.

  Definition next_finite s : Prop := exists c z, s_current s = Some c /\ cu_logz c = Fin z /\ iterations (history_of s) <> 0%nat.
  Lemma reachable_finite s : reachable s -> finite_logz s.
  Proof.
    revert s. apply (reach_phases_from W _ interrupts finite_logz next_finite next_finite next_finite).
    - intros o s H _. unfold new_sampler in H. do 12 (apply bind_ok in H as [? [_ H]]). apply Ok_inj in H. subst s. split; [now exists []|]. intros Q. now cbn in Q.
    - intros n m s I. exact I.
    - intros R s s' _ I HR H. apply draw_facts in H as [[_ ->]|[En (ps & sc & Hps & Hf & ->)]]; exact I.
    - intros R i s s' _ [[zs Ez] I] _ _ Hi H.
      apply warmup_facts in H as (ps' & x0 & u0 & xi & ldj0 & logp0 & logl0 & b0 & x & u & ldj & logp & logl & b & c & Eps & _ & _ & _ & _ & _ & _ & -> & ->).
      unfold finite_logz, history_of, iterations in *. cbn [s_particles particles_update p_past s_cfg]. rewrite update_items. cbn [h_logz h_u cu_logz]. split.
      + exists (zs ++ [0]). rewrite map_app, Ez. reflexivity.
      + intros _ E. unfold n_batches in Hi. rewrite E in Hi. cbn in Hi. lia.
    - intros s I _. exact I.
    - intros fuel s s1 Hr I _ H. split.
      + apply reweight_facts in H as (c & beta & logz & ess & w0 & neff & w1 & idx & w2 & lf & u & x & ldj & logl & logp & b & cn & _ & _ & _ & _ & _ & _ & _ & _ & _ & _ & _ & _ & ->). exact I.
      + apply reweight_facts in H as (c & beta & logz & ess & w0 & neff & w1 & idx & w2 & lf & u & x & ldj & logl & logp & b & cn & _ & Hb & _ & _ & _ & _ & _ & _ & _ & _ & _ & -> & ->).
        assert (NE : iterations (history_of s) <> 0%nat).
        { pose proof Hb as Q. unfold next_beta in Q. apply bind_ok in Q as [b0 [Q _]]. apply get_last in Q as [rest Q].
          pose proof (reachable_even W _ interrupts s Hr) as EV. unfold even, counts in EV. cbn [repeat] in EV. injection EV as _ _ _ _ _ _ _ _ _ _ _ _ _ Vb.
          unfold iterations. rewrite <- Vb, Q, app_length. cbn. lia. }
        destruct (build s Hr I NE) as (ls & bs & zs & HH & _).
        destruct (next_beta_sound (history_of s) ls bs zs HH fuel _ (IZR (s_n_effective s)) beta logz ess Hb) as (_ & _ & _ & _ & _ & _ & (z' & -> & _) & _).
        exists {| cu_u := u; cu_x := x; cu_logl := logl; cu_logp := logp; cu_logdetj := ldj;
                 cu_logw := cu_logw c; cu_blobs := b; cu_iter := cu_iter c; cu_calls := cu_calls c;
                 cu_steps := cu_steps c; cu_efficiency := cu_efficiency c; cu_ess := ess; cu_accept := cu_accept c;
                 cu_beta := beta; cu_logz := Fin z'; cu_weights := Some w2 |}, z'. split; [reflexivity|]. split; [reflexivity|exact NE].
    - intros R s s2 _ I J _ H. apply train_facts in H as (c2 & now & fl & un & ug & tg & Ec & _ & _ & ->). split; [exact I|].
      destruct J as (c & z & E1 & J). rewrite E1 in Ec. injection Ec as <-. exists c, z. auto.
    - intros R s s3 _ I J _ _ H.
      apply resample_facts in H as (c3 & w3 & idx3 & u3 & x3 & ldj3 & logl3 & logp3 & b3 & Ec & _ & _ & _ & _ & _ & _ & _ & _ & ->).
      split; [exact I|]. destruct J as (c & z & E1 & J). rewrite E1 in Ec. injection Ec as <-. eexists. exists z. cbn [with_current s_current]. split; [reflexivity|]. exact J.
    - intros R s s4 _ I J _ _ H. apply mutate_facts in H as (c5 & b5 & ks & res & c' & Ec & _ & _ & _ & _ & -> & ->).
      split; [exact I|]. destruct J as (c & z & E1 & J). rewrite E1 in Ec. injection Ec as <-. eexists. exists z. cbn [s_current]. split; [reflexivity|]. exact J.
    - intros s c [[zs Ez] I] (c' & z & E1 & E2 & NE) _ Ec. rewrite E1 in Ec. injection Ec as <-.
      unfold finite_logz, history_of, iterations in *. cbn [with_particles s_particles particles_update p_past s_cfg]. rewrite update_items. cbn [h_logz h_u]. split; [|auto].
      exists (zs ++ [z]). rewrite map_app, Ez, E2. reflexivity.
    - intros R s s' _ I _ _ H. apply evidence_facts in H as (n & logz & err & calls & evals & hb & _ & -> & _). exact I.
    - intros s I. unfold results_of, finite_logz, history_of in *. unfold compute_results. destruct (p_results (s_particles s)); [exact I|].
      destruct (compute_logw_and_logz _ _ _) as [[? ?]|]; exact I.
    - intros saved self I _. exact I.
    - intros s p I _ _. exact I.
  Qed.
  Theorem exact_past s : reachable s -> iterations (history_of s) <> 0%nat ->
    exists ls bs zs, history (history_of s) ls bs zs /\ (forall b, In b bs -> 0 <= b <= 1) /\
      length ls = iterations (history_of s) /\ (forall l, In l ls -> length l = c_n_active (s_cfg s)).
  Proof. intros H. apply build; [exact H|now apply reachable_finite]. Qed.
End Finite.

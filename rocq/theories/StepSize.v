(** * The step size from one iteration to the next: proofs for C94 *)
From Coq Require Import ZArith Reals Lra List Bool Lia PeanoNat.
From Verif Require Import Num XReal PyBase PyBaseFacts Scaler Particles Mcmc Sampler ConfigFacts SpecReach SamplerFacts Reach SpecExact SpecChain ChainLaws SpecIterate IterateFacts.
Import ListNotations.
Set Bullet Behavior "Strict Subproofs".

Section Step.
  Context {T C P Opt : Type} {NT : NumT T}.
  Variable W : world T C P Opt.
  Variable fair : rand T C P -> Prop.
  Variable interrupts : bool.
  Implicit Types s : sampler T C P.

  Definition first_size s : T := initial_scale (c_n_dim (s_cfg s)).
  Definition sized_by s : Prop :=
    (exists k, h_efficiency (history_of s) = repeat (nofZ 1) k /\ s_scale s = first_size s) \/
    (s_warmup s = false /\ exists es, h_efficiency (history_of s) = es ++ [ndiv (s_scale s) (first_size s)]).
  Lemma same_size s s' : s_cfg s' = s_cfg s -> s_scale s' = s_scale s -> s_particles s' = s_particles s -> (s_warmup s = false -> s_warmup s' = false) -> sized_by s -> sized_by s'.
  Proof. unfold sized_by, first_size, history_of. intros -> -> -> H [K|[A B]]; [now left|right]. auto. Qed.
  Lemma step_size_recorded s : reachable W fair interrupts s -> sized_by s.
  Proof.
    intros H. induction H as [o s H Hp|n m s _ IH|R s s' Hr IH HR H|R i s s' Hr IH HR Hw Hi H|s _ IH Hw|fuel R s s' Hr IH HR Hw Hnt H
      |R s s' Hr IH HR Hw H|s _ IH|saved self _ IH1 _ IH2|fuel s s1 Hr IH Hw Hnt H|fuel R s s1 s2 Hr IH HR Hw Hnt H H2|fuel R s s1 s2 s3 Hr IH HR Hw Hnt H H2 H3|fuel s s1 c p _ Hr IH Hw Hnt H Hc Ht].
    - unfold new_sampler in H. do 12 (apply bind_ok in H as [? [_ H]]). apply Ok_inj in H. subst s. left. exists 0%nat. split; reflexivity.
    - revert IH. now apply same_size.
    - apply draw_facts in H as [[_ ->]|[_ (ps & sc & _ & _ & ->)]]; [exact IH|]. revert IH. now apply same_size.
    - apply warmup_facts in H as (ps & x0 & u0 & xi & ldj0 & logp0 & logl0 & b0 & x & u & ldj & logp & logl & b & c & _ & _ & _ & _ & _ & _ & _ & -> & ->).
      destruct IH as [(k & E1 & E2)|[A _]]; [|congruence]. left. exists (S k). split; [|exact E2].
      unfold history_of in *. cbn [s_particles particles_update p_past]. rewrite update_items. cbn [h_efficiency cu_efficiency]. rewrite E1. clear.
      induction k as [|k IH]; [reflexivity|]. cbn [repeat app]. now rewrite IH.
    - revert IH. now apply same_size.
    - apply iteration_frame in H as F. destruct F as (_ & Fw & _). apply iteration_facts in H as (s1 & s2 & s3 & s4 & c4 & H1 & H2 & H3 & H4 & Hc & ->).
      apply mutate_facts in H4 as (c5 & b5 & ks & res & c' & _ & _ & _ & _ & _ & Ec' & ->). cbn [s_current] in Hc. injection Hc as ->.
      right. split; [congruence|]. eexists. unfold history_of, first_size. cbn [with_particles s_particles particles_update p_past s_scale s_cfg].
      rewrite update_items. cbn [h_efficiency]. subst c4. cbn [cu_efficiency]. reflexivity.
    - apply evidence_facts in H as (? & ? & ? & ? & ? & ? & _ & -> & _). revert IH. now apply same_size.
    - unfold results_of. destruct (compute_results (s_particles s)) as [r ps] eqn:E. revert IH.
      assert (Q : p_past ps = p_past (s_particles s)). { unfold compute_results in E. destruct (p_results (s_particles s)); [injection E as _ <-; reflexivity|]. destruct (compute_logw_and_logz _ _ _) as [[lw z]|e]; injection E as _ <-; reflexivity. }
      unfold sized_by, first_size, history_of. cbn [snd with_particles s_cfg s_scale s_particles s_warmup]. now rewrite Q.
    - revert IH1. now apply same_size.
    - apply reweight_facts in H as (c & beta & logz & ess & w0 & neff & w1 & idx & w2 & lf & u & x & ldj & logl & logp & b & c1 & _ & _ & _ & _ & _ & _ & _ & _ & _ & _ & _ & _ & ->). revert IH. now apply same_size.
    - apply reweight_facts in H as (c & beta & logz & ess & w0 & neff & w1 & idx & w2 & lf & u & x & ldj & logl & logp & b & c1 & _ & _ & _ & _ & _ & _ & _ & _ & _ & _ & _ & _ & ->).
      apply train_facts in H2 as (c2 & now & fl & un & ug & tg & _ & _ & _ & ->). revert IH. now apply same_size.
    - apply reweight_facts in H as (c & beta & logz & ess & w0 & neff & w1 & idx & w2 & lf & u & x & ldj & logl & logp & b & c1 & _ & _ & _ & _ & _ & _ & _ & _ & _ & _ & _ & _ & ->).
      apply train_facts in H2 as (c2 & now & fl & un & ug & tg & _ & _ & _ & ->).
      apply resample_facts in H3 as (c3 & w3 & idx3 & u3 & x3 & ldj3 & logl3 & logp3 & b3 & _ & _ & _ & _ & _ & _ & _ & _ & _ & ->). revert IH. now apply same_size.
    - apply reweight_facts in H as (c0 & beta & logz & ess & w0 & neff & w1 & idx & w2 & lf & u & x & ldj & logl & logp & b & c1 & _ & _ & _ & _ & _ & _ & _ & _ & _ & _ & _ & _ & ->). revert IH. now apply same_size.
  Qed.
End Step.

Local Open Scope R_scope.
Lemma exact_step_size {C P Opt} (W : world X C P Opt) lp ll bl rows interrupts (s : sampler X C P) :
  exact_model W lp ll bl rows -> reachable W (exact_draws rows) interrupts s -> exact_sampler rows s ->
  exists p, s_scale s = Fin p /\ let best := optimal_scale (length rows) in
    (h_efficiency (history_of s) = [] /\ p = best \/ exists es, h_efficiency (history_of s) = es ++ [Fin (p / best)]).
Proof.
  intros EM H ES. pose proof (em_dim _ _ _ _ _ EM) as HD. pose proof (es_dim _ _ ES) as D1.
  assert (Hd : (0 < c_n_dim (s_cfg s))%nat) by lia.
  destruct (reachable_scaled W lp ll bl rows EM interrupts s H Hd) as (p & Ep & _). exists p. split; [exact Ep|]. cbv zeta.
  pose proof (optimal_scale_pos (length rows) HD) as OP.
  assert (FS : first_size s = Fin (optimal_scale (length rows))) by (unfold first_size; rewrite D1; now apply initial_scale_fin).
  destruct (step_size_recorded W _ _ s H) as [(k & E1 & E2)|(_ & es & E1)].
  - rewrite Ep, FS in E2. injection E2 as E2. destruct k as [|k]; [left; auto|right]. exists (repeat (nofZ 1) k). rewrite E1, E2. unfold Rdiv. rewrite Rinv_r by lra. clear.
    induction k as [|k IH]; [reflexivity|]. cbn [repeat app] in *. now rewrite <- IH.
  - right. exists es. rewrite E1, Ep, FS. do 2 f_equal. apply xdiv_fin. lra.
Qed.
Lemma next_step_size {C P Opt} (W : world X C P Opt) lp ll bl rows interrupts rnd (s s' : sampler X C P) beta p us c final :
  exact_model W lp ll bl rows -> reachable W (exact_draws rows) interrupts s -> exact_sampler rows s -> moved rnd s s' beta p us c final ->
  let best := optimal_scale (length rows) in
  h_efficiency (history_of s) = [] /\ p = best \/ exists es, h_efficiency (history_of s) = es ++ [Fin (p / best)].
Proof.
  intros EM H ES M. destruct (exact_step_size W lp ll bl rows interrupts s EM H ES) as (q & E & K). rewrite (mv_scale _ _ _ _ _ _ _ _ M) in E. injection E as <-. exact K.
Qed.

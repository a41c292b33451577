(** * The pool of a sampler does not matter *)
From Coq Require Import ZArith List Bool Lia FunctionalExtensionality.
From Verif Require Import Num PyBase PyBaseFacts Tools Scaler Particles LogLike Geometry GeometryFacts Mcmc SpecMcmc McmcFacts Flow Sampler
  ConfigFacts SpecReach SamplerFacts Reach RowFacts ParticleInv SpecTrace.
Import ListNotations.
Set Bullet Behavior "Strict Subproofs".

Section Pool.
  Context {T C P Opt : Type} {NT : NumT T}.
  Variable W : world T C P Opt.
  Variable p : option (mapfn T C).
  Hypothesis HP : maps p.
  Implicit Types s : sampler T C P.
  Notation re := (fun s => with_pool s p).

  Lemma like_pool s xs : maps (s_pool s) -> sampler_like W (with_pool s p) xs = sampler_like W s xs.
  Proof.
    intros HM. unfold sampler_like, log_like. cbn [with_pool s_cfg s_pool]. destruct (c_vectorize (s_cfg s)); [reflexivity|].
    destruct p as [m|], (s_pool s) as [m'|]; cbn [maps] in *; rewrite ?HP, ?HM; reflexivity.
  Qed.
  Ltac fields := cbn [with_pool s_cfg s_pool s_n_effective s_have_blobs s_n_total s_n_evidence s_particles s_t s_u_geometry s_theta_geometry s_flow
    s_untrained s_scaler s_prior_samples s_logz s_logz_err s_current s_warmup s_calls s_scale s_evals s_evidence_evals].
  Ltac next := match goal with |- context [bind ?m _] => destruct m; cbn [bind rmap]; [|reflexivity] end.
  Lemma reweight_pool fuel s : reweight fuel (with_pool s p) = rmap re (reweight fuel s).
  Proof. unfold reweight. fields. repeat (next; repeat match goal with |- context [let (_, _) := ?x in _] => destruct x end). reflexivity. Qed.
  Lemma train_pool R s : train W R (with_pool s p) = rmap re (train W R s).
  Proof.
    unfold train, trains. fields. next. destruct (if c_preconditioned (s_cfg s) then _ else _) as [now|]; cbn [bind rmap]; [|reflexivity].
    destruct now; repeat (next; repeat match goal with |- context [let (_, _) := ?x in _] => destruct x end); reflexivity.
  Qed.
  Lemma resample_pool R s : resample R (with_pool s p) = rmap re (resample R s).
  Proof. unfold resample, resample_indices. fields. repeat next. reflexivity. Qed.
  Lemma env_pool s : maps (s_pool s) -> kernel_env_of W (with_pool s p) = kernel_env_of W s.
  Proof. intros HM. unfold kernel_env_of. fields. f_equal. apply functional_extensionality. intros xs. now apply like_pool. Qed.
  Lemma mutate_pool R s : maps (s_pool s) -> mutate W R (with_pool s p) = rmap re (mutate W R s).
  Proof. intros HM. unfold mutate. rewrite (env_pool s HM). fields. repeat next. reflexivity. Qed.
  Lemma iteration_pool fuel R s : maps (s_pool s) -> iteration W fuel R (with_pool s p) = rmap re (iteration W fuel R s).
  Proof.
    intros HM. unfold iteration. rewrite reweight_pool. destruct (reweight fuel s) as [s1|] eqn:E1; [|reflexivity]. cbn [bind rmap].
    rewrite train_pool. destruct (train W R s1) as [s2|] eqn:E2; [|reflexivity]. cbn [bind rmap].
    rewrite resample_pool. destruct (resample R s2) as [s3|] eqn:E3; [|reflexivity]. cbn [bind rmap].
    rewrite mutate_pool; [destruct (mutate W R s3) as [s4|]; [|reflexivity]; cbn [bind rmap]; fields; destruct (s_current s4); reflexivity|].
    apply resample_facts in E3 as (c3 & w3 & idx3 & u3 & x3 & ldj3 & logl3 & logp3 & b3 & _ & _ & _ & _ & _ & _ & _ & _ & _ & ->).
    apply train_facts in E2 as (c2 & now & fl & un & ug & tg & _ & _ & _ & ->).
    apply reweight_facts in E1 as (c & beta & logz & ess & w0 & neff & w1 & idx & w2 & lf & u & x & ldj & logl & logp & b & c1 & _ & _ & _ & _ & _ & _ & _ & _ & _ & _ & _ & _ & ->).
    exact HM.
  Qed.
  Lemma iteration_keeps fuel R s s' : iteration W fuel R s = Ok s' -> s_pool s' = s_pool s.
  Proof.
    intros H. apply iteration_facts in H as (s1 & s2 & s3 & s4 & c4 & E1 & E2 & E3 & E4 & _ & ->).
    apply reweight_facts in E1 as (c & beta & logz & ess & w0 & neff & w1 & idx & w2 & lf & u & x & ldj & logl & logp & b & c1 & _ & _ & _ & _ & _ & _ & _ & _ & _ & _ & _ & _ & ->).
    apply train_facts in E2 as (c2 & now & fl & un & ug & tg & _ & _ & _ & ->).
    apply resample_facts in E3 as (c3 & w3 & idx3 & u3 & x3 & ldj3 & logl3 & logp3 & b3 & _ & _ & _ & _ & _ & _ & _ & _ & _ & ->).
    apply mutate_facts in E4 as (c5 & b5 & ks & res & c' & _ & _ & _ & _ & _ & _ & ->). reflexivity.
  Qed.
  Lemma batch_pool R i s : maps (s_pool s) -> warmup_batch W R i (with_pool s p) = rmap re (warmup_batch W R i s).
  Proof.
    intros HM. unfold warmup_batch. fields. next. next. next. repeat match goal with |- context [let (_, _) := ?x in _] => destruct x end. next.
    rewrite like_pool by exact HM. next. repeat match goal with |- context [let (_, _) := ?x in _] => destruct x end.
    unfold after_like. fields. match goal with |- bind ?m _ = _ => destruct m as [[[[[[? ?] ?] ?] ?] ?]|] end; reflexivity.
  Qed.
  Lemma batch_keeps R i s s' : warmup_batch W R i s = Ok s' -> s_pool s' = s_pool s.
  Proof.
    intros E. apply warmup_facts in E as (ps & x0 & u0 & xi & ldj0 & logp0 & logl0 & b0 & x & u & ldj & logp & logl & b & c & _ & _ & _ & _ & _ & _ & _ & _ & ->). reflexivity.
  Qed.
  Lemma evidence_pool R s : maps (s_pool s) -> final_evidence W R (with_pool s p) = rmap re (final_evidence W R s).
  Proof.
    intros HM. unfold final_evidence, compute_evidence. fields. destruct (of_option TypeError (s_n_evidence s)) as [n|]; cbn [bind rmap]; [|reflexivity].
    destruct ((0 <? n)%Z && c_preconditioned (s_cfg s)).
    - destruct (rn_flow R (s_flow s) (Z.to_nat n)) as [theta logq]. next. repeat match goal with |- context [let (_, _) := ?x in _] => destruct x end. next. rewrite like_pool by exact HM. next. repeat match goal with |- context [let (_, _) := ?x in _] => destruct x end. reflexivity.
    - next. repeat match goal with |- context [let (_, _) := ?x in _] => destruct x end. reflexivity.
  Qed.
  Lemma termination_pool s : not_termination (with_pool s p) = not_termination s.
  Proof. reflexivity. Qed.
  Lemma draw_pool R s : draw_prior W R (with_pool s p) = rmap re (draw_prior W R s).
  Proof. unfold draw_prior. fields. destruct (s_prior_samples s); [reflexivity|]. repeat next. reflexivity. Qed.

  (** ** Runs *)
  Lemma tbind_map (f : sampler T C P -> sampler T C P) m m' k k' : m' = tmap f m -> (forall s, snd m = Ok s -> k' (f s) = tmap f (k s)) -> tbind m' k' = tmap f (tbind m k).
  Proof.
    intros -> Hk. destruct m as [evs [s|e]]; unfold tmap, tbind; cbn [fst snd rmap]; [|reflexivity]. rewrite (Hk s eq_refl). unfold tmap.
    destruct (k s) as [evs' r]. cbn [fst snd]. now rewrite map_app.
  Qed.
  Lemma checkpoint_pool save t0 s : checkpoint save t0 (with_pool s p) = tmap re (checkpoint save t0 s).
  Proof. unfold checkpoint. fields. destruct save as [k|]; [|reflexivity]. destruct (k =? 0)%Z; [reflexivity|]. destruct (_ && _); reflexivity. Qed.
  Lemma checkpoint_ok save t0 s s' : snd (checkpoint save t0 s) = Ok s' -> s' = s.
  Proof. unfold checkpoint. destruct save as [k|]; [|cbn; congruence]. destruct (k =? 0)%Z; [discriminate|]. destruct (_ && _); cbn; congruence. Qed.
  Lemma tbind_some (m : traced T C P) f s' : snd (tbind m f) = Ok s' -> exists s, snd m = Ok s /\ snd (f s) = Ok s'.
  Proof. unfold tbind. destruct m as [evs [s|e]]; [|discriminate]. destruct (f s) as [evs' r] eqn:E. cbn [snd]. intros ->. exists s. rewrite E. auto. Qed.
  Lemma loop_pool fuel bfuel save t0 R s : maps (s_pool s) -> smc_loop W fuel bfuel save t0 R (with_pool s p) = tmap re (smc_loop W fuel bfuel save t0 R s).
  Proof.
    revert s. induction fuel as [|fuel IH]; intros s HM; cbn [smc_loop]; rewrite termination_pool; (destruct (not_termination s) as [[|]|]; [|reflexivity|reflexivity]); [reflexivity|].
    apply tbind_map; [apply checkpoint_pool|]. intros s1 H1. apply checkpoint_ok in H1. subst s1.
    apply tbind_map; [unfold lift, tmap; cbn [fst snd map]; now rewrite iteration_pool|]. intros s1 H1. cbn [lift snd] in H1. apply IH. now rewrite (iteration_keeps _ _ _ _ H1).
  Qed.
  Lemma loop_keeps fuel bfuel save t0 R s s' : snd (smc_loop W fuel bfuel save t0 R s) = Ok s' -> s_pool s' = s_pool s.
  Proof.
    revert s. induction fuel as [|fuel IH]; intros s; cbn [smc_loop]; (destruct (not_termination s) as [[|]|]; [|cbn; congruence|discriminate]); [discriminate|].
    intros H. apply tbind_some in H as (s1 & H1 & H). apply checkpoint_ok in H1. subst s1. apply tbind_some in H as (s1 & H1 & H). cbn [lift snd] in H1.
    rewrite (IH _ H). exact (iteration_keeps _ _ _ _ H1).
  Qed.
  Lemma warm_loop_pool save t0 R k : forall i s, maps (s_pool s) -> warmup_loop W save t0 R i k (with_pool s p) = tmap re (warmup_loop W save t0 R i k s).
  Proof.
    induction k as [|k IH]; intros i s HM; cbn [warmup_loop]; [reflexivity|].
    apply tbind_map; [apply checkpoint_pool|]. intros s1 H1. apply checkpoint_ok in H1. subst s1.
    apply tbind_map; [unfold lift, tmap; cbn [fst snd map]; now rewrite batch_pool|]. intros s1 H1. cbn [lift snd] in H1. apply IH. now rewrite (batch_keeps _ _ _ _ H1).
  Qed.
  Lemma warm_loop_keeps save t0 R k : forall i s s', snd (warmup_loop W save t0 R i k s) = Ok s' -> s_pool s' = s_pool s.
  Proof.
    induction k as [|k IH]; intros i s s'; cbn [warmup_loop]; [cbn; congruence|].
    intros H. apply tbind_some in H as (s1 & H1 & H). apply checkpoint_ok in H1. subst s1. apply tbind_some in H as (s1 & H1 & H). cbn [lift snd] in H1.
    rewrite (IH _ _ _ H). exact (batch_keeps _ _ _ _ H1).
  Qed.
  Lemma warmup_pool save t0 R s : maps (s_pool s) -> warmup W save t0 R (with_pool s p) = tmap re (warmup W save t0 R s).
  Proof.
    intros HM. unfold warmup. fields. destruct (s_warmup s); [|reflexivity]. destruct (Nat.eqb _ _); [reflexivity|].
    apply tbind_map; [now apply warm_loop_pool|reflexivity].
  Qed.
  Lemma warmup_keeps save t0 R s s' : snd (warmup W save t0 R s) = Ok s' -> s_pool s' = s_pool s.
  Proof.
    unfold warmup. destruct (s_warmup s); [|cbn; congruence]. destruct (Nat.eqb _ _); [discriminate|]. intros H. apply tbind_some in H as (s1 & H1 & H).
    cbn in H. injection H as <-. exact (warm_loop_keeps _ _ _ _ _ _ _ H1).
  Qed.
  Theorem run_pool a R s : maps (s_pool s) -> run W a R (with_pool s p) = tmap re (run W a R s).
  Proof.
    intros HM. unfold run, run_from. change (s_t (with_pool s p)) with (s_t s). change (set_targets (ra_n_total a) (ra_n_evidence a) (with_pool s p)) with (with_pool (set_targets (ra_n_total a) (ra_n_evidence a) s) p).
    apply tbind_map; [unfold lift, tmap; cbn [fst snd map]; now rewrite draw_pool|]. intros s1 H1. cbn [lift snd] in H1.
    assert (M1 : maps (s_pool s1)) by (apply draw_facts in H1 as [[_ ->]|[_ (ps & sc & _ & _ & ->)]]; exact HM).
    apply tbind_map; [now apply warmup_pool|]. intros s2 H2. assert (M2 : maps (s_pool s2)) by now rewrite (warmup_keeps _ _ _ _ _ H2).
    apply tbind_map; [now apply loop_pool|]. intros s3 H3. assert (M3 : maps (s_pool s3)) by now rewrite (loop_keeps _ _ _ _ _ _ _ H3).
    apply tbind_map; [unfold lift, tmap; cbn [fst snd map]; now rewrite evidence_pool|]. intros s4 H4. destruct (ra_save_every a); reflexivity.
  Qed.
End Pool.

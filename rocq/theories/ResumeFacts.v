(** * Resuming a run from one of its checkpoints *)
From Coq Require Import ZArith List Bool Lia.
From Verif Require Import Num PyBase PyBaseFacts Tools Scaler Particles ParticlesFacts LogLike Geometry GeometryFacts Mcmc SpecMcmc McmcFacts Flow Sampler
  ConfigFacts SpecReach SamplerFacts Reach RowFacts ParticleInv HistoryFacts SpecTrace PoolSwap LoopFacts TraceFacts.
Import ListNotations.
Set Bullet Behavior "Strict Subproofs".

Section Resume.
  Context {T C P Opt : Type} {NT : NumT T}.
  Variable W : world T C P Opt.
  Implicit Types s : sampler T C P.

  Lemma snd_tbind (m : traced T C P) f : snd (tbind m f) = let! s := snd m in snd (f s).
  Proof. destruct m as [evs [s|e]]; [|reflexivity]. unfold tbind. cbn [snd bind]. destruct (f s). reflexivity. Qed.
  Lemma in_tbind (m : traced T C P) f e : In e (fst (tbind m f)) -> In e (fst m) \/ exists s, snd m = Ok s /\ In e (fst (f s)).
  Proof.
    destruct m as [evs [s|x]]; unfold tbind; cbn [fst snd]; [|auto]. destruct (f s) as [evs' r] eqn:E. cbn [fst]. intros H. apply in_app_iff in H as [H|H]; [auto|].
    right. exists s. rewrite E. auto.
  Qed.
  (** the values shown at the start of a resumed run are there *)
  Definition recorded_once s : Prop := forall k, In k [Kbeta; Kcalls; Kess; Klogz; Klogp; Klogl; Kaccept; Ksteps; Kefficiency] -> exists v, get_index (history_of s) k (-1) = Ok v.
  Lemma update_recorded (p : past T (list C)) c k : In k [Kbeta; Kcalls; Kess; Klogz; Klogp; Klogl; Kaccept; Ksteps; Kefficiency] ->
    exists v, get_index (update p (items c)) k (-1) = Ok v.
  Proof.
    rewrite update_items. cbn [In]. intros H. repeat (destruct H as [<-|H]; [eexists; eapply get_index_spec; reflexivity|]). destruct H.
  Qed.

  Section Fixed.
    Variables (n_total n_evidence : Z) (pool : option (mapfn T C)) (t0 : Z).
    Record on_course s : Prop := {
      oc_prior : s_prior_samples s <> None;
      oc_total : s_n_total s = Some n_total;
      oc_evidence : s_n_evidence s = Some n_evidence;
      oc_pool : s_pool s = pool;
      oc_recorded : s_t s = t0 \/ recorded_once s }.
    Lemma iteration_course fuel R s s' : iteration W fuel R s = Ok s' -> on_course s -> on_course s'.
    Proof.
      intros H [C1 C2 C3 C4 C5]. pose proof H as H'. apply iteration_count in H' as (_ & _ & E & _). pose proof (iteration_keeps W _ _ _ _ H) as E'.
      apply iteration_facts in H as (s1 & s2 & s3 & s4 & c4 & E1 & E2 & E3 & E4 & Ec & ->).
      apply reweight_facts in E1 as (c & beta & logz & ess & w0 & neff & w1 & idx & w2 & lf & u & x & ldj & logl & logp & b & c1 & _ & _ & _ & _ & _ & _ & _ & _ & _ & _ & _ & _ & ->).
      apply train_facts in E2 as (c2 & now & fl & un & ug & tg & _ & _ & _ & ->).
      apply resample_facts in E3 as (c3 & w3 & idx3 & u3 & x3 & ldj3 & logl3 & logp3 & b3 & _ & _ & _ & _ & _ & _ & _ & _ & _ & ->).
      apply mutate_facts in E4 as (c5 & b5 & ks & res & c' & _ & _ & _ & _ & _ & _ & ->).
      constructor; [now rewrite E|exact C2|exact C3|now rewrite E'|]. right. intros k Hk. unfold history_of. cbn [with_particles s_particles particles_update p_past].
      now apply update_recorded.
    Qed.
    Lemma batch_course R i s s' : warmup_batch W R i s = Ok s' -> on_course s -> on_course s'.
    Proof.
      intros H [C1 C2 C3 C4 C5]. pose proof H as H'. apply batch_count in H' as (_ & _ & E & _). pose proof (batch_keeps W _ _ _ _ H) as E'.
      apply warmup_facts in H as (ps & x0 & u0 & xi & ldj0 & logp0 & logl0 & b0 & x & u & ldj & logp & logl & b & c & _ & _ & _ & _ & _ & _ & _ & -> & ->).
      constructor; [discriminate|exact C2|exact C3|exact C4|]. right. intros k Hk. unfold history_of. cbn [s_particles particles_update p_past]. now apply update_recorded.
    Qed.
    Lemma end_course s : on_course s -> on_course (end_warmup s).
    Proof. intros [C1 C2 C3 C4 C5]. constructor; assumption. Qed.

    Definition proper (save : option Z) : Prop := save <> Some 0%Z.
    Lemma checkpoint_snd save s t : proper save -> snd (checkpoint save t s) = Ok s.
    Proof. intros H. unfold checkpoint. destruct save as [k|]; [|reflexivity]. destruct (Z.eqb_spec k 0); [subst; now elim H|]. now destruct (_ && _). Qed.
    Lemma checkpoint_in save s t e : In e (fst (checkpoint save t s)) -> e = saved_at s /\ s_t s <> t.
    Proof.
      unfold checkpoint. destruct save as [k|]; [|easy]. destruct (k =? 0)%Z; [easy|]. destruct (_ && _) eqn:Eb; [|easy]. apply andb_true_iff in Eb as [_ Eb].
      apply negb_true_iff, Z.eqb_neq in Eb. intros [<-|[]]. auto.
    Qed.

    (** the result of the loop, without its checkpoints *)
    Fixpoint loop_result (bfuel : nat) (R : rand T C P) (fuel : nat) s : res (sampler T C P) :=
      match not_termination s with
      | Err e => Err e
      | Ok false => Ok s
      | Ok true => match fuel with O => Err Diverge | S f => let! s := iteration W bfuel R s in loop_result bfuel R f s end
      end.
    Lemma loop_snd bfuel R save t : proper save -> forall fuel s, snd (smc_loop W fuel bfuel save t R s) = loop_result bfuel R fuel s.
    Proof.
      intros Hs. induction fuel as [|fuel IH]; intros s; cbn [smc_loop loop_result]; (destruct (not_termination s) as [[|]|]; [|reflexivity|reflexivity]); [reflexivity|].
      rewrite snd_tbind, checkpoint_snd by exact Hs. cbn [bind]. rewrite snd_tbind. cbn [lift snd]. destruct (iteration W bfuel R s); [|reflexivity]. apply IH.
    Qed.
    Lemma loop_more bfuel R : forall fuel fuel' s, (fuel <= fuel')%nat -> loop_result bfuel R fuel s <> Err Diverge -> loop_result bfuel R fuel' s = loop_result bfuel R fuel s.
    Proof.
      induction fuel as [|fuel IH]; intros [|fuel'] s Hf; cbn [loop_result]; try lia; (destruct (not_termination s) as [[|]|]; [|reflexivity|reflexivity]).
      - reflexivity.
      - now intros [].
      - destruct (iteration W bfuel R s) as [s'|]; [|reflexivity]. cbn [bind]. apply IH. lia.
    Qed.
    Lemma loop_in bfuel R save : proper save -> forall fuel s e, on_course s -> s_warmup s = false -> In e (fst (smc_loop W fuel bfuel save t0 R s)) ->
      exists fuel', (fuel' <= fuel)%nat /\ loop_result bfuel R fuel s = loop_result bfuel R fuel' (ev_state e) /\
        on_course (ev_state e) /\ s_warmup (ev_state e) = false /\ s_t (ev_state e) <> t0.
    Proof.
      intros Hs. induction fuel as [|fuel IH]; intros s e Hc Hw; cbn [smc_loop]; (destruct (not_termination s) as [[|]|] eqn:Et; [|easy|easy]); [easy|].
      intros H. apply in_tbind in H as [H|(s1 & H1 & H)].
      - apply checkpoint_in in H as [-> H]. exists (S fuel). cbn [saved_at ev_state]. auto 10.
      - rewrite checkpoint_snd in H1 by exact Hs. injection H1 as <-. apply in_tbind in H as [[]|(s1 & H1 & H)]. cbn [lift snd] in H1.
        destruct (IH s1 e) as (f & F1 & F2 & F3); [exact (iteration_course _ _ _ _ H1 Hc)|apply iteration_count in H1 as (_ & -> & _); exact Hw|exact H|].
        exists f. split; [lia|]. split; [|exact F3]. cbn [loop_result]. rewrite Et, H1. exact F2.
    Qed.
    Lemma warm_in R save : proper save -> forall k i s e, on_course s -> s_warmup s = true -> In e (fst (warmup_loop W save t0 R i k s)) -> s_warmup (ev_state e) = true.
    Proof.
      intros Hs. induction k as [|k IH]; intros i s e Hc Hw; cbn [warmup_loop]; [easy|]. intros H. apply in_tbind in H as [H|(s1 & H1 & H)].
      - apply checkpoint_in in H as [-> _]. exact Hw.
      - rewrite checkpoint_snd in H1 by exact Hs. injection H1 as <-. apply in_tbind in H as [[]|(s1 & H1 & H)]. cbn [lift snd] in H1.
        apply (IH (S i) s1); [exact (batch_course _ _ _ _ H1 Hc)|apply batch_count in H1 as (_ & -> & _); exact Hw|exact H].
    Qed.
    Lemma warm_course R save : proper save -> forall k i s s', on_course s -> snd (warmup_loop W save t0 R i k s) = Ok s' -> on_course s'.
    Proof.
      intros Hs. induction k as [|k IH]; intros i s s' Hc; cbn [warmup_loop]; [intros H; injection H as <-; exact Hc|]. rewrite snd_tbind, checkpoint_snd by exact Hs.
      cbn [bind]. rewrite snd_tbind. cbn [lift snd]. destruct (warmup_batch W R i s) as [s1|] eqn:E; [|discriminate]. cbn [bind]. apply IH. exact (batch_course _ _ _ _ E Hc).
    Qed.
  End Fixed.

  Lemma resumed_run a R saved self : recorded_once saved -> run_resumed W a R saved self = run W a R (load saved self).
  Proof.
    intros H. unfold run_resumed. change (p_past (s_particles (load saved self))) with (history_of saved).
    pose proof (H Kbeta ltac:(cbn; tauto)) as [? ->]. pose proof (H Kcalls ltac:(cbn; tauto)) as [? ->]. pose proof (H Kess ltac:(cbn; tauto)) as [? ->].
    pose proof (H Klogz ltac:(cbn; tauto)) as [? ->]. pose proof (H Klogp ltac:(cbn; tauto)) as [? ->]. pose proof (H Klogl ltac:(cbn; tauto)) as [? ->].
    pose proof (H Kaccept ltac:(cbn; tauto)) as [? ->]. pose proof (H Ksteps ltac:(cbn; tauto)) as [? ->]. pose proof (H Kefficiency ltac:(cbn; tauto)) as [? ->].
    cbn [bind lift tbind]. unfold run. destruct (run_from W a R (load saved self)). reflexivity.
  Qed.
  Lemma resumed_empty a R saved self : h_beta (history_of saved) = [] -> run_resumed W a R saved self = ([], Err IndexError).
  Proof.
    intros H. unfold run_resumed. change (p_past (s_particles (load saved self))) with (history_of saved).
    rewrite (get_index_empty (history_of saved) Kbeta (-1) H). reflexivity.
  Qed.
  Lemma set_targets_same n e s : s_n_total s = Some n -> s_n_evidence s = Some e -> set_targets n e s = s.
  Proof. intros H1 H2. destruct s. cbn in H1, H2. subst. reflexivity. Qed.
  Lemma draw_same R s : s_prior_samples s <> None -> draw_prior W R s = Ok s.
  Proof. unfold draw_prior. destruct (s_prior_samples s); easy. Qed.

  Theorem run_resumes a a' R s evs r e self : run W a R s = (evs, r) -> maps (s_pool s) -> maps (s_pool self) ->
    In e evs -> ev_file e <> Final -> s_warmup (ev_state e) = false ->
    ra_n_total a' = ra_n_total a -> ra_n_evidence a' = ra_n_evidence a -> ra_bfuel a' = ra_bfuel a -> (ra_fuel a <= ra_fuel a')%nat -> ra_save_every a' <> Some 0%Z ->
    r <> Err Diverge ->
    snd (run_resumed W a' R (ev_state e) self) = rmap (fun s => with_pool s (s_pool (load (ev_state e) self))) r.
  Proof.
    intros H HM HM' He Hf Hw A1 A2 A3 A4 A5 Hr.
    assert (HP : proper (ra_save_every a)).
    { unfold proper. intros E. unfold run, run_from in H. rewrite E in H. destruct (lift (draw_prior W R _)) as [e0 [s0|]] eqn:E0; unfold lift in E0; injection E0 as <- E0; [|injection H as <- _; destruct He].
      unfold tbind at 1 in H. assert (Q : fst (warmup W (Some 0%Z) (s_t s) R s0) = []).
      { unfold warmup. destruct (s_warmup s0); [|reflexivity]. destruct (Nat.eqb _ _); [reflexivity|]. destruct (n_batches (s_cfg s0)); reflexivity. }
      destruct (warmup W (Some 0%Z) (s_t s) R s0) as [ew [s1|]]; cbn [fst] in Q; subst ew; [|injection H as <- _; destruct He].
      unfold tbind at 1 in H. assert (Q : fst (smc_loop W (ra_fuel a) (ra_bfuel a) (Some 0%Z) (s_t s) R s1) = []) by (destruct (ra_fuel a); cbn [smc_loop]; destruct (not_termination s1) as [[|]|]; reflexivity).
      destruct (smc_loop W _ _ (Some 0%Z) _ R s1) as [el [s2|]]; cbn [fst] in Q; subst el; [|injection H as <- _; destruct He].
      unfold lift, tbind in H. destruct (final_evidence W R s2); injection H as <- _; [|destruct He]. destruct He as [<-|[]]. now apply Hf. }
    unfold run, run_from in H. set (t0 := s_t s) in *.
    destruct (draw_prior W R _) as [s0|] eqn:E0; [|unfold lift, tbind in H; injection H as <- _; destruct He]. unfold lift at 1 in H. unfold tbind at 1 in H.
    assert (C0 : on_course (ra_n_total a) (ra_n_evidence a) (s_pool s) t0 s0).
    { apply draw_facts in E0 as [[N ->]|[_ (ps & sc & _ & _ & ->)]]; (constructor; [try exact N; discriminate|reflexivity|reflexivity|reflexivity|left; reflexivity]). }
    set (WU := warmup W (ra_save_every a) t0 R s0) in *.
    assert (KW : (forall x, In x (fst WU) -> s_warmup (ev_state x) = true) /\ forall s1, snd WU = Ok s1 -> on_course (ra_n_total a) (ra_n_evidence a) (s_pool s) t0 s1 /\ s_warmup s1 = false).
    { unfold WU, warmup. destruct (s_warmup s0) eqn:Ew; [|split; [easy|]; intros s1 E; injection E as <-; auto]. destruct (Nat.eqb _ _); [split; easy|]. split.
      - intros x Hx. apply in_tbind in Hx as [Hx|(s1 & _ & [])]. exact (warm_in _ _ _ _ R _ HP _ _ _ _ C0 Ew Hx).
      - intros s1. rewrite snd_tbind. destruct (snd (warmup_loop W _ _ R _ _ _)) as [s2|] eqn:E2; [|discriminate]. cbn [bind snd]. intros E. injection E as <-.
        split; [apply end_course; exact (warm_course _ _ _ _ R _ HP _ _ _ _ C0 E2)|reflexivity]. }
    clearbody WU. destruct WU as [ew [s1|]]; cbn [fst snd] in KW; destruct KW as [KW1 KW2];
      [|unfold tbind in H; injection H as <- _; try rewrite app_nil_l in He; apply KW1 in He; congruence].
    destruct (KW2 s1 eq_refl) as [C1 W1].
    unfold tbind at 1 in H. pose proof (loop_snd (ra_bfuel a) R (ra_save_every a) t0 HP (ra_fuel a) s1) as EL.
    pose proof (fun e => loop_in _ _ _ _ (ra_bfuel a) R (ra_save_every a) HP (ra_fuel a) s1 e C1 W1) as IL.
    destruct (smc_loop W (ra_fuel a) (ra_bfuel a) (ra_save_every a) t0 R s1) as [el rl]. cbn [fst snd] in EL, IL.
    assert (Er : r = match rl with Ok s => final_evidence W R s | Err e => Err e end /\ In e el).
    { assert (Q : In e ew \/ In e el \/ ev_file e = Final).
      { unfold tbind, lift in H. destruct rl as [s2|]; [destruct (final_evidence W R s2) as [s3|]; [destruct (ra_save_every a)|]|]; injection H as <- <-;
          try rewrite app_nil_l in He; repeat (apply in_app_iff in He as [He|He]; [auto|]); auto; try (destruct He as [<-|[]]; auto); destruct He. }
      split; [unfold tbind, lift in H; destruct rl as [s2|]; [destruct (final_evidence W R s2) as [s3|]; [destruct (ra_save_every a)|]|]; injection H as _ <-; reflexivity|].
      destruct Q as [Q|[Q|Q]]; [apply KW1 in Q; congruence|exact Q|contradiction]. }
    destruct Er as [Er Hel]. destruct (IL e Hel) as (f & F1 & F2 & [O1 O2 O3 O4 O5] & _ & F4). clear IL KW1 KW2 H He.
    assert (RO : recorded_once (ev_state e)) by (destruct O5; [contradiction|assumption]).
    set (se := ev_state e) in *. rewrite resumed_run by exact RO. change (load se self) with (with_pool se (s_pool (load se self))) at 1.
    assert (HP' : maps (s_pool (load se self))).
    { unfold load, with_pool. cbn [s_pool]. destruct (s_pool se) eqn:Ep; [exact HM'|exact I]. }
    rewrite (run_pool W (s_pool (load se self)) HP' a' R se) by (rewrite O4; exact HM). unfold tmap. cbn [snd]. f_equal.
    unfold run, run_from. rewrite A1, A2, (set_targets_same _ _ _ O2 O3), (draw_same R _ O1). rewrite snd_tbind. cbn [lift snd bind].
    rewrite snd_tbind. unfold warmup at 1. rewrite Hw. cbn [snd bind]. rewrite snd_tbind, (loop_snd _ R _ _ A5), A3.
    assert (ND : rl <> Err Diverge) by (intros ->; now apply Hr).
    assert (EQ : loop_result (ra_bfuel a) R (ra_fuel a') se = rl).
    { rewrite EL, F2 in *. apply loop_more; [lia|exact ND]. }
    rewrite EQ, Er. destruct rl as [s2|]; [|reflexivity]. cbn [bind]. rewrite snd_tbind. cbn [lift snd]. destruct (final_evidence W R s2); [|reflexivity]. cbn [bind].
    destruct (ra_save_every a'); reflexivity.
  Qed.

  (** load_state followed by run *)
  Theorem loaded_run a R saved self : maps (s_pool saved) -> maps (s_pool self) ->
    run W a R (load saved self) = tmap (fun s => with_pool s (s_pool (load saved self))) (run W a R saved).
  Proof.
    intros H1 H2. change (load saved self) with (with_pool saved (s_pool (load saved self))) at 1. apply run_pool; [|exact H1].
    unfold load, with_pool. cbn [s_pool]. destruct (s_pool saved); [exact H2|exact I].
  Qed.
End Resume.

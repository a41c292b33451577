(** * Checkpoints and resumed runs *)
From Coq Require Import ZArith List Bool Lia.
From Verif Require Import Num PyBase PyBaseFacts Tools Scaler Particles ParticlesFacts LogLike Geometry GeometryFacts Mcmc SpecMcmc McmcFacts Flow Sampler
  ConfigFacts SpecReach SamplerFacts Reach RowFacts ParticleInv HistoryFacts SpecTrace PoolSwap LoopFacts.
Import ListNotations.
Set Bullet Behavior "Strict Subproofs".

Section Trace.
  Context {T C P Opt : Type} {NT : NumT T}.
  Variable W : world T C P Opt.
  Implicit Types s : sampler T C P.

  Lemma iteration_count fuel R s s' : iteration W fuel R s = Ok s' -> s_t s' = (s_t s + 1)%Z /\ s_warmup s' = s_warmup s /\ s_prior_samples s' = s_prior_samples s /\
    iterations (history_of s') = S (iterations (history_of s)).
  Proof.
    intros H. apply iteration_facts in H as (s1 & s2 & s3 & s4 & c4 & E1 & E2 & E3 & E4 & Ec & ->).
    apply reweight_facts in E1 as (c & beta & logz & ess & w0 & neff & w1 & idx & w2 & lf & u & x & ldj & logl & logp & b & c1 & _ & _ & _ & _ & _ & _ & _ & _ & _ & _ & _ & _ & ->).
    apply train_facts in E2 as (c2 & now & fl & un & ug & tg & _ & _ & _ & ->).
    apply resample_facts in E3 as (c3 & w3 & idx3 & u3 & x3 & ldj3 & logl3 & logp3 & b3 & _ & _ & _ & _ & _ & _ & _ & _ & _ & ->).
    apply mutate_facts in E4 as (c5 & b5 & ks & res & c' & _ & _ & _ & _ & _ & _ & ->). repeat (split; [reflexivity|]).
    unfold history_of, iterations. cbn [with_particles s_particles particles_update p_past]. rewrite update_items. cbn [h_u]. rewrite app_length. cbn. unfold with_current. cbn [s_particles]. lia.
  Qed.
  Lemma batch_count R i s s' : warmup_batch W R i s = Ok s' -> s_t s' = (s_t s + 1)%Z /\ s_warmup s' = s_warmup s /\ s_prior_samples s' <> None /\
    iterations (history_of s') = S (iterations (history_of s)) /\ s_cfg s' = s_cfg s.
  Proof.
    intros E. apply warmup_facts in E as (ps & x0 & u0 & xi & ldj0 & logp0 & logl0 & b0 & x & u & ldj & logp & logl & b & c & _ & _ & _ & _ & _ & _ & _ & -> & ->).
    repeat (split; [reflexivity|]). split; [discriminate|]. split; [|reflexivity].
    unfold history_of, iterations. cbn [with_particles s_particles particles_update p_past]. rewrite update_items. cbn [h_u]. rewrite app_length. cbn. lia.
  Qed.

  Lemma passes_app bfuel R l2 r : forall s l1 s1, passes W bfuel R s l1 (Ok s1) -> passes W bfuel R s1 l2 r -> passes W bfuel R s (l1 ++ l2) r.
  Proof.
    intros s l1 s1 H. remember (Ok s1) as q eqn:E. revert E. induction H as [s|s e He|s e Hp|s s' starts r' Hp H IH|s starts r' Hw H IH]; intros E H2; try discriminate.
    - injection E as ->. exact H2.
    - cbn [app]. eapply ps_pass; [exact Hp|]. apply IH; auto.
    - apply ps_warm; auto.
  Qed.

  Section Saves.
    Variables (k t0 : Z) (bfuel : nat) (R : rand T C P).
    Hypothesis HK : (1 <= k)%Z.
    Lemma checkpoint_due s : (t0 <= s_t s)%Z -> checkpoint (Some k) t0 s = (if due k t0 s then [saved_at s] else [], Ok s).
    Proof.
      intros H. unfold checkpoint, due. destruct (Z.eqb_spec k 0); [lia|]. rewrite andb_comm. destruct (Z.eqb_spec (s_t s) t0) as [E|E].
      - cbn [negb andb]. rewrite E. now rewrite Z.ltb_irrefl.
      - cbn [negb andb]. replace (t0 <? s_t s)%Z with true by (symmetry; apply Z.ltb_lt; lia). cbn [andb]. now destruct (_ =? 0)%Z.
    Qed.
    Definition recorded s (m : traced T C P) : Prop := exists starts, passes W bfuel R s starts (snd m) /\
      fst m = map saved_at (filter (due k t0) starts) /\ map s_t starts = map (fun j => s_t s + Z.of_nat j)%Z (seq 0 (length starts)).
    Lemma recorded_pass s (g : sampler T C P -> res (sampler T C P)) f : (t0 <= s_t s)%Z -> pass W bfuel R s (g s) ->
      (forall s', g s = Ok s' -> s_t s' = (s_t s + 1)%Z /\ recorded s' (f s')) ->
      recorded s (tbind (checkpoint (Some k) t0 s) (fun s0 => tbind (lift (g s0)) f)).
    Proof.
      intros Ht Hp Hf. rewrite (checkpoint_due s Ht). unfold tbind at 1. destruct (g s) as [s'|e].
      - destruct (Hf s' eq_refl) as (Et & starts & F1 & F2 & F3). unfold lift, tbind. destruct (f s') as [evs r]. cbn [fst snd] in *.
        exists (s :: starts). split; [eapply ps_pass; eauto|]. cbn [fst filter]. split; [rewrite F2; destruct (due k t0 s); reflexivity|].
        cbn [map length seq]. rewrite F3, Z.add_0_r. f_equal. rewrite <- seq_shift, map_map. apply map_ext. intros j. rewrite Et. lia.
      - unfold lift, tbind. cbn [snd]. exists [s]. split; [now apply ps_fail|]. cbn [fst filter]. rewrite app_nil_r. split; [destruct (due k t0 s); reflexivity|].
        cbn. now rewrite Z.add_0_r.
    Qed.
    Lemma loop_recorded fuel : forall s, (t0 <= s_t s)%Z -> s_warmup s = false -> recorded s (smc_loop W fuel bfuel (Some k) t0 R s).
    Proof.
      induction fuel as [|fuel IH]; intros s Ht Hw; cbn [smc_loop].
      - destruct (not_termination s) as [[|]|] eqn:En; exists []; (split; [first [constructor; rewrite Hw, ?En; auto; fail|constructor]|split; reflexivity]).
      - destruct (not_termination s) as [[|]|] eqn:En; [|exists []; (split; [constructor|split; reflexivity])|exists []; (split; [constructor; rewrite Hw, ?En; auto|split; reflexivity])].
        apply (recorded_pass s (fun s => iteration W bfuel R s)); [exact Ht|unfold pass; now rewrite Hw|]. intros s' H. apply iteration_count in H as (E1 & E2 & _). split; [exact E1|].
        apply IH; [lia|congruence].
    Qed.
    Lemma warm_recorded n : forall i s, (t0 <= s_t s)%Z -> s_warmup s = true -> recorded s (warmup_loop W (Some k) t0 R i n s) /\
      (forall s', snd (warmup_loop W (Some k) t0 R i n s) = Ok s' -> s_warmup s' = true /\ (t0 <= s_t s')%Z /\ (s_prior_samples s <> None -> s_prior_samples s' <> None)).
    Proof.
      induction n as [|n IH]; intros i s Ht Hw; cbn [warmup_loop].
      - split; [exists []; (split; [constructor|split; reflexivity])|]. cbn [snd]. intros s' E. injection E as <-. auto.
      - split.
        + apply (recorded_pass s (fun s => warmup_batch W R i s)); [exact Ht|unfold pass; rewrite Hw; now exists i|]. intros s' H. apply batch_count in H as (E1 & E2 & _). split; [exact E1|].
          apply IH; [lia|congruence].
        + intros s' H. apply tbind_some in H as (s1 & H1 & H). apply checkpoint_ok in H1. subst s1. apply tbind_some in H as (s1 & H1 & H). cbn [lift snd] in H1.
          apply batch_count in H1 as (E1 & E2 & E3 & _). destruct (IH (S i) s1) as [_ I]; [lia|congruence|]. destruct (I _ H) as (I1 & I2 & I3). auto.
    Qed.
    Lemma recorded_counts s m s1 : recorded s m -> snd m = Ok s1 -> exists starts, passes W bfuel R s starts (Ok s1) /\ fst m = map saved_at (filter (due k t0) starts) /\
       map s_t starts = map (fun j => s_t s + Z.of_nat j)%Z (seq 0 (length starts)).
    Proof. intros (starts & A & B & D) E. exists starts. rewrite <- E. auto. Qed.
    Lemma passes_count s l s1 : passes W bfuel R s l (Ok s1) -> s_t s1 = (s_t s + Z.of_nat (length l))%Z.
    Proof.
      intros H. remember (Ok s1) as q eqn:E. revert E. induction H as [s|s e He|s e Hp|s s' starts r' Hp H IH|s starts r' Hw H IH]; intros E; try discriminate.
      - injection E as ->. cbn. lia.
      - rewrite (IH E). assert (Q : s_t s' = (s_t s + 1)%Z).
        { unfold pass in Hp. destruct (s_warmup s); [destruct Hp as [i Hp]; symmetry in Hp; now apply batch_count in Hp as [-> _]|symmetry in Hp; now apply iteration_count in Hp as [-> _]]. }
        rewrite Q. cbn [length]. lia.
      - rewrite (IH E). reflexivity.
    Qed.
    Lemma recorded_bind s m f : recorded s m -> (forall s1, snd m = Ok s1 -> s_t s1 = s_t s1 /\ recorded s1 (f s1)) -> recorded s (tbind m f).
    Proof.
      intros Hm Hf. destruct m as [evs [s1|e]]; [|exact Hm]. destruct Hm as (l1 & A1 & A2 & A3). cbn [fst snd] in *. destruct (Hf s1 eq_refl) as (_ & l2 & B1 & B2 & B3).
      unfold tbind. destruct (f s1) as [evs' r]. cbn [fst snd] in *. exists (l1 ++ l2). split; [eapply passes_app; eauto|]. split; [now rewrite A2, B2, filter_app, map_app|].
      rewrite map_app, A3, B3, app_length, seq_app, map_app. f_equal. pose proof (passes_count _ _ _ A1) as Q. cbn [Nat.add].
      clear -Q. revert Q. generalize (length l1) as n1. intros n1 Q. generalize (length l2) as n2. intros n2. rewrite Q. clear Q.
      assert (G : forall m, map (fun j => (s_t s + Z.of_nat n1 + Z.of_nat j)%Z) (seq m n2) = map (fun j => (s_t s + Z.of_nat j)%Z) (seq (n1 + m) n2)).
      { induction n2 as [|n2 IH]; intros m; [reflexivity|]. cbn [seq map]. f_equal; [lia|]. rewrite IH. now rewrite <- plus_n_Sm. }
      rewrite G. now rewrite Nat.add_0_r.
    Qed.
  End Saves.

  Theorem run_saves k a R s evs r : ra_save_every a = Some k -> (1 <= k)%Z -> run W a R s = (evs, r) ->
    match draw_prior W R (set_targets (ra_n_total a) (ra_n_evidence a) s) with
    | Err e => evs = [] /\ r = Err e
    | Ok s0 => exists starts r0, passes W (ra_bfuel a) R s0 starts r0 /\
        map s_t starts = map (fun j => s_t s + Z.of_nat j)%Z (seq 0 (length starts)) /\
        r = match r0 with Ok s1 => final_evidence W R s1 | Err e => Err e end /\
        (forall s1, r0 = Ok s1 -> s_warmup s1 = false /\ not_termination s1 = Ok false) /\
        evs = map saved_at (filter (due k (s_t s)) starts) ++ match r with Ok s' => [{| ev_file := Final; ev_state := s' |}] | Err _ => [] end
    end.
  Proof.
    intros Ek Hk H. unfold run, run_from in H. rewrite Ek in H. destruct (draw_prior W R _) as [s0|e] eqn:E0; [|unfold lift, tbind in H; injection H as <- <-; auto].
    unfold lift at 1 in H. unfold tbind at 1 in H.
    assert (D : s_t s0 = s_t s).
    { apply draw_facts in E0 as [[N ->]|[_ (ps & sc & _ & _ & ->)]]; reflexivity. }
    set (X := tbind (warmup W (Some k) (s_t s) R s0) (fun s1 => smc_loop W (ra_fuel a) (ra_bfuel a) (Some k) (s_t s) R s1)).
    assert (RX : recorded k (s_t s) (ra_bfuel a) R s0 X).
    { unfold X, warmup. destruct (s_warmup s0) eqn:Ew.
      - destruct (Nat.eqb_spec (c_n_active (s_cfg s0)) 0); [exists []; (split; [constructor; rewrite Ew; auto|split; reflexivity])|].
        assert (Q : forall m f, tbind (tbind m (fun s => ([], Ok (end_warmup s)))) f = tbind m (fun s => f (end_warmup s))).
        { clear. intros [evs [s|e]] f; unfold tbind; [|reflexivity]. rewrite app_nil_r. reflexivity. }
        rewrite Q. destruct (warm_recorded k (s_t s) (ra_bfuel a) R Hk (n_batches (s_cfg s0)) 0 s0) as [W1 W2]; [lia|exact Ew|].
        apply recorded_bind; [exact W1|]. intros s1 H1. split; [reflexivity|]. destruct (W2 s1 H1) as (V1 & V2 & _).
        destruct (loop_recorded k (s_t s) (ra_bfuel a) R Hk (ra_fuel a) (end_warmup s1)) as (l & L1 & L2 & L3); [exact V2|reflexivity|].
        exists l. split; [apply ps_warm; [exact V1|exact L1]|]. split; [exact L2|exact L3].
      - unfold tbind. cbn [app]. pose proof (loop_recorded k (s_t s) (ra_bfuel a) R Hk (ra_fuel a) s0) as L. destruct (smc_loop W _ _ _ _ R s0) as [evs1 r1] eqn:E1.
        apply L; [lia|exact Ew]. }
    assert (HX : tbind X (fun s => tbind (lift (final_evidence W R s)) (fun s => ([{| ev_file := Final; ev_state := s |}], Ok s))) = (evs, r)).
    { rewrite <- H. unfold X. clear. destruct (warmup W (Some k) (s_t s) R s0) as [e1 [s1|]]; [|reflexivity]. unfold tbind. destruct (smc_loop W _ _ _ _ R s1) as [e2 [s2|]]; [|reflexivity].
      destruct (lift (final_evidence W R s2)) as [e3 [s3|]]; cbn [app]; f_equal; rewrite ?app_assoc; reflexivity. }
    assert (KX : forall s1, snd X = Ok s1 -> s_warmup s1 = false /\ not_termination s1 = Ok false).
    { intros s1 H1. unfold X in H1. apply tbind_some in H1 as (s2 & H1 & H2). split; [|exact (proj2 (loop_total W _ _ _ _ _ _ _ H2))].
      assert (W2 : s_warmup s2 = false).
      { unfold warmup in H1. destruct (s_warmup s0) eqn:Ew; [|injection H1 as <-; exact Ew]. destruct (Nat.eqb _ _); [discriminate|]. apply tbind_some in H1 as (s3 & _ & H1). injection H1 as <-. reflexivity. }
      clear -H2 W2. revert s2 H2 W2. induction (ra_fuel a) as [|fuel IH]; intros s2; cbn [smc_loop]; (destruct (not_termination s2) as [[|]|]; [|intros E; injection E as <-; auto|discriminate]); [discriminate|].
      intros H Hw. apply tbind_some in H as (s3 & H1 & H). apply checkpoint_ok in H1. subst s3. apply tbind_some in H as (s3 & H1 & H). cbn [lift snd] in H1.
      apply (IH s3 H). apply iteration_count in H1 as (_ & -> & _). exact Hw. }
    clear H. clearbody X. destruct RX as (starts & A1 & A2 & A3). exists starts, (snd X). split; [exact A1|]. split; [now rewrite D in A3|].
    destruct X as [e1 r1]. cbn [fst snd] in *. destruct r1 as [s1|e]; [|unfold tbind in HX; injection HX as <- <-; split; [reflexivity|split; [discriminate|now rewrite app_nil_r]]].
    unfold lift, tbind in HX. destruct (final_evidence W R s1) as [s2|e]; injection HX as <- <-; (split; [reflexivity|]); (split; [exact KX|]); rewrite A2; reflexivity.
  Qed.
  Lemma tbind_none m f : fst m = [] -> (forall s, fst (f s : traced T C P) = []) -> fst (tbind m f) = [].
  Proof. intros H Hf. destruct m as [evs [s|e]]; cbn [fst] in H; subst evs; unfold tbind; [|reflexivity]. specialize (Hf s). destruct (f s). exact Hf. Qed.
  Theorem run_saves_nothing a R s evs r : ra_save_every a = None -> run W a R s = (evs, r) -> evs = [].
  Proof.
    intros Ea H. assert (Q : fst (run W a R s) = []); [|rewrite H in Q; exact Q]. clear H. unfold run, run_from. rewrite Ea.
    apply tbind_none; [reflexivity|]. intros s1. apply tbind_none.
    { unfold warmup. destruct (s_warmup s1); [|reflexivity]. destruct (Nat.eqb _ _); [reflexivity|]. apply tbind_none; [|reflexivity].
      generalize (n_batches (s_cfg s1)) as n. generalize 0%nat as i. intros i n. revert i s1. induction n as [|n IH]; intros i s1; [reflexivity|].
      cbn [warmup_loop]. apply tbind_none; [reflexivity|]. intros s2. apply tbind_none; [reflexivity|]. intros s3. apply IH. }
    intros s2. apply tbind_none.
    { generalize (ra_fuel a) as n. intros n. revert s2. induction n as [|n IH]; intros s2; cbn [smc_loop]; (destruct (not_termination s2) as [[|]|]; [|reflexivity|reflexivity]); [reflexivity|].
      apply tbind_none; [reflexivity|]. intros s3. apply tbind_none; [reflexivity|]. intros s4. apply IH. }
    intros s3. apply tbind_none; [reflexivity|]. reflexivity.
  Qed.
End Trace.

(** * Whole runs in exact arithmetic: range of the evidence, and a run that returns *)
From Coquelicot Require Import Coquelicot.
From Coq Require Import ZArith Reals Lra Lia.
From Coq Require Import String List Bool.
From Verif Require Import Num PyBase XReal RList Tools TrimFacts Scaler Particles SpecTools SpecParticles ParticlesFacts LogLike Geometry Mcmc SpecMcmc McmcNum Flow Sampler ConfigFacts
  SpecReach SamplerFacts Reach SpecRun BetaFacts XUnit RowFacts ParticleInv HistoryFacts HistoryExact SpecEss BisectFacts FiniteHistory LoopFacts LoopExact IterateTotal SpecEvidence LoopMain EvidenceRange ScalerSpecFacts SpecScaler SpecExact EvidenceFacts SpecIterate HistoryMain IterateFacts IterateCase.
Import ListNotations.
Set Bullet Behavior "Strict Subproofs".
Local Open Scope R_scope.

Lemma run_range {C P Opt} (W : world X C P Opt) lp ll bl (drawn : vec X -> Prop) interrupts a R (s : sampler X C P) evs s' lo hi :
  regular W lp ll bl -> (forall x, drawn x -> ll x <> NaN) -> (forall x, ll x <> PInf) ->
  reachable W (good_draws x_random drawn) interrupts s -> good_draws x_random drawn R -> run W a R s = (evs, Ok s') ->
  (ra_n_evidence a <= 0)%Z \/ c_preconditioned (s_cfg s) = false ->
  (forall x l, ll x = Fin l -> lo <= l <= hi) ->
  exists z, evidence s' = (Some (Fin z), None) /\ lo <= z <= hi.
Proof.
  intros RG HN HI Hs HR H Hn HL. destruct (run_evidence_smc W lp ll bl drawn interrupts a R s evs s' RG HN HI Hs HR H Hn) as (ls & bs & zs & z & HH & E & M).
  pose proof (proj2 (run_reachable W _ interrupts a R s evs _ Hs HR H) s' eq_refl) as Hs'. exists z. split; [exact E|].
  apply (final_in_range W lp ll bl RG drawn HN HI interrupts s' ls bs zs z lo hi Hs' HH); [|exact M].
  exact (stored_in_range W lp ll bl RG drawn interrupts s' ls bs zs lo hi Hs' HH HL).
Qed.

(** ** A run that returns *)
Lemma kish_repeat v n : 0 < v -> (0 < n)%nat -> kish_ess (repeat v n) = INR n.
Proof.
  intros Hv Hn. assert (Q : 0 < INR n) by now apply lt_0_INR. unfold kish_ess. rewrite !total_Rsum.
  assert (A : forall u, Rsum (repeat u n) = INR n * u).
  { intros u. clear. induction n as [|n IH]; [cbn; ring|]. rewrite S_INR. cbn [repeat Rsum]. rewrite IH. ring. }
  assert (M : forall f : R -> R, map f (repeat v n) = repeat (f v) n) by (intros f; clear; induction n; cbn; congruence).
  rewrite M, !A. field. split; lra.
Qed.
Lemma weights_equal ls bs zs b l : (forall x, In x (concat ls) -> x = l) -> weights_at ls bs zs b = repeat (balance_weight bs zs b l) (length (concat ls)).
Proof.
  intros H. unfold weights_at. induction (concat ls) as [|x xs IH]; [reflexivity|]. cbn [map length repeat]. rewrite (H x (or_introl eq_refl)). f_equal. apply IH. intros y Hy. apply H. now right.
Qed.
Definition args1 (pre : bool) (bfuel : nat) : run_args := {| ra_n_total := 2; ra_n_evidence := evidence1 pre; ra_save_every := None; ra_fuel := 1; ra_bfuel := bfuel |}.
Theorem case1_run_of pre : exists s0 bfuel s', new_sampler world1 (options1 pre) = Ok s0 /\ c_preconditioned (s_cfg s0) = pre /\ reachable world1 (good_draws x_random (strictly_inside rows1)) false s0 /\
  run world1 (args1 pre bfuel) rand1 s0 = ([], Ok s') /\ h_beta (history_of s') = [Fin 0; Fin 1] /\ (exists e, h_ess (history_of s') = [e; Fin 2]) /\ constructed (s_scaler s') 1 rows1 /\ diagonal_scaling (s_scaler s') 1.
Proof.
  destruct (case1_warm pre) as (s0 & s & N0 & N1 & HW). destruct (case1_iteration_of pre s HW) as (s1 & fuel & HI & _). exists s0, fuel.
  assert (HN : forall x, strictly_inside rows1 x -> like1 x <> NaN) by discriminate.
  pose proof (em_bounded _ _ _ _ _ world1_exact) as HB.
  assert (Hb : forall (x : vec X) (l : R), like1 x = Fin l -> 3 <= l <= 3) by (intros x l E; injection E as <-; lra).
  assert (SF : constructed (s_scaler s) 1 rows1 /\ diagonal_scaling (s_scaler s) 1).
  { destruct HW as [H2 ES _ _ _ _ [IT [_ [_ (a & b & UU & _)]]]]. destruct (history_point world1 flat1 like1 None rows1 world1_exact false s (particle_at (stored (history_of s) 0) 0) H2 ES) as (Q1 & Q2 & _); [|auto].
    exists 0%nat, 0%nat. rewrite IT, UU. split; [lia|]. split; [cbn; lia|reflexivity]. }
  destruct HW as [H2 ES [NA [PC [DY [ME _]]]] _ _ (WU & NE & NT & NV & c & Hc & Bc) [IT [LL [BB _]]]]. pose proof (weaken world1 false rows1 s H2) as Hw.
  assert (T0 : not_termination s = Ok true).
  { unfold not_termination. rewrite Hc, NT. cbn [of_option bind]. rewrite Bc. change (nofZ 1) with (Fin 1).
    destruct (exact_past world1 flat1 like1 None world1_regular _ HN HB false s Hw) as (ls & bs & zs & HH & _). { rewrite IT. discriminate. }
    rewrite (ess_at_fin (history_of s) ls bs zs HH (c_metric (s_cfg s)) 1 : ess_at _ (p_past (s_particles s)) (Fin 1) = _). cbn [bind]. apply f_equal.
    assert (F : (nfrac 1 10000 : X) = Fin (1 / 10000)) by (apply frac_fin; lra).
    match goal with |- (nleb ?a ?b || _)%bool = _ => change (nleb a b) with (xleb (nfrac 1 10000) (Fin (1 - 0))) end.
    rewrite F. cbn [xleb]. unfold Rleb. destruct (Rle_dec _ _); [reflexivity|lra]. }
  assert (Hw1 : reachable world1 (good_draws x_random (strictly_inside rows1)) false s1).
  { eapply rc_iteration; [exact Hw| |exact WU|exact T0|exact HI]. exact (ed_draws _ _ rand1_fair). }
  destruct (exact_step world1 flat1 like1 None world1_regular _ HN HB false fuel rand1 s s1 Hw HI) as (ls & bs & zs & rest & b0 & b & HH & E0 & Ib & EB & EE & Cs).
  assert (BZ : b = 1 /\ bs = [0] /\ sample_size (c_metric (s_cfg s)) (weights_at ls bs zs b) = 2).
  { destruct HH as (HL & HB' & _ & HZ & Hb' & Hl'). rewrite BB in HB'. destruct bs as [|x [|]]; try discriminate. injection HB' as <-.
    assert (SZ : forall b', sample_size (c_metric (s_cfg s)) (weights_at ls [0] zs b') = 2).
    { intros b'. rewrite LL in HL. destruct ls as [|[|l0 [|l1 [|]]] [|]]; try discriminate. injection HL as <- <-. rewrite ME. cbn [sample_size].
      rewrite (weights_equal [[3; 3]] [0] zs b' 3) by (intros x [<-|[<-|[]]]; reflexivity). rewrite kish_repeat; [reflexivity| |cbn; lia].
      destruct (weights_pos [[3; 3]] [0] zs b' Hb' HZ Hl') as [P _]. inversion P; assumption. }
    split; [rewrite NE, !SZ in Cs; lra|]. split; [reflexivity|apply SZ]. }
  destruct BZ as (-> & -> & S2). rewrite S2 in EE.
  pose proof (iteration_step _ _ _ _ _ HI) as (beta & logz & ess & c1 & _ & EB1 & _ & _ & Hc1 & Ec1 & _).
  assert (Eb1 : cu_beta c1 = Fin 1). { rewrite BB in EB1. rewrite EB in EB1. injection EB1 as <-. exact Ec1. }
  assert (NT1 : s_n_total s1 = Some 2%Z) by (rewrite (iteration_total _ _ _ _ _ HI); exact NT).
  assert (NV1 : s_n_evidence s1 = Some (evidence1 pre)) by (rewrite (iteration_targets _ _ _ _ _ HI); exact NV).
  assert (IT1 : iterations (history_of s1) = 2%nat).
  { pose proof (reachable_even world1 _ false s1 Hw1) as EV. unfold even, counts in EV. cbn [repeat] in EV. injection EV as _ _ _ _ _ _ _ _ _ _ _ _ _ Vb. unfold iterations in Vb |- *. rewrite EB in Vb. cbn in Vb. congruence. }
  assert (CF : s_cfg s1 = s_cfg s).
  { apply iteration_facts in HI as (t1 & t2 & t3 & t4 & c4 & K1 & K2 & K3 & K4 & _ & ->).
    apply reweight_facts in K1 as (? & ? & ? & ? & ? & ? & ? & ? & ? & ? & ? & ? & ? & ? & ? & ? & ? & _ & _ & _ & _ & _ & _ & _ & _ & _ & _ & _ & -> & ->).
    apply train_facts in K2 as (? & ? & ? & ? & ? & ? & _ & _ & _ & ->). apply resample_facts in K3 as (? & ? & ? & ? & ? & ? & ? & ? & ? & _ & _ & _ & _ & _ & _ & _ & _ & _ & ->).
    apply mutate_facts in K4 as (? & ? & ? & ? & ? & _ & _ & _ & _ & _ & -> & ->). reflexivity. }
  assert (SC1 : s_scaler s1 = s_scaler s).
  { apply iteration_facts in HI as (t1 & t2 & t3 & t4 & c4 & K1 & K2 & K3 & K4 & _ & ->).
    apply reweight_facts in K1 as (? & ? & ? & ? & ? & ? & ? & ? & ? & ? & ? & ? & ? & ? & ? & ? & ? & _ & _ & _ & _ & _ & _ & _ & _ & _ & _ & _ & -> & ->).
    apply train_facts in K2 as (? & ? & ? & ? & ? & ? & _ & _ & _ & ->). apply resample_facts in K3 as (? & ? & ? & ? & ? & ? & ? & ? & ? & _ & _ & _ & _ & _ & _ & _ & _ & _ & ->).
    apply mutate_facts in K4 as (? & ? & ? & ? & ? & _ & _ & _ & _ & _ & -> & ->). reflexivity. }
  assert (T1 : not_termination s1 = Ok false).
  { destruct (exact_past world1 flat1 like1 None world1_regular _ HN HB false s1 Hw1) as (ls1 & bs1 & zs1 & HH1 & _ & L1 & L2). { rewrite IT1. discriminate. }
    unfold not_termination. rewrite Hc1, NT1. cbn [of_option bind]. rewrite Eb1. change (nofZ 1) with (Fin 1). rewrite (ess_at_fin (history_of s1) ls1 bs1 zs1 HH1 (c_metric (s_cfg s1)) 1 : ess_at _ (p_past (s_particles s1)) (Fin 1) = _).
    assert (SZ : sample_size (c_metric (s_cfg s1)) (weights_at ls1 bs1 zs1 1) = 4).
    { rewrite CF, ME. cbn [sample_size]. pose proof HH1 as (_ & _ & _ & HZ1 & Hb1 & Hl1).
      assert (A3 : forall x, In x (concat ls1) -> x = 3). { intros x Hx. pose proof (stored_in_range world1 flat1 like1 None world1_regular _ false s1 ls1 bs1 zs1 3 3 Hw1 HH1 Hb x Hx). lra. }
      assert (L4 : length (concat ls1) = 4%nat).
      { rewrite IT1 in L1. destruct ls1 as [|r1 [|r2 [|]]]; try discriminate. cbn [concat]. rewrite app_nil_r, app_length, (L2 r1), (L2 r2) by (cbn; auto). rewrite CF, NA. reflexivity. }
      rewrite (weights_equal ls1 bs1 zs1 1 3 A3), L4. rewrite kish_repeat; [cbn; lra| |lia].
      destruct (weights_pos ls1 bs1 zs1 1 Hb1 HZ1 Hl1) as [P _]. rewrite (weights_equal ls1 bs1 zs1 1 3 A3), L4 in P. inversion P; assumption. }
    rewrite SZ. cbn [bind]. apply f_equal. change (nofZ 1) with (Fin 1). change (nofZ 2) with (Fin 2). xnum.
    assert (F : (nfrac 1 10000 : X) = Fin (1 / 10000)) by (apply frac_fin; lra).
    match goal with |- (nleb ?a ?b || nltb ?x ?y)%bool = _ => change (nleb a b) with (xleb (nfrac 1 10000) (Fin (1 - 1))); change (nltb x y) with (Rltb 4 2) end.
    rewrite F. cbn [xleb]. unfold Rleb, Rltb. destruct (Rle_dec _ _), (Rlt_dec _ _); try lra. }
  assert (R0 : reachable world1 (good_draws x_random (strictly_inside rows1)) false s0).
  { eapply rc_new; [exact N0|]. destruct (start1 pre) as (s00 & H0 & F1 & _). rewrite N0 in H0. apply Ok_inj in H0. subst s00. rewrite F1. exact I. }
  assert (P0 : c_preconditioned (s_cfg s0) = pre).
  { destruct (start1 pre) as (s00 & H0 & _ & _ & _ & _ & _ & _ & _ & _ & _ & _ & F1 & _). rewrite N0 in H0. apply Ok_inj in H0. subst s00. exact F1. }
  assert (FE : exists s', final_evidence world1 rand1 s1 = Ok s' /\ history_of s' = history_of s1 /\ s_scaler s' = s_scaler s1).
  { unfold final_evidence. rewrite NV1, CF, PC. cbn [of_option bind]. destruct pre.
    - cbn [evidence1 Z.ltb Z.compare andb]. unfold compute_evidence. cbn [rn_flow rand1]. rewrite SC1. destruct SF as [SF1 SF2].
      destruct (jacobian (s_scaler s) 1 rows1 (wd_junk world1) (map (fun k => [INR k]) (seq 0 2)) SF1 SF2 eq_refl ltac:(repeat constructor)) as (g & d & _ & EI).
      pose proof (like_total world1 flat1 like1 None rows1 world1_exact s1) as MM.
      eexists. split; [refine (eq_trans (f_equal (fun m => bind m _) EI) _); cbn [bind wd_logpdf world1]; rewrite MM by (exact (maps_pool world1 _ false s1 Hw1)); cbn [bind]; reflexivity|]. split; [reflexivity|exact SC1].
    - cbn [evidence1 Z.ltb Z.compare andb].
    destruct (exact_past world1 flat1 like1 None world1_regular _ HN HB false s1 Hw1) as (ls1 & bs1 & zs1 & HH1 & _). { rewrite IT1. discriminate. }
    destruct (weights_are_balance_weights _ ls1 bs1 zs1 1 HH1) as (_ & lw1 & lw2 & lz & E1 & _). eexists. split; [refine (eq_trans (f_equal (fun m => bind m _) E1) _); cbn [bind]; reflexivity|split; reflexivity]. }
  destruct FE as (s' & FE & EH & ESC). exists s'. assert (RUN : run world1 (args1 pre fuel) rand1 s0 = ([], Ok s')).
  { unfold run, run_from. cbn [args1 ra_n_total ra_n_evidence ra_save_every ra_fuel ra_bfuel]. unfold prepared1 in N1.
    destruct (draw_prior world1 rand1 (set_targets 2 (evidence1 pre) s0)) as [sp|] eqn:ED; [|discriminate]. cbn [lift tbind] in N1 |- *.
    destruct (warmup world1 None (s_t s0) rand1 sp) as [ev r] eqn:EW. cbn [app] in N1. injection N1 as -> ->.
    cbn [tbind smc_loop]. rewrite T0. cbn [checkpoint tbind]. rewrite HI. cbn [lift tbind smc_loop app]. rewrite T1. cbn [app tbind]. rewrite FE. reflexivity. }
  split; [exact N0|]. split; [exact P0|]. split; [exact R0|]. split; [exact RUN|]. split; [rewrite EH, EB; reflexivity|].
  split; [|rewrite ESC, SC1; exact SF]. rewrite EH, EE. pose proof (reachable_even world1 _ false s Hw) as EV. unfold even, counts in EV. cbn [repeat] in EV.
  assert (L : length (h_ess (history_of s)) = 1%nat) by (injection EV; intros; unfold iterations in IT; congruence). destruct (h_ess (history_of s)) as [|e [|]]; try discriminate. now exists e.
Qed.
Theorem case1_run : exists s0 bfuel s', new_sampler world1 (options1 false) = Ok s0 /\ reachable world1 (good_draws x_random (strictly_inside rows1)) false s0 /\
  run world1 (args1 false bfuel) rand1 s0 = ([], Ok s') /\ evidence s' = (Some (Fin 3), None) /\ h_beta (history_of s') = [Fin 0; Fin 1].
Proof.
  destruct (case1_run_of false) as (s0 & fuel & s' & N0 & _ & R0 & RUN & EB & _). exists s0, fuel, s'.
  assert (HN : forall x, strictly_inside rows1 x -> like1 x <> NaN) by discriminate.
  assert (Hb : forall (x : vec X) (l : R), like1 x = Fin l -> 3 <= l <= 3) by (intros x l E; injection E as <-; lra).
  split; [exact N0|]. split; [exact R0|]. split; [exact RUN|]. split; [|exact EB].
  destruct (run_range world1 flat1 like1 None _ false (args1 false fuel) rand1 s0 [] s' 3 3 world1_regular HN (em_bounded _ _ _ _ _ world1_exact) R0 (ed_draws _ _ rand1_fair) RUN ltac:(left; cbn; lia) Hb) as (z & Ez & Hz).
  rewrite Ez. do 3 f_equal. lra.
Qed.

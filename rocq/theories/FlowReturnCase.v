(** * Concrete cases of trainings, iterations and loops that return *)
From Coquelicot Require Import Coquelicot.
From Coq Require Import ZArith Reals Lra Lia Permutation.
From Coq Require Import String List Bool.
From Verif Require Import Num PyBase XReal RList Tools TrimFacts Scaler Particles SpecTools SpecParticles ParticlesFacts LogLike Geometry SpecGeometry Mcmc SpecMcmc SpecBalance SpecChain McmcNum Flow Sampler ConfigFacts
  SpecReach SamplerFacts Reach SpecRun BetaFacts XUnit RowFacts ParticleInv HistoryFacts HistoryExact SpecEss BisectFacts FiniteHistory LoopFacts LoopExact IterateTotal SpecEvidence LoopMain EvidenceRange ScalerSpecFacts SpecScaler SpecExact EvidenceFacts SpecPosterior SpecIterate HistoryMain IterateFacts IterateFit IterateCase ExactRun
  SpecLater SpecReturn ReturnCase SpecTrainReturn SpecFlowReturn SpecLoopReturn.
Import ListNotations.
Set Bullet Behavior "Strict Subproofs".
Local Open Scope R_scope.

(** the exact example stops after one iteration *)
Lemma case1_stops pre s fuel s1 : warm1 pre s -> iteration world1 fuel rand1 s = Ok s1 -> not_termination s = Ok true /\ not_termination s1 = Ok false.
Proof.
  intros HW HI.
  assert (HN : forall x, strictly_inside rows1 x -> like1 x <> NaN) by discriminate.
  pose proof (em_bounded _ _ _ _ _ world1_exact) as HB.
  assert (Hb : forall (x : vec X) (l : R), like1 x = Fin l -> 3 <= l <= 3) by (intros x l E; injection E as <-; lra).
  destruct HW as [H2 ES [NA [PC [DY [ME _]]]] _ _ (WU & NE & NT & NV & c & Hc & Bc) [IT [LL [BB _]]]]. pose proof (weaken world1 false rows1 s H2) as Hw.
  assert (T0 : not_termination s = Ok true).
  { unfold not_termination. rewrite Hc, NT. cbn [of_option bind]. rewrite Bc. change (nofZ 1) with (Fin 1).
    destruct (exact_past world1 flat1 like1 None world1_regular _ HN HB false s Hw) as (ls & bs & zs & HH & _). { rewrite IT. discriminate. }
    rewrite (ess_at_fin (history_of s) ls bs zs HH (c_metric (s_cfg s)) 1 : ess_at _ (p_past (s_particles s)) (Fin 1) = _). cbn [bind]. apply f_equal.
    assert (F : (nfrac 1 10000 : X) = Fin (1 / 10000)) by (apply frac_fin; lra).
    match goal with |- (nleb ?a ?b || _)%bool = _ => change (nleb a b) with (xleb (nfrac 1 10000) (Fin (1 - 0))) end.
    rewrite F. cbn [xleb]. unfold Rleb. destruct (Rle_dec _ _); [reflexivity|lra]. }
  assert (Hw1 : reachable world1 (good_draws x_random (strictly_inside rows1)) false s1).
  { eapply rc_iteration; [exact Hw| |exact WU|exact T0|exact HI]. exact (ed_draws _ _ rand1_fair). }
  destruct (exact_step world1 flat1 like1 None world1_regular _ HN HB false fuel rand1 s s1 Hw HI) as (ls & bs & zs & rest & b0 & b & HH & E0 & Ib & EB & EE & Cs).
  assert (BZ : b = 1 /\ bs = [0] /\ sample_size (c_metric (s_cfg s)) (weights_at ls bs zs b) = 2).
  { destruct HH as (HL & HB' & _ & HZ & Hb' & Hl'). rewrite BB in HB'. destruct bs as [|x [|]]; try discriminate. injection HB' as <-.
    assert (SZ : forall b', sample_size (c_metric (s_cfg s)) (weights_at ls [0] zs b') = 2).
    { intros b'. rewrite LL in HL. destruct ls as [|[|l0 [|l1 [|]]] [|]]; try discriminate. injection HL as <- <-. rewrite ME. cbn [sample_size].
      rewrite (weights_equal [[3; 3]] [0] zs b' 3) by (intros x [<-|[<-|[]]]; reflexivity). rewrite kish_repeat; [reflexivity| |cbn; lia].
      destruct (weights_pos [[3; 3]] [0] zs b' Hb' HZ Hl') as [P _]. inversion P; assumption. }
    split; [rewrite NE, !SZ in Cs; lra|]. split; [reflexivity|apply SZ]. }
  destruct BZ as (-> & -> & S2). rewrite S2 in EE.
  pose proof (iteration_step _ _ _ _ _ HI) as (beta & logz & ess & c1 & _ & EB1 & _ & _ & Hc1 & Ec1 & _).
  assert (Eb1 : cu_beta c1 = Fin 1). { rewrite BB in EB1. rewrite EB in EB1. injection EB1 as <-. exact Ec1. }
  assert (NT1 : s_n_total s1 = Some 2%Z) by (rewrite (iteration_total _ _ _ _ _ HI); exact NT).
  assert (IT1 : iterations (history_of s1) = 2%nat).
  { pose proof (reachable_even world1 _ false s1 Hw1) as EV. unfold even, counts in EV. cbn [repeat] in EV. injection EV as _ _ _ _ _ _ _ _ _ _ _ _ _ Vb. unfold iterations in Vb |- *. rewrite EB in Vb. cbn in Vb. congruence. }
  assert (CF : s_cfg s1 = s_cfg s).
  { apply iteration_facts in HI as (t1 & t2 & t3 & t4 & c4 & K1 & K2 & K3 & K4 & _ & ->).
    apply reweight_facts in K1 as (? & ? & ? & ? & ? & ? & ? & ? & ? & ? & ? & ? & ? & ? & ? & ? & ? & _ & _ & _ & _ & _ & _ & _ & _ & _ & _ & _ & -> & ->).
    apply train_facts in K2 as (? & ? & ? & ? & ? & ? & _ & _ & _ & ->). apply resample_facts in K3 as (? & ? & ? & ? & ? & ? & ? & ? & ? & _ & _ & _ & _ & _ & _ & _ & _ & _ & ->).
    apply mutate_facts in K4 as (? & ? & ? & ? & ? & _ & _ & _ & _ & _ & -> & ->). reflexivity. }
  split; [exact T0|].
  destruct (exact_past world1 flat1 like1 None world1_regular _ HN HB false s1 Hw1) as (ls1 & bs1 & zs1 & HH1 & _ & L1 & L2). { rewrite IT1. discriminate. }
    unfold not_termination. rewrite Hc1, NT1. cbn [of_option bind]. rewrite Eb1. change (nofZ 1) with (Fin 1). rewrite (ess_at_fin (history_of s1) ls1 bs1 zs1 HH1 (c_metric (s_cfg s1)) 1 : ess_at _ (p_past (s_particles s1)) (Fin 1) = _).
    assert (SZ : sample_size (c_metric (s_cfg s1)) (weights_at ls1 bs1 zs1 1) = 4).
    { rewrite CF, ME. cbn [sample_size]. pose proof HH1 as (_ & _ & _ & HZ1 & Hb1 & Hl1).
      assert (A3 : forall x, In x (concat ls1) -> x = 3). { intros x Hx. pose proof (stored_in_range world1 flat1 like1 None world1_regular _ false s1 ls1 bs1 zs1 3 3 Hw1 HH1 Hb x Hx). lra. }
      assert (L4 : length (concat ls1) = 4%nat).
      { rewrite IT1 in L1. destruct ls1 as [|r1 [|r2 [|]]]; try discriminate. cbn [concat]. rewrite app_nil_r, app_length, (L2 r1), (L2 r2) by (cbn; auto). rewrite CF, NA. reflexivity. }
      rewrite (weights_equal ls1 bs1 zs1 1 3 A3), L4. rewrite kish_repeat; [cbn; lra| |lia].
      destruct (weights_pos ls1 bs1 zs1 1 Hb1 HZ1 Hl1) as [P _]. rewrite (weights_equal ls1 bs1 zs1 1 3 A3), L4 in P. inversion P; assumption. }
    rewrite SZ. cbn [bind]. apply f_equal. change (nofZ 1) with (Fin 1). change (nofZ 2) with (Fin 2). xnum.
    assert (F : (nfrac 1 10000 : X) = Fin (1 / 10000)) by (apply frac_fin; lra).
    match goal with |- (nleb ?a ?b || nltb ?x ?y)%bool = _ => change (nleb a b) with (xleb (nfrac 1 10000) (Fin (1 - 1))); change (nltb x y) with (Rltb 4 2) end.
    rewrite F. cbn [xleb]. unfold Rleb, Rltb. destruct (Rle_dec _ _), (Rlt_dec _ _); try lra.
Qed.

Lemma half1 : exists v, c_validation_split (train_config (T := X) 1 1 (Some [TC_epochs 1; TC_batch_size 4])) = Fin v /\ v = 1 / 2.
Proof. exists (1 / 2). split; [|reflexivity]. apply frac_fin; lra. Qed.
Lemma options1_flow : flow_options (train_config (T := X) 1 1 (Some [TC_epochs 1; TC_batch_size 4])).
Proof. destruct half1 as (v & E & ->). constructor; [exists (1 / 2); split; [exact E|right; lra]|reflexivity|left; cbn; lia]. Qed.
Lemma permutations1 t : training_numbers (train_config (T := X) 1 1 (Some [TC_epochs 1; TC_batch_size 4])) (ir_fit (rn_iter rand1 t)) 2.
Proof.
  intros _. split; [apply perm_swap|]. intros k (v & E & Hk). destruct half1 as (v' & E' & ->). rewrite E' in E. injection E as <-.
  assert (k = 1%nat) as ->.
  { destruct Hk as [[Q _]|[_ Hk]]; [lra|]. cbn [INR] in Hk. destruct k as [|[|k]]; [cbn in Hk; lra|reflexivity|]. rewrite 2!S_INR in Hk. pose proof (pos_INR k). lra. }
  intros e. split; apply Permutation_refl.
Qed.
Lemma spread_latent1 pre s fuel s1 : warm1 pre s -> reweight fuel s = Ok s1 -> well_spread_latent world1 rand1 1 s1 /\ fit_permutations rand1 s1 /\ well_spread 1 rand1 s1.
Proof.
  intros HW H1. destruct (case1_survivors pre s fuel s1 HW H1) as (c1 & a & b & Hc & Eu & AB & Ew & Ec). pose proof (spread1 s1 c1 a b Hc Eu AB Ew) as SP. split; [|split; [|exact SP]].
  - intros p pts ths _ HS IM. assert (ths = pts) as ->; [|now apply SP]. clear -IM. unfold images in IM. cbn in IM. induction IM as [|u th us ths E _ IH]; [reflexivity|].
    rewrite IH. f_equal. clear -E. revert th E. induction u as [|x u IH]; intros [|y th] E; try discriminate; [reflexivity|]. injection E as -> E. f_equal. auto.
  - intros c Q. rewrite Hc in Q. injection Q as <-. rewrite Ec, Eu. rewrite (proj1 (w1_training _ _ HW)). apply permutations1.
Qed.
Lemma gamma1 (s : sampler X unit nat) : exact_gamma (step_numbers rand1 s) (fun _ _ _ _ => 1).
Proof. intros i k x y _ _. split; [reflexivity|lra]. Qed.
Lemma good_loop1 pre s : warm1 pre s -> good_loop world1 rand1 1 s.
Proof.
  intros HW fuel s' s1 L HT H1. destruct L as [->|L].
  - destruct (spread_latent1 pre s fuel s1 HW H1) as (A & B & D). constructor; [exact D|auto|exists (1/2); split; [reflexivity|lra]|exact (numbers1 _)| |].
    + eexists _, _. exact (steps1 _ s1).
    + eexists. exact (gamma1 s1).
  - exfalso. assert (Q : exists s0 f, later world1 rand1 s s0 /\ iteration world1 f rand1 s = Ok s0 /\ (s' = s0 \/ later world1 rand1 s0 s')).
    { clear -L. induction L as [f s s' Hw Ht HI|f s s' s'' L (s0 & f0 & L0 & HI0 & IH) Ht HI].
      - exists s', f. split; [eapply later_one; eauto|]. auto.
      - exists s0, f0. split; [exact L0|]. split; [exact HI0|]. right.
        assert (W0 : s_warmup s0 = false) by (clear -L0; induction L0 as [f s s' Hw _ HI|f s s' s'' _ IH _ HI]; apply iteration_frame in HI as (_ & F & _); congruence).
        destruct IH as [->|IH]; [eapply later_one; eauto|eapply later_more; eauto]. }
    destruct Q as (s0 & f & _ & HI & Q). destruct (case1_stops pre s f s0 HW HI) as [_ ST]. destruct Q as [->|Q]; [congruence|].
    clear -ST Q. induction Q; [congruence|auto].
Qed.

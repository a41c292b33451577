(** * The theorems about the iterations of a run, in the form stated as properties *)
From Coq Require Import ZArith Reals Lra Lia Sorted Floats.SpecFloat.
From Coq Require Import String List Bool.
From Verif Require Import Num PyBase XReal FloatNum Tools SpecTools Scaler Particles SpecParticles ParticlesFacts LogLike Geometry Mcmc SpecMcmc McmcFacts McmcNum Flow Sampler ConfigFacts
  SpecReach SamplerFacts Reach SpecRun SpecExact TrimFacts XUnit RowFacts ParticleInv HistoryFacts SpecEss BisectFacts FiniteHistory SpecLoop LoopFacts LoopExact CounterFacts
  SpecEvidence SpecSupport SupportFacts EvidenceFacts ExactCase RunCase RunCaseFacts RunSteps StuckCase HaltCase.
Import ListNotations.
Set Bullet Behavior "Strict Subproofs".
Local Open Scope R_scope.

Lemma reachable_weaken {T C P Opt} {NT : NumT T} (W : world T C P Opt) (fair fair' : rand T C P -> Prop) interrupts s :
  (forall R, fair R -> fair' R) -> reachable W fair interrupts s -> reachable W fair' interrupts s.
Proof.
  intros F. induction 1 as [o s H1 H2|a b s H IH|R s s' H IH HR H1|R i s s' H IH HR H1 H2 H3|s H IH H1|fuel R s s' H IH HR H1 H2 H3|R s s' H IH HR H1 H2
    |s H IH|saved self H IH H' IH'|fuel s s1 H IH H1 H2 H3|fuel R s s1 s2 H IH HR H1 H2 H3 H4|fuel R s s1 s2 s3 H IH HR H1 H2 H3 H4 H5|fuel s s1 c p HI H IH H1 H2 H3 H4 H5].
  - exact (rc_new W fair' interrupts o s H1 H2).
  - now apply rc_targets.
  - exact (rc_prior W fair' interrupts R s s' IH (F R HR) H1).
  - exact (rc_batch W fair' interrupts R i s s' IH (F R HR) H1 H2 H3).
  - now apply rc_end.
  - exact (rc_iteration W fair' interrupts fuel R s s' IH (F R HR) H1 H2 H3).
  - exact (rc_evidence W fair' interrupts R s s' IH (F R HR) H1 H2).
  - now apply rc_results.
  - now apply rc_load.
  - exact (rc_reweighted W fair' interrupts fuel s s1 IH H1 H2 H3).
  - exact (rc_trained W fair' interrupts fuel R s s1 s2 IH (F R HR) H1 H2 H3 H4).
  - exact (rc_resampled W fair' interrupts fuel R s s1 s2 s3 IH (F R HR) H1 H2 H3 H4 H5).
  - exact (rc_training W fair' interrupts fuel s s1 c p HI IH H1 H2 H3 H4 H5).
Qed.

(** ** C34 *)
Section Again.
  Context {T C P Opt : Type} {NT : NumT T}.
  Variable W : world T C P Opt.
  Lemma run_twice a a' R R' (s : sampler T C P) evs s' evs' s'' : run W a R s = (evs, Ok s') -> ra_n_total a' = ra_n_total a -> run W a' R' s' = (evs', Ok s'') ->
    history_of s'' = history_of s' /\ s_t s'' = s_t s' /\ s_current s'' = s_current s' /\ s_evals s'' = s_evals s' /\ (forall e, In e evs' -> ev_file e = Final).
  Proof.
    intros H E H'. destruct (run_done W _ _ _ _ _ H) as [D1 D2]. apply run_converged in H. rewrite <- E in H. exact (run_again_adds_nothing W a' R' s' evs' s'' D1 D2 H H').
  Qed.
End Again.
Lemma run_twice_exact {C P Opt} (W : world X C P Opt) lp ll bl (drawn : vec X -> Prop) interrupts a a' R R' (s : sampler X C P) evs s' evs' s'' :
  regular W lp ll bl -> (forall x, drawn x -> ll x <> NaN) -> (forall x, ll x <> PInf) ->
  reachable W (good_draws x_random drawn) interrupts s -> good_draws x_random drawn R -> run W a R s = (evs, Ok s') ->
  (ra_n_total a' <= ra_n_total a)%Z -> run W a' R' s' = (evs', Ok s'') ->
  history_of s'' = history_of s' /\ s_t s'' = s_t s' /\ s_current s'' = s_current s' /\ s_evals s'' = s_evals s' /\ (forall e, In e evs' -> ev_file e = Final).
Proof.
  intros RG HN HI Hs HR H E H'. destruct (run_done W _ _ _ _ _ H) as [D1 D2].
  pose proof (proj2 (run_reachable W _ interrupts a R s evs _ Hs HR H) s' eq_refl) as Hs'.
  apply run_converged in H. apply (exact_converged_less W lp ll bl RG drawn HN HI interrupts s' _ _ Hs' E) in H.
  exact (run_again_adds_nothing W a' R' s' evs' s'' D1 D2 H H').
Qed.
Lemma run_converged_exact {C P Opt} (W : world X C P Opt) lp ll bl (drawn : vec X -> Prop) interrupts a R (s : sampler X C P) evs s' :
  regular W lp ll bl -> (forall x, drawn x -> ll x <> NaN) -> (forall x, ll x <> PInf) ->
  reachable W (good_draws x_random drawn) interrupts s -> good_draws x_random drawn R -> run W a R s = (evs, Ok s') ->
  exists ls bs zs c b, history (history_of s') ls bs zs /\ s_current s' = Some c /\ cu_beta c = Fin b /\ b <= 1 /\ 1 - b < 1 / 10000 /\
    IZR (ra_n_total a) <= sample_size (c_metric (s_cfg s')) (weights_at ls bs zs 1).
Proof.
  intros RG HN HI Hs HR H. pose proof (proj2 (run_reachable W _ interrupts a R s evs _ Hs HR H) s' eq_refl) as Hs'.
  exact (exact_converged W lp ll bl RG drawn HN HI interrupts s' _ Hs' (run_converged W _ _ _ _ _ H)).
Qed.

(** ** C45 *)
Lemma iter_record {T C P Opt} {NT : NumT T} (W : world T C P Opt) (fair : rand T C P -> Prop) interrupts (s : sampler T C P) : reachable W fair interrupts s ->
  exists warmup later, h_iter (history_of s) = map Z.of_nat (seq 0 warmup) ++ repeat (Z.of_nat (warmup - 1)) later /\ (s_warmup s = true -> later = 0%nat).
Proof. intros H. destruct (reachable_iter W fair interrupts s H) as (k & m & E & E1 & _). exists k, m. split; [exact E|]. intros Hw. now destruct (E1 Hw). Qed.
Lemma iter_iteration {T C P Opt} {NT : NumT T} (W : world T C P Opt) (fair : rand T C P -> Prop) interrupts fuel R (s s' : sampler T C P) :
  reachable W fair interrupts s -> iteration W fuel R s = Ok s' ->
  exists rest last, h_iter (history_of s) = rest ++ [last] /\ h_iter (history_of s') = h_iter (history_of s) ++ [last].
Proof.
  intros Hr H. destruct (reachable_iter W fair interrupts s Hr) as (k & m & E & _ & E2).
  apply iteration_facts in H as (s1 & s2 & s3 & s4 & c4 & H1 & H2 & H3 & H4 & Hc & ->).
  apply reweight_facts in H1 as (c & beta & logz & ess & w0 & neff & w1 & idx & w2 & lf & u & x & ldj & logl & logp & b & c1 & E0 & Hb & _ & _ & _ & _ & _ & _ & _ & _ & _ & -> & ->).
  apply train_facts in H2 as (c2 & now & fl & un & ug & tg & F2 & _ & _ & ->). cbn [s_current] in F2. injection F2 as <-.
  apply resample_facts in H3 as (c3 & w3 & idx3 & u3 & x3 & ldj3 & logl3 & logp3 & b3 & E3 & _ & _ & _ & _ & _ & _ & _ & _ & ->). cbn [s_current] in E3. injection E3 as <-.
  apply mutate_facts in H4 as (c5 & b5 & ks & res & c' & E4 & _ & _ & _ & _ & -> & ->). cbn [with_current s_current] in E4. injection E4 as <-.
  cbn [s_current] in Hc. injection Hc as <-. destruct (E2 c E0) as [K1 K2].
  assert (L : exists rest, h_iter (history_of s) = rest ++ [Z.of_nat (k - 1)]).
  { rewrite E. destruct m as [|m].
    - rewrite app_nil_r. destruct k as [|k]; [lia|]. rewrite seq_S, map_app. exists (map Z.of_nat (seq 0 k)). cbn [map plus]. now replace (S k - 1)%nat with k by lia.
    - exists (map Z.of_nat (seq 0 k) ++ repeat (Z.of_nat (k - 1)) m). rewrite <- app_assoc. f_equal. clear. induction m as [|m IH]; [reflexivity|]. cbn [repeat app] in *. now rewrite IH. }
  destruct L as [rest L]. exists rest, (Z.of_nat (k - 1)). split; [exact L|].
  unfold history_of at 1. cbn [with_particles s_particles with_current particles_update p_past s_current]. rewrite update_items. cbn [h_iter cu_iter]. now rewrite K2.
Qed.

(** ** C52, C53 *)
Lemma run_evidence_mean {C P Opt} (W : world X C P Opt) lp ll bl (fair : rand X C P -> Prop) interrupts a R (s : sampler X C P) evs s' theta logq xq ldj :
  regular W lp ll bl -> reachable W fair interrupts s -> fair R -> run W a R s = (evs, Ok s') ->
  (0 < ra_n_evidence a)%Z -> c_preconditioned (s_cfg s) = true ->
  rn_flow R (s_flow s') (Z.to_nat (ra_n_evidence a)) = (theta, logq) -> length logq = length theta ->
  inverse (s_scaler s') (wd_junk W) theta = Ok (xq, ldj) ->
  let ds := combine xq (combine ldj logq) in
  let ws := map (importance_weight lp ll) ds in
  Forall (evaluable lp ll) ds ->
  (0 < total ws -> exists z err, evidence s' = (Some (Fin z), Some err) /\ exp z = total ws / INR (kept lp ds) /\
     z = ln (mean ws) + ln (INR (length ds) / INR (kept lp ds))) /\
  (kept lp ds = 0%nat -> exists err, evidence s' = (Some NaN, Some err)).
Proof.
  intros RG Hs HR H Hn Hp Ef Lq Hi ds ws HE. destruct (run_ends W fair interrupts a R s evs s' H) as (s2 & H2 & En & Ec & Hr). specialize (Hr Hs HR).
  pose proof (maps_pool W fair interrupts s2 Hr) as HM.
  pose proof (evidence_facts W R s2 s' H2) as (n' & logz & err & calls & evals & hb & _ & Es & _).
  assert (E1 : s_flow s' = s_flow s2) by now rewrite Es. assert (E2 : s_scaler s' = s_scaler s2) by now rewrite Es. assert (E3 : s_cfg s' = s_cfg s2) by now rewrite Es.
  rewrite E1 in Ef. rewrite E2 in Hi. rewrite <- Ec, E3 in Hp.
  destruct (evidence_is_mean W lp ll bl RG R s2 s' _ theta logq xq ldj HM H2 En Hn Hp Ef Lq Hi HE) as [K1 K2]. split; [|exact K2].
  intros HS. destruct (K1 HS) as (z & e & Q1 & Q2). exists z, e. split; [exact Q1|]. split; [exact Q2|].
  assert (Q3 : exp z = total ws / INR (kept lp ds)) by exact Q2. clear Q2. rename Q3 into Q2.
  assert (KP : (0 < kept lp ds)%nat).
  { destruct (Nat.eq_dec (kept lp ds) 0) as [E0|]; [|lia]. rewrite E0 in Q2. cbn [INR] in Q2. unfold Rdiv in Q2. rewrite Rinv_0, Rmult_0_r in Q2. pose proof (exp_pos z); lra. }
  assert (KL : (kept lp ds <= length ds)%nat). { unfold kept. clear. induction ds as [|d l IH]; [cbn; lia|]. cbn [filter length]. destruct (nisfinite _); cbn [length]; lia. }
  assert (I1 : 0 < INR (kept lp ds)) by (now apply lt_0_INR). assert (I2 : 0 < INR (length ds)) by (apply lt_0_INR; lia).
  unfold mean. assert (LW : length ws = length ds) by (unfold ws; apply map_length). rewrite LW.
  rewrite <- ln_mult by (apply Rdiv_lt_0_compat; assumption). rewrite <- (ln_exp z), Q2. f_equal. field. split; lra.
Qed.
Lemma run_evidence_smc {C P Opt} (W : world X C P Opt) lp ll bl (drawn : vec X -> Prop) interrupts a R (s : sampler X C P) evs s' :
  regular W lp ll bl -> (forall x, drawn x -> ll x <> NaN) -> (forall x, ll x <> PInf) ->
  reachable W (good_draws x_random drawn) interrupts s -> good_draws x_random drawn R -> run W a R s = (evs, Ok s') ->
  (ra_n_evidence a <= 0)%Z \/ c_preconditioned (s_cfg s) = false ->
  exists ls bs zs z, history (history_of s') ls bs zs /\ evidence s' = (Some (Fin z), None) /\ exp z = mean (weights_at ls bs zs 1).
Proof.
  intros RG HN HI Hs HR H Hn. destruct (run_ends W (good_draws x_random drawn) interrupts a R s evs s' H) as (s2 & H2 & En & Ec & Hr). specialize (Hr Hs HR).
  pose proof (proj2 (run_reachable W _ interrupts a R s evs _ Hs HR H) s' eq_refl) as Hs'.
  apply evidence_facts in H2 as (n' & logz & err & calls & evals & hb & En' & -> & Hv). rewrite En in En'. injection En' as <-.
  assert (B : (0 <? ra_n_evidence a)%Z && c_preconditioned (s_cfg s2) = false).
  { change (s_cfg s2) with (s_cfg (with_evidence s2 (Some logz) err calls evals hb)). rewrite Ec. apply andb_false_iff. destruct Hn as [Hn| ->]; [left; apply Z.ltb_ge; lia|now right]. }
  rewrite B in Hv. destruct Hv as (-> & _ & _ & _ & lw & Hv).
  destruct (run_converged_exact W lp ll bl (drawn : vec X -> Prop) interrupts a R s evs _ RG HN HI Hs HR H) as (ls & bs & zs & c & b & HH & _). exists ls, bs, zs.
  destruct (weights_are_balance_weights _ ls bs zs 1 HH) as (_ & lw1 & lw2 & lz & E1 & _ & _ & _ & _ & E2).
  assert (Q : Ok (lw, logz) = Ok (map Fin lw1, Fin lz)) by (refine (eq_trans (eq_sym Hv) E1)). apply Ok_inj in Q. injection Q as _ ->.
  exists lz. split; [exact HH|]. split; [reflexivity|]. exact E2.
Qed.
Lemma run_evidence_none {T C P Opt} {NT : NumT T} (W : world T C P Opt) a R (s : sampler T C P) evs s' : run W a R s = (evs, Ok s') ->
  (ra_n_evidence a <= 0)%Z \/ c_preconditioned (s_cfg s) = false ->
  exists lw logz, compute_logw_and_logz (history_of s') (nofZ 1) true = Ok (lw, logz) /\ evidence s' = (Some logz, None).
Proof.
  intros H Hn. destruct (run_ends W (fun _ => True) false a R s evs s' H) as (s2 & H2 & En & Ec & _).
  apply evidence_facts in H2 as (n' & logz & err & calls & evals & hb & En' & -> & Hv). rewrite En in En'. injection En' as <-.
  assert (B : (0 <? ra_n_evidence a)%Z && c_preconditioned (s_cfg s2) = false).
  { change (s_cfg s2) with (s_cfg (with_evidence s2 (Some logz) err calls evals hb)). rewrite Ec. apply andb_false_iff. destruct Hn as [Hn| ->]; [left; apply Z.ltb_ge; lia|now right]. }
  rewrite B in Hv. destruct Hv as (-> & _ & _ & _ & lw & Hv). exists lw, logz. split; [exact Hv|reflexivity].
Qed.

(** ** Cases *)
Lemma likeX_finite x : exists l, likeX x = Fin l.
Proof. unfold likeX. destruct x as [|a [|[] [|]]]; eauto. Qed.
Lemma caseX_reachable : exists s, reachable worldX (good_draws x_random (strictly_inside rowsX)) true s /\ iterations (history_of s) <> 0%nat /\
  s_have_blobs s = false.
Proof.
  destruct caseX_full as (s & p & R0 & (t & k & Ht & _) & _ & HB & _). exists s. split; [|split; [lia|exact HB]].
  revert R0. apply reachable_weaken. intros R H. exact (ed_draws _ _ H).
Qed.

(** * The error of the evidence: proofs for C95 *)
From Coq Require Import Reals ZArith Lra List Bool Lia PeanoNat.
From Verif Require Import Num PyBase PyBaseFacts XReal Tools SpecTools ToolsFacts Scaler Particles LogLike Mcmc Sampler ConfigFacts SpecReach SamplerFacts Reach RowFacts ParticleInv
  SpecEvidence TrimFacts McmcFacts EvidenceFacts.
From Verif Require FlowTrainFacts.
Import ListNotations.
Set Bullet Behavior "Strict Subproofs".
Local Open Scope R_scope.

Lemma nstd_fin l : l <> [] -> @nstd X XNumT (map Fin l) = Fin (deviation l).
Proof.
  intros Hl. unfold nstd, deviation. assert (M : forall l, l <> [] -> @nmean X (@numT_Num X XNumT) (map Fin l) = Fin (mean l)).
  { intros l' H'. unfold mean. rewrite total_Rsum. exact (FlowTrainFacts.nmean_fin l' H'). }
  rewrite (M l Hl).
  assert (E : map (fun a : X => @nsqr X (@numT_Num X XNumT) (@nsub X (@numT_Num X XNumT) a (Fin (mean l)))) (map Fin l) = map Fin (map (fun a => (a - mean l) ^ 2) l)).
  { rewrite !map_map. apply map_ext. intros a. unfold nsqr. change (Fin ((a - mean l) * (a - mean l)) = Fin ((a - mean l) ^ 2)). f_equal. ring. }
  etransitivity; [exact (f_equal (fun x => nsqrt (nmean x)) E)|]. rewrite M by (now destruct l).
  change (xsqrt (Fin (mean (map (fun a => (a - mean l) ^ 2) l))) = Fin (sqrt (mean (map (fun a => (a - mean l) ^ 2) l)))).
  assert (P : 0 <= mean (map (fun a => (a - mean l) ^ 2) l)).
  { unfold mean. rewrite total_Rsum. apply Rmult_le_pos; [|destruct l; [easy|left; apply Rinv_0_lt_compat, lt_0_INR; cbn; lia]].
    set (m := Rsum l / INR (length l)) in *. generalize (total l / INR (length l)). intros q. clear. induction l as [|a l IH]; [cbn; lra|]. cbn [map Rsum]. pose proof (pow2_ge_0 (a - q)). lra. }
  now apply xsqrt_fin.
Qed.

Section Boot.
  Context {C P Opt : Type}.
  Variable W : world X C P Opt.
  Variable lp ll : vec X -> X.
  Variable bl : option (vec X -> list C).
  Hypothesis RG : regular W lp ll bl.
  Implicit Types s : sampler X C P.

  Lemma weights_kept (xq : mat X) ldj logq : length ldj = length xq -> length logq = length xq ->
    let ds := combine xq (combine ldj logq) in
    let keep := map nisfinite (map lp xq) in
    let logw := map2 nsub (map2 nadd (map2 nadd (map ll (compress keep xq)) (compress keep (map lp xq))) (compress keep ldj)) (compress keep logq) in
    Forall (evaluable lp ll) ds -> map xexpR logw = kept_weights lp ll ds.
  Proof.
    revert ldj logq. induction xq as [|x xq IH]; intros ldj logq L1 L2; [reflexivity|].
    destruct ldj as [|j ldj]; [discriminate|]. destruct logq as [|q logq]; [discriminate|].
    cbn in L1, L2. injection L1 as L1. injection L2 as L2. cbn zeta. cbn [combine map compress]. intros H. apply Forall_cons_iff in H as [H0 H].
    specialize (IH ldj logq L1 L2). cbn zeta in IH. specialize (IH H). unfold kept_weights in *. cbn [filter fst].
    unfold evaluable in H0. cbn [fst snd] in H0.
    destruct (nisfinite (lp x)) eqn:E; [|exact IH].
    destruct (H0 eq_refl) as (Hl & [j' ->] & [q' ->]). destruct (lp x) as [p| | |] eqn:Ep; try discriminate.
    cbn [map map2]. f_equal; [|exact IH]. unfold importance_weight. cbn [fst snd]. rewrite Ep. destruct Hl as [[l ->]| ->]; [|reflexivity].
    cbn [xexpR nsub nadd xsub xadd xopp]. change (exp (l + p + j' - q') = exp l * exp p * exp j' / exp q'). unfold Rminus. rewrite !exp_plus, exp_Ropp. reflexivity.
  Qed.
  Lemma redrawn_logw (logw : list X) pick : Forall lognum logw -> logw <> [] ->
    let l := map (fun i => nth (Nat.modulo (pick i) (length logw)) logw (nofZ 0)) (seq 0 (length logw)) in
    Forall lognum l /\ map xexpR l = redrawn pick (map xexpR logw).
  Proof.
    intros H Hn l. assert (B : forall i, (pick i mod length logw < length logw)%nat) by (intros i; apply Nat.mod_upper_bound; now destruct logw).
    split.
    - apply Forall_forall. intros x Hx. apply in_map_iff in Hx as (i & <- & _). rewrite Forall_forall in H. apply H, nth_In, B.
    - unfold l, redrawn. rewrite map_map, map_length. apply map_ext. intros i. rewrite (nth_indep (map xexpR logw) 0 (xexpR (nofZ 0))) by (rewrite map_length; apply B).
      now rewrite map_nth.
  Qed.

  Theorem evidence_error R0 s s' n theta logq xq ldj :
    maps (s_pool s) -> final_evidence W R0 s = Ok s' -> s_n_evidence s = Some n -> (0 < n)%Z -> c_preconditioned (s_cfg s) = true ->
    rn_flow R0 (s_flow s) (Z.to_nat n) = (theta, logq) -> length logq = length theta ->
    inverse (s_scaler s) (wd_junk W) theta = Ok (xq, ldj) ->
    let ds := combine xq (combine ldj logq) in
    let again j := redrawn (rn_boot R0 j) (kept_weights lp ll ds) in
    let repeats := Nat.max (Z.to_nat n) 1000 in
    Forall (evaluable lp ll) ds -> (forall j, (j < repeats)%nat -> 0 < total (again j)) ->
    exists z, evidence s' = (z, Some (Fin (deviation (map (fun j => ln (mean (again j))) (seq 0 repeats))))).
  Proof.
    intros HM H En Hn Hp Ef Lq Hi ds again repeats HE HB. apply evidence_facts in H as (n' & logz & err & calls & evals & hb & En' & -> & Hv).
    rewrite En in En'. injection En' as <-. rewrite Hp, (proj2 (Z.ltb_lt _ _) Hn) in Hv. cbn [andb] in Hv. destruct Hv as (xq' & ldj' & logp & logl & b & Hv). rewrite Ef in Hv.
    destruct Hv as (Hi' & Hlp & -> & Hl & _ & -> & _ & ->). rewrite Hi in Hi'. apply Ok_inj in Hi'. injection Hi' as <- <-.
    apply (rg_prior _ _ _ _ RG) in Hlp. subst logp. apply (like_facts W lp ll bl RG _ _ _ _ HM) in Hl as [-> _].
    destruct (inverse_length _ _ _ _ _ Hi) as [L1 L2].
    destruct (weights_listed lp ll xq ldj logq) as (K1 & K2 & K3); [congruence|congruence|exact HE|].
    pose proof (weights_kept xq ldj logq ltac:(congruence) ltac:(congruence) HE) as K4. fold ds in K4.
    set (logw := map2 nsub _ _) in *. eexists. unfold evidence. cbn [with_evidence s_logz s_logz_err]. f_equal. apply (f_equal Some). fold repeats.
    assert (RP : (0 < repeats)%nat) by (unfold repeats; lia).
    assert (Hw : logw <> []).
    { intros E. specialize (HB 0%nat RP). unfold again in HB. rewrite <- K4, E in HB. cbn in HB. lra. }
    assert (E : map (fun j => log_mean (map (fun i => nth (Nat.modulo (rn_boot R0 j i) (length logw)) logw (nofZ 0)) (seq 0 (length logw)))) (seq 0 repeats) =
       map Fin (map (fun j => ln (mean (again j))) (seq 0 repeats))).
    { rewrite map_map. apply map_ext_in. intros j Hj. apply in_seq in Hj.
      destruct (redrawn_logw logw (rn_boot R0 j) K1 Hw) as [Q1 Q2]. cbv zeta in Q1, Q2. rewrite K4 in Q2. fold (again j) in Q2.
      destruct (log_mean_num _ Q1) as (z & Ez & Hz).
      { rewrite Q2, <- total_Rsum. apply HB. lia. }
      assert (LE : length (map (fun i => nth (Nat.modulo (rn_boot R0 j i) (length logw)) logw (nofZ 0)) (seq 0 (length logw))) = length (again j)).
      { rewrite <- Q2. symmetry. apply map_length. }
      rewrite Ez. f_equal. unfold mean. rewrite total_Rsum. change (vec X) with (list X) in *. rewrite Q2, LE in Hz. rewrite <- Hz. now rewrite ln_exp. }
    refine (eq_trans (f_equal (@nstd X XNumT) E) _). apply nstd_fin. intros Q. apply (f_equal (@length R)) in Q. rewrite map_length, seq_length in Q. cbn in Q. lia.
  Qed.
End Boot.

Lemma run_evidence_error {C P Opt} (W : world X C P Opt) lp ll bl (fair : rand X C P -> Prop) interrupts a R0 (s : sampler X C P) evs s' theta logq xq ldj :
  regular W lp ll bl -> reachable W fair interrupts s -> fair R0 -> run W a R0 s = (evs, Ok s') ->
  (0 < ra_n_evidence a)%Z -> c_preconditioned (s_cfg s) = true ->
  rn_flow R0 (s_flow s') (Z.to_nat (ra_n_evidence a)) = (theta, logq) -> length logq = length theta ->
  inverse (s_scaler s') (wd_junk W) theta = Ok (xq, ldj) ->
  let ds := combine xq (combine ldj logq) in
  let again j := redrawn (rn_boot R0 j) (kept_weights lp ll ds) in
  let repeats := Nat.max (Z.to_nat (ra_n_evidence a)) 1000 in
  Forall (evaluable lp ll) ds -> (forall j, (j < repeats)%nat -> 0 < total (again j)) ->
  exists z, evidence s' = (z, Some (Fin (deviation (map (fun j => ln (mean (again j))) (seq 0 repeats))))).
Proof.
  intros RG Hs HR H Hn Hp Ef Lq Hi ds again repeats HE HB. destruct (run_ends W fair interrupts a R0 s evs s' H) as (s2 & H2 & En & Ec & Hr). specialize (Hr Hs HR).
  pose proof (maps_pool W fair interrupts s2 Hr) as HM.
  pose proof (evidence_facts W R0 s2 s' H2) as (n' & logz & err & calls & evals & hb & _ & Es & _).
  assert (E1 : s_flow s' = s_flow s2) by now rewrite Es. assert (E2 : s_scaler s' = s_scaler s2) by now rewrite Es. assert (E3 : s_cfg s' = s_cfg s2) by now rewrite Es.
  rewrite E1 in Ef. rewrite E2 in Hi. rewrite <- Ec, E3 in Hp.
  exact (evidence_error W lp ll bl RG R0 s2 s' _ theta logq xq ldj HM H2 En Hn Hp Ef Lq Hi HE HB).
Qed.

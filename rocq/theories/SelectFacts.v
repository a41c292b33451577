(** * Reweighting and resampling: the particles a Markov chain starts from *)
From Coq Require Import Reals ZArith Lra Sorted.
From Coq Require Import List Bool Lia.
From Verif Require Import Num PyBase PyBaseFacts XReal RList Tools SpecTools ToolsFacts TrimFacts ChoiceFacts ResampleFacts Scaler Particles SpecParticles ParticlesFacts LogLike Geometry GeometryFacts
  Mcmc SpecMcmc McmcNum McmcFacts Flow Sampler ConfigFacts SpecReach SamplerFacts SpecRun XUnit RowFacts ParticleInv HistoryFacts HistoryMain SpecTrace SpecPosterior PosteriorFacts PosteriorExact
  SpecEss BisectFacts FiniteHistory LoopExact SpecIterate.
Import ListNotations.
Set Bullet Behavior "Strict Subproofs".
Local Open Scope R_scope.

Section Rows.
  Context {T C : Type} {NT : NumT T}.
  Implicit Types w : @walkers T (list C).
  Definition rows_of w (n : nat) : list (particle T (list C)) := map (particle_at w) (seq 0 n).
  Lemma rows_length w n : length (rows_of w n) = n.
  Proof. unfold rows_of. now rewrite map_length, seq_length. Qed.
  Lemma rows_nth w n k : (k < n)%nat -> nth_error (rows_of w n) k = Some (particle_at w k).
  Proof. intros H. unfold rows_of. rewrite nth_error_map, (nth_error_nth' _ 0%nat) by now rewrite seq_length. now rewrite seq_nth. Qed.
  Lemma rows_u w n : rectangular w n -> map pt_u (rows_of w n) = w_u w.
  Proof. intros H. unfold rows_of. rewrite map_map, <- (re_u _ _ H). symmetry. exact (list_of_nth _ []). Qed.
  Lemma rows_logl w n : rectangular w n -> map pt_logl (rows_of w n) = w_logl w.
  Proof. intros H. unfold rows_of. rewrite map_map, <- (re_logl _ _ H). symmetry. exact (list_of_nth _ (nofZ 0)). Qed.
  Lemma gathered_positions w n idx w' : rectangular w n -> gathered w idx w' -> at_positions (rows_of w n) idx (rows_of w' (length idx)).
  Proof.
    intros R G. destruct (gathered_rows _ _ _ _ R G) as (_ & _ & H). unfold at_positions.
    assert (Q : forall m a, (forall k, (k < length m)%nat -> (nth k m 0 < n)%nat /\ particle_at w' (a + k) = particle_at w (nth k m 0%nat)) ->
      Forall2 (fun i p => nth_error (rows_of w n) i = Some p) m (map (particle_at w') (seq a (length m)))).
    { induction m as [|i m IH]; intros a Hm; [constructor|]. cbn [length seq map]. constructor.
      - destruct (Hm 0%nat) as [A1 A2]; [cbn; lia|]. cbn [nth] in *. rewrite Nat.add_0_r in A2. rewrite A2. now apply rows_nth.
      - apply IH. intros k Hk. destruct (Hm (S k)) as [A1 A2]; [cbn; lia|]. cbn [nth] in *. rewrite Nat.add_succ_r in A2. cbn [Nat.add]. auto. }
    apply (Q idx 0%nat). intros k Hk. exact (H k Hk).
  Qed.
End Rows.
Lemma all_rows {T C P} {NT : NumT T} (s : sampler T C P) hb : aligned (history_of s) (c_n_active (s_cfg s)) hb ->
  all_particles s = rows_of (flat_arrays (history_of s) hb) (iterations (history_of s) * c_n_active (s_cfg s)).
Proof.
  intros A. destruct (flat_rows _ _ _ A) as (_ & _ & F). unfold rows_of. rewrite seq_product. unfold all_particles, particles_of. rewrite !flat_map_concat_map. f_equal. apply map_ext_in. intros t Ht. apply in_seq in Ht.
  apply map_ext_in. intros k Hk. apply in_seq in Hk. symmetry. apply F; lia.
Qed.

Lemma picked_mult uniform offset n q again : Forall (fun x => 0 < x) q -> total q = 1 -> (forall k, 0 <= uniform k < 1) ->
  random_choice (map (fun k => Fin (uniform k)) (seq 0 n)) (map Fin q) = Ok again -> picks MULT uniform offset n q again.
Proof.
  intros PQ TQ HU E. destruct (random_choice_spec (map uniform (seq 0 n)) q) as (again' & R1 & R2).
  { eapply Forall_impl; [|exact PQ]; cbv beta; intros; lra. }
  { rewrite TQ, Rminus_eq_0, Rabs_R0. left. apply Rinv_0_lt_compat, pow_lt. lra. }
  { apply Forall_map, Forall_forall. intros; apply HU. }
  rewrite map_map in R1. assert (Q : Ok again' = Ok again) by (rewrite <- E; symmetry; exact R1). apply Ok_inj in Q. subst again'. pose proof (Forall2_len _ _ _ R2) as L. rewrite map_length, seq_length in L. split; [congruence|].
  intros k i Hk. assert (k < n)%nat by (rewrite L; apply nth_error_Some; congruence).
  assert (Hk' : nth_error (map uniform (seq 0 n)) k = Some (uniform k)).
  { rewrite nth_error_map. rewrite (nth_error_nth' _ 0%nat) by (rewrite seq_length; lia). rewrite seq_nth by lia. reflexivity. }
  destruct (Forall2_at _ _ _ R2 k _ _ Hk' Hk) as (Z1 & _ & Z). rewrite TQ in Z. split; [exact Z1|]. lra.
Qed.
Lemma picked_syst_nonneg uniform offset n q again : Forall (fun x => 0 <= x) q -> total q = 1 -> 0 <= offset < 1 -> (1 <= n)%nat ->
  systematic_resample (Fin offset) n (map Fin q) = Ok again -> picks SYST uniform offset n q again.
Proof.
  intros NN TQ HU Hn E.
  assert (EX : exact_weights q) by (split; [exact NN|split; [lra|now left]]).
  pose proof TQ as TR. rewrite total_Rsum in TR. destruct (systematic_core offset n q NN) as [H _]; [lra|exact Hn|].
  rewrite norm_step_exact in H by exact EX. assert (Eq : map (fun w => w / Rsum q) q = q) by (rewrite TR; rewrite <- map_id; apply map_ext; intros; field). rewrite Eq in H.
  destruct H as (again' & R1 & R2 & _); [rewrite TR; apply positions_le_1; [exact Hn|lra]|].
  assert (Q : Ok again' = Ok again) by (rewrite <- E; symmetry; exact R1). apply Ok_inj in Q. subst again'. pose proof (Forall2_len _ _ _ R2) as L. unfold positionsR in L, R2. rewrite map_length, seq_length in L. split; [congruence|].
  intros k i Hk. assert (k < n)%nat by (rewrite L; apply nth_error_Some; congruence).
  assert (Hk' : nth_error (map (posR offset n) (seq 0 n)) k = Some (posR offset n k)).
  { rewrite nth_error_map. rewrite (nth_error_nth' _ 0%nat) by (rewrite seq_length; lia). rewrite seq_nth by lia. reflexivity. }
  pose proof (Forall2_at _ _ _ R2 k _ _ Hk' Hk) as Z. unfold selects, cum in Z. rewrite !total_Rsum. unfold posR in Z. cbv zeta. tauto.
Qed.
Lemma picked_syst uniform offset n q again : Forall (fun x => 0 < x) q -> total q = 1 -> 0 <= offset < 1 -> (1 <= n)%nat ->
  systematic_resample (Fin offset) n (map Fin q) = Ok again -> picks SYST uniform offset n q again.
Proof. intros PQ. apply picked_syst_nonneg. eapply Forall_impl; [|exact PQ]. cbv beta. intros. lra. Qed.

Section Select.
  Context {C P Opt : Type}.
  Variable W : world X C P Opt.
  Variable lp ll : vec X -> X.
  Variable bl : option (vec X -> list C).
  Hypothesis RG : regular W lp ll bl.
  Variable drawn : vec X -> Prop.
  Hypothesis HN : forall x, drawn x -> ll x <> NaN.
  Hypothesis HI : forall x, ll x <> PInf.
  Variable interrupts : bool.
  Notation reachable := (reachable W (good_draws x_random drawn) interrupts).
  Implicit Types s : sampler X C P.

  Theorem reweighted fuel s s1 : reachable s -> reweight fuel s = Ok s1 ->
    exists c1 b remain q, s_current s1 = Some c1 /\ cu_beta c1 = Fin b /\ remaining s b remain q /\ Forall (fun x => 0 < x) q /\ total q = 1 /\ length q = length remain /\
      cu_weights c1 = Some (map Fin q) /\ rectangular (current_arrays c1) (length remain) /\ remain = rows_of (current_arrays c1) (length remain).
  Proof.
    intros H H1. pose proof (reachable_pinv W x_undefined x_random X_ieee _ x_unit_interval lp ll bl RG drawn interrupts s H) as I.
    pose proof I as [Pp _ [A _] _ _].
    destruct (reweight_rows_trim W x_undefined lp ll bl drawn fuel s s1 I H1) as (EH & NE & idx & c1 & Hc1 & G & w0 & neff & w1 & w2 & lf & Q1 & Q2 & Q3 & Q4 & F1 & F2).
    destruct (flat_rows _ _ _ A) as (FR & FB & _). destruct (gathered_rows _ _ _ _ FR G) as (Y1 & Y2 & Y3). pose proof (gathered_positions _ _ _ _ FR G) as GP. rewrite <- all_rows in GP by exact A.
    assert (S1 : exists b, cu_beta c1 = Fin b).
    { pose proof H1 as H1'. apply reweight_facts in H1' as (c & beta & logz & ess & w0' & neff' & w1' & idx' & w2' & lf' & u & x & ldj & logl & logp & b & cn & _ & Hb & _ & _ & _ & _ & _ & _ & _ & _ & _ & -> & ->).
      cbn [s_current] in Hc1. injection Hc1 as <-. cbn [cu_beta].
      destruct (exact_past W lp ll bl RG drawn HN HI interrupts s H NE) as (ls & bs & zs & HH & B01 & _).
      destruct (next_beta_sound _ ls bs zs HH fuel _ (IZR (s_n_effective s)) beta logz ess Hb) as (rest & b0 & b' & E1 & -> & _). eauto. }
    destruct S1 as (beta & Eb).
    destruct (weights_finite W lp ll bl RG drawn HN HI interrupts s beta H NE) as (ls & bs & zs & w & HH & Ew0 & P1 & P2 & LW & w0' & Ew & En).
    rewrite Eb in Q1. rewrite Ew in Q1. apply Ok_inj in Q1. subst w0'.
    destruct (adjust_exact (s_cfg s) (s_n_effective s) w _ (effective_nonneg W lp ll bl RG drawn HN HI interrupts s H) (active_pos W lp ll bl RG drawn HN HI interrupts s H NE) P1 P2 eq_refl) as (n' & Ea & _).
    change (@normalise X (@numT_Num X XNumT) w0) with (@normalise X XNum w0) in Q2. rewrite En in Q2.
    rewrite <- total_Rsum in *. set (p := map (fun x => x / total w) w) in *.
    assert (Q' : Ok (neff, w1) = Ok (n', map Fin p)) by (rewrite <- Q2; exact Ea). apply Ok_inj in Q'. injection Q' as _ ->.
    assert (EP : p = weights_of bs zs beta (concat ls)) by (unfold p, weights_of; now rewrite Ew0).
    assert (PP : Forall (fun x => 0 < x) p) by (apply Forall_map; eapply Forall_impl; [|exact P1]; cbv beta; intros y Hy; apply Rdiv_lt_0_compat; lra).
    assert (NN : Forall (fun x => 0 <= x) p) by (eapply Forall_impl; [|exact PP]; cbv beta; intros; lra).
    assert (TP : total p = 1) by (unfold p; rewrite !total_Rsum in *; now apply Rsum_norm).
    rewrite map_length in Q3.
    destruct (trim_weights_ok (seq 0 (length p)) p (99 / 100) 1000 NN ltac:(lra)) as (j & tau & Hj & PC & TW & K1 & K2 & K3); [apply seq_length|lia|lra|].
    assert (Ep : map (fun w => w / total p) p = p). { rewrite TP. transitivity (map (fun x : R => x) p); [|apply map_id]. apply map_ext. intros; field. }
    rewrite Ep in *. destruct (kept_positions p (Rleb tau)) as (J1 & J2 & J3).
    change (@nfrac X (@numT_Num X XNumT) 99 100) with (@nfrac X XNum 99 100) in Q3. rewrite frac_fin in Q3 by lra.
    set (kidx := map fst (filter (fun sw => Rleb tau (snd sw)) (combine (seq 0 (length p)) p))) in *.
    set (kw := map snd (filter (fun sw => Rleb tau (snd sw)) (combine (seq 0 (length p)) p))) in *.
    assert (Q5 : Ok (idx, w2, lf) = Ok (kidx, map Fin (map (fun w => w / total kw) kw), map Fin p)) by (rewrite <- Q3; exact TW).
    apply Ok_inj in Q5. injection Q5 as Ei -> _. subst idx.
    assert (Lp : length p = length (concat ls)) by (rewrite EP; unfold weights_of; now rewrite !map_length).
    destruct (all_flat s _ A) as (_ & EL0 & _ & _ & Lall).
    assert (EL : map pt_logl (all_particles s) = map Fin (concat ls)). { rewrite <- EL0. destruct HH as (-> & _). symmetry. exact (concat_map Fin ls). }
    set (remain := rows_of (current_arrays c1) (length kidx)) in *.
    destruct (positions_of (concat ls) kidx) as [l HL]; [intros i Hi; rewrite <- Lp; now apply J3|].
    assert (El : map pt_logl remain = map Fin l). { apply (at_positions_fun (map pt_logl (all_particles s)) kidx); [now apply at_positions_image|]. rewrite EL. now apply at_positions_image. }
    set (v := map (balance_weight bs zs beta) (concat ls)) in *.
    assert (Wv : w = v) by (rewrite Ew0; reflexivity).
    assert (Ekw : kw = map (fun x => x / total v) (map (balance_weight bs zs beta) l)). { apply (at_positions_fun p kidx); [exact J1|]. unfold p. rewrite Wv. unfold v. now apply at_positions_image, at_positions_image. }
    assert (Lne : l <> []). { intros ->. rewrite Ekw in K1. cbn in K1. lra. }
    assert (Hl : Forall (fun x => 0 < x) (map (balance_weight bs zs beta) l)).
    { apply Forall_map, Forall_forall. intros x Hx. rewrite Wv in P1. rewrite Forall_forall in P1. apply P1. unfold v. apply in_map.
      clear -HL Hx. induction HL as [|i b idx l E HL IH]; [easy|]. destruct Hx as [<-|Hx]; [|auto]. now apply nth_error_In in E. }
    assert (Vl : 0 < total (map (balance_weight bs zs beta) l)) by (apply total_positive; [exact Hl|destruct l; [easy|discriminate]]).
    assert (Enw : map (fun w => w / total kw) kw = weights_of bs zs beta l) by (rewrite Ekw; unfold weights_of; apply renormalised; [now rewrite <- Wv|exact Vl]).
    assert (Lr : length kidx = length remain) by (unfold remain; now rewrite rows_length).
    assert (Lq : length (weights_of bs zs beta l) = length remain) by (unfold weights_of; rewrite !map_length; rewrite <- (map_length Fin l), <- El; apply map_length).
    exists c1, beta, remain, (weights_of bs zs beta l). split; [exact Hc1|]. split; [exact Eb|]. split.
    { exists ls, bs, zs, kidx, l, j, tau. rewrite <- EP. split; [exact HH|]. split; [exact EL|]. split; [exact GP|]. split; [exact J2|]. split; [exact El|]. split; [reflexivity|]. cbv zeta.
      split; [intros i; rewrite J3; split; intros [Z1 Z2]; (split; [exact Z1|]); now apply Rleb_true|]. split; [exact Hj|]. split; [exact PC|].
      split; [|exact K3]. rewrite <- Enw. rewrite !kish_essR in *. rewrite total_Rsum in K1 |- *. rewrite essR_normalised by exact K1. apply K2. }
    split; [unfold weights_of; apply Forall_map; eapply Forall_impl; [|exact Hl]; cbv beta; intros x Hx; now apply Rdiv_lt_0_compat|].
    split; [unfold weights_of; rewrite total_Rsum in Vl; rewrite !total_Rsum; now apply Rsum_norm|].
    split; [exact Lq|]. split; [now rewrite <- Enw|]. rewrite <- Lr. split; [exact Y1|reflexivity].
  Qed.

  Theorem selection fuel R0 s s1 s2 s3 : reachable s -> reweight fuel s = Ok s1 -> train W R0 s1 = Ok s2 -> resample R0 s2 = Ok s3 ->
    exists c3 b remain q again, s_current s3 = Some c3 /\ cu_beta c3 = Fin b /\ remaining s b remain q /\ rectangular (current_arrays c3) (c_n_active (s_cfg s)) /\
      at_positions remain again (rows_of (current_arrays c3) (c_n_active (s_cfg s))) /\
      forall uniform offset, resampling_draws R0 (s_t s3) uniform offset -> picks (c_resample (s_cfg s)) uniform offset (c_n_active (s_cfg s)) q again.
  Proof.
    intros H H1 H2 H3. destruct (reweighted fuel s s1 H H1) as (c1 & b & remain & q & Hc1 & Eb & RM & PQ & TQ & LQ & Ew & Y1 & ER).
    pose proof (reachable_pinv W x_undefined x_random X_ieee _ x_unit_interval lp ll bl RG drawn interrupts s H) as I. pose proof I as [Pp _ [A _] _ _].
    destruct (reweight_rows_trim W x_undefined lp ll bl drawn fuel s s1 I H1) as (EH & NE & idx & c1' & Hc1' & G & _ & _ & _ & _ & _ & _ & _ & _ & _ & F1 & F2). rewrite Hc1 in Hc1'. injection Hc1' as <-.
    destruct (flat_rows _ _ _ A) as (FR & FB & _). destruct (gathered_rows _ _ _ _ FR G) as (_ & Y2 & _).
    pose proof (active_pos W lp ll bl RG drawn HN HI interrupts s H NE) as NA.
    apply train_facts in H2 as (c2' & now & fl & un & ug & tg & Ec & _ & _ & Es2). rewrite Hc1 in Ec. injection Ec as <-.
    assert (C2 : s_current s2 = Some c1) by now rewrite Es2. assert (F3 : s_cfg s2 = s_cfg s) by (rewrite Es2; exact F1).
    assert (F4 : s_have_blobs s2 = with_blobs bl s) by (rewrite Es2; cbn [s_have_blobs]; congruence).
    assert (WB : with_blobs bl s2 = with_blobs bl s) by (unfold with_blobs; now rewrite F3).
    apply resample_facts in H3 as (c' & w3 & again & u3 & x3 & ldj3 & logl3 & logp3 & b3 & Ec & Ew3 & EI & G1 & G2 & G3 & G4 & G5 & G6 & Es3).
    rewrite C2 in Ec. injection Ec as <-. rewrite Ew in Ew3. injection Ew3 as <-.
    assert (HC3 : exists c3, s_current s3 = Some c3 /\ cu_beta c3 = cu_beta c1 /\ gathered (current_arrays c1) again (current_arrays c3)).
    { rewrite Es3. eexists. split; [reflexivity|]. split; [reflexivity|]. unfold gathered, current_arrays. cbn [w_u w_x w_logdetj w_logl w_logp w_blobs cu_u cu_x cu_logdetj cu_logl cu_logp cu_blobs].
      repeat (split; [assumption|]). assert (HB : has_blobs (current_arrays c1) = with_blobs bl s) by congruence. unfold has_blobs, current_arrays in HB. cbn [w_blobs] in HB. rewrite F4 in G6. destruct (with_blobs bl s).
      - destruct G6 as (b0 & b' & -> & -> & G6). exact G6.
      - subst b3. destruct (cu_blobs c1); [discriminate|exact Logic.I]. }
    destruct HC3 as (c3 & Hc3 & Eb3 & GA). pose proof (resample_length R0 s2 (map Fin q) again EI) as L3. rewrite F3 in L3.
    destruct (gathered_rows _ _ _ _ Y1 GA) as (Z1 & _ & _). rewrite L3 in Z1. pose proof (gathered_positions _ _ _ _ Y1 GA) as GP. rewrite L3, <- ER in GP.
    exists c3, b, remain, q, again. split; [exact Hc3|]. split; [congruence|]. split; [exact RM|]. split; [exact Z1|]. split; [exact GP|].
    assert (Et : s_t s3 = s_t s2) by now rewrite Es3. intros uniform offset (D1 & D2 & D3). rewrite Et in D1, D2.
    unfold resample_indices in EI. rewrite F3 in EI. destruct (c_resample (s_cfg s)).
    - apply (picked_mult uniform offset (c_n_active (s_cfg s)) q again PQ TQ (fun k => proj2 (D1 k))).
      rewrite (map_ext (fun k => Fin (uniform k)) (ir_uniform (rn_iter R0 (s_t s2)))) by (intros k; symmetry; apply D1). exact EI.
    - apply (picked_syst uniform offset (c_n_active (s_cfg s)) q again PQ TQ D3); [lia|]. rewrite <- D2. exact EI.
  Qed.
End Select.

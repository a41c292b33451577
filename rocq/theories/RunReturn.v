(** * A run raises nothing *)
From Coq Require Import Reals ZArith List Bool Lia Lra.
From Coq Require Import List.
From Verif Require Import Num PyBase PyBaseFacts XReal Tools Scaler SpecScaler ScalerFacts ScalerSpecFacts ScalerFitFacts Particles SpecParticles LogLike LogLikeFacts Geometry SpecGeometry
  Mcmc SpecMcmc SpecBalance SpecChain Flow Sampler XUnit ConfigFacts SpecReach SamplerFacts Reach SpecRun McmcNum ParticleInv HistoryFacts SpecExact HistoryExact SpecEss BisectFacts FiniteHistory LoopFacts LoopExact TraceFacts WarmFacts EvidenceFacts
  SpecPosterior PosteriorExact SpecIterate IterateFacts IterateFit IterateTotal SpecLater IterateLater SpecReturn ReturnFacts SpecTrainReturn SpecFlowReturn FlowReturn SpecLoopReturn LoopReturn SpecRunReturn.
Import ListNotations.
Set Bullet Behavior "Strict Subproofs".
Local Open Scope R_scope.

Lemma bind_total {A B} (m : res A) (k : A -> res B) : (exists v, m = Ok v /\ exists r, k v = Ok r) -> exists r, bind m k = Ok r.
Proof. intros (v & -> & r & E). now exists r. Qed.

Section Run.
  Context {C P Opt : Type}.
  Variable W : world X C P Opt.
  Variable lp ll : vec X -> X.
  Variable bl : option (vec X -> list C).
  Variable rows : list (X * X).
  Hypothesis EM : exact_model W lp ll bl rows.
  Variable interrupts : bool.
  Variable rnd : rand X C P.
  Hypothesis HR : exact_draws rows rnd.
  Hypothesis RT : returning W lp bl.
  Notation reachable := (reachable W (exact_draws rows) interrupts).
  Implicit Types s : sampler X C P.
  Notation d := (length rows).
  Let RG := em_regular _ _ _ _ _ EM.
  Let HN : forall x, strictly_inside rows x -> ll x <> NaN.
  Proof. intros x Hx E. destruct (em_inside _ _ _ _ _ EM x Hx) as [_ Q]. rewrite E in Q. discriminate. Qed.

  Lemma likelihood_total s xs : maps (s_pool s) -> exists b, sampler_like W s xs = Ok (map ll xs, b) /\ (xs <> [] -> blobs_of (s_cfg s) bl <> None -> b <> None) /\ (b <> None -> blobs_of (s_cfg s) bl <> None) /\
    (forall l, b = Some l -> length l = length xs).
  Proof.
    intros HM. assert (Q : exists r, sampler_like W s xs = Ok r).
    { unfold sampler_like, log_like. destruct (c_vectorize (s_cfg s)); [eauto|].
      assert (E : exists r, split_results (map (wd_like W) xs) = Ok r).
      { pose proof (rg_like _ _ _ _ RG) as G. destruct bl as [f|].
        - destruct xs as [|x xs]; [cbn; eauto|]. rewrite (map_ext _ (fun x => RTuple (ll x) (f x))) by (intros; apply G).
          rewrite split_tuple; [eauto|intros; apply G|discriminate].
        - assert (Hm : mapM as_float (map (wd_like W) xs) = Ok (map ll xs)).
          { induction xs as [|x xs IH]; [reflexivity|]. cbn [map mapM]. destruct (G x) as [-> | ->]; cbn [as_float bind]; rewrite IH; reflexivity. }
          assert (Hf : flat_map blob_of (map (wd_like W) xs) = []).
          { clear Hm. induction xs as [|x xs IH]; [reflexivity|]. cbn [map flat_map]. rewrite IH. now destruct (G x) as [-> | ->]. }
          unfold split_results. rewrite Hf, Hm. cbn [bind]. destruct (existsb _ _); eauto. }
      destruct E as [r E]. exists r. destruct (s_pool s) as [m|]; [|exact E]. now rewrite (HM (wd_like W) xs). }
    destruct Q as [[l b] Q]. pose proof (like_facts W lp ll bl RG s xs l b HM Q) as [-> Eb]. exists b. split; [exact Q|]. subst b.
    destruct xs as [|x xs], (blobs_of (s_cfg s) bl) as [f|]; repeat split; try discriminate; try easy. intros l [= <-]. cbn. now rewrite map_length.
  Qed.

  Lemma batch_total s i ps : reachable s -> exact_sampler rows s -> s_prior_samples s = Some ps -> (i < n_batches (s_cfg s))%nat ->
    (s_have_blobs s = true -> blobs_of (s_cfg s) bl <> None) -> (exists x, In x (slice i (c_n_active (s_cfg s)) ps) /\ nisinf (ll x) = false) ->
    exists s', warmup_batch W rnd i s = Ok s' /\ (s_have_blobs s' = true -> blobs_of (s_cfg s') bl <> None).
  Proof.
    intros H [E1 E2 E3 E4 E5] Eps Hi HB (x0 & Hx0 & Lx0).
    pose proof (reachable_pinv W x_undefined x_random X_ieee _ x_unit_interval lp ll bl RG (strictly_inside rows) interrupts s (weaken W interrupts rows s H)) as [Pm Pp _ _ _]. rewrite Eps in Pp. destruct Pp as [Lps Dps].
    destruct (exact_scaler W interrupts rows (em_bounds _ _ _ _ _ EM) (em_admissible _ _ _ _ _ EM) s H E1 (em_junk _ _ _ _ _ EM) E2) as [SC SD]; [rewrite Eps; discriminate|].
    set (n := c_n_active (s_cfg s)) in *. set (x := slice i n ps) in *.
    assert (Lx : length x = n) by (apply (slice_length i n ps (c_n_prior (s_cfg s))); [exact Lps|exact Hi]).
    assert (Dx : Forall (strictly_inside rows) x) by (apply Forall_forall; intros y Hy; rewrite Forall_forall in Dps; apply Dps; now apply slice_in in Hy).
    destruct (insides rows x Dx) as (xs & Ex & HX).
    pose proof (em_junk _ _ _ _ _ EM) as HJ.
    destruct (inverse_of_forward (s_scaler s) d rows (wd_junk W) (wd_junk W) xs true SC (diagonal_scaling_ok _ _ SD) HJ HJ HX) as (us & lds & V1 & V2). rewrite <- Ex in V1, V2.
    pose proof (rt_prior _ _ _ RT x) as V3. destruct (likelihood_total s x Pm) as (b & V4 & B1 & B2 & B3).
    assert (Lu : length us = n).
    { unfold forward in V1. apply bind_ok in V1 as [? [_ V1]]. apply mapM_length in V1. rewrite map_length in V1. congruence. }
    assert (Ll : length lds = n).
    { unfold inverse in V2. apply bind_ok in V2 as [z [V2 Q]]. apply mapM_length in V2. rewrite map_length in V2. apply Ok_inj in Q. injection Q as _ <-. rewrite map_length. congruence. }
    set (mask := map nisinf (map ll x)).
    set (fin := true_positions 0 (map negb mask)). set (inf := true_positions 0 mask).
    assert (Hfin : fin <> []).
    { apply (In_nth x x0 []) in Hx0 as (k & Hk & Ek). assert (Q : In k fin); [|intros E; rewrite E in Q; destruct Q].
      apply in_true_positions. split; [lia|]. rewrite Nat.sub_0_r. unfold mask. rewrite !map_map. rewrite (nth_indep _ false (negb (nisinf (ll [])))) by now rewrite map_length.
      rewrite (map_nth (fun x => negb (nisinf (ll x)))), Ek, Lx0. reflexivity. }
    assert (HF : forall k, In k fin -> (k < n)%nat).
    { intros k Hk. apply in_true_positions in Hk as [_ Hk]. rewrite Nat.sub_0_r in Hk. destruct (Nat.lt_ge_cases k n) as [Q|Q]; [exact Q|].
      rewrite nth_overflow in Hk; [discriminate|]. unfold mask. rewrite !map_length. lia. }
    assert (CF : exists idx, choose_finite (rn_pick rnd (s_t s)) fin (length inf) = Ok idx /\ forall k, In k idx -> (k < n)%nat).
    { unfold choose_finite. destruct fin as [|f0 fs] eqn:Ef; [easy|]. rewrite <- Ef in *. eexists. split; [reflexivity|].
      intros k Hk. apply in_map_iff in Hk as (j & <- & _). apply HF. apply nth_In. apply Nat.mod_upper_bound. now rewrite Ef. }
    destruct CF as (idx & CF & HI).
    assert (RR : forall A (a : list A), length a = n -> exists v, replace_rows inf idx a = Ok v).
    { intros A a La. unfold replace_rows. destruct (PosteriorExact.gather_total a idx) as (v & Ev & _); [intros k Hk; rewrite La; now apply HI|]. exists (put inf v a). now rewrite Ev. }
    destruct (RR _ x Lx) as [x' Q1]. destruct (RR _ (map (map Fin) us) ltac:(now rewrite map_length)) as [u' Q2]. destruct (RR _ lds Ll) as [l' Q3].
    destruct (RR _ (map lp x) ltac:(now rewrite map_length)) as [p' Q4]. destruct (RR _ (map ll x) ltac:(now rewrite map_length)) as [ll' Q5].
    assert (HA : after_like s b = true -> b <> None).
    { unfold after_like. destruct b; [discriminate|]. intros Q. apply B1; [|now apply HB]. intros E. rewrite E in Hx0. destruct Hx0. }
    assert (HA2 : after_like s b = true -> blobs_of (s_cfg s) bl <> None).
    { unfold after_like. destruct b; [intros _; apply B2; discriminate|exact HB]. }
    assert (BB : exists b', (if after_like s b then let! b0 := of_option TypeError b in let! b0 := replace_rows inf idx b0 in Ok (Some b0) else Ok b) = Ok b').
    { destruct (after_like s b); [|eauto]. destruct b as [b0|]; [|now specialize (HA eq_refl)]. cbn [of_option bind]. destruct (RR _ b0) as [b1 Q6]; [rewrite (B3 b0 eq_refl); exact Lx|]. rewrite Q6. cbn [bind]. eauto. }
    destruct BB as [b' BB].
    assert (RS : exists s', warmup_batch W rnd i s = Ok s').
    { unfold warmup_batch. rewrite Eps. cbn [of_option bind]. fold n x. apply bind_total. eexists. split; [exact V1|]. apply bind_total. eexists. split; [exact V2|]. cbv beta iota.
      apply bind_total. eexists. split; [exact V3|]. apply bind_total. eexists. split; [exact V4|]. cbv beta iota zeta. fold mask. fold fin. fold inf.
      apply bind_total. match goal with |- exists v, (if ?e then _ else _) = _ /\ _ => destruct e end.
      - exists (x', u', l', p', ll', b'). split; [|cbv beta iota; eexists; reflexivity].
        refine (eq_trans (f_equal (fun m => bind m _) CF) _). cbn [bind].
        refine (eq_trans (f_equal (fun m => bind m _) Q1) _). cbn [bind]. refine (eq_trans (f_equal (fun m => bind m _) Q2) _). cbn [bind]. refine (eq_trans (f_equal (fun m => bind m _) Q3) _). cbn [bind].
        refine (eq_trans (f_equal (fun m => bind m _) Q4) _). cbn [bind]. refine (eq_trans (f_equal (fun m => bind m _) Q5) _). cbn [bind]. refine (eq_trans (f_equal (fun m => bind m _) BB) _). cbn [bind]. reflexivity.
      - eexists. split; [reflexivity|]. cbv beta iota. eexists. reflexivity. }
    destruct RS as [s' RS]. exists s'. split; [exact RS|].
    apply warmup_facts in RS as (ps' & y0 & u0 & xi & ldj0 & logp0 & logl0 & b0 & y & u & ldj & logp & logl & b2 & c & W1 & -> & _ & _ & _ & W2 & _ & _ & ->). cbn [s_have_blobs s_cfg].
    rewrite Eps in W1. injection W1 as <-. fold n x in W2. assert (b0 = b) as -> by congruence. exact HA2.
  Qed.

  Lemma checkpoint_total save t0 s : save <> Some 0%Z -> exists evs, checkpoint save t0 s = (evs, Ok s).
  Proof. intros SV. unfold checkpoint. destruct save as [z|]; [|eauto]. destruct (z =? 0)%Z eqn:Z0; [apply Z.eqb_eq in Z0; congruence|]. destruct (_ && _)%bool; eauto. Qed.

  Lemma batches_total save t0 : save <> Some 0%Z -> forall k i s ps, reachable s -> exact_sampler rows s -> s_warmup s = true -> s_prior_samples s = Some ps -> (i + k <= n_batches (s_cfg s))%nat ->
    (s_have_blobs s = true -> blobs_of (s_cfg s) bl <> None) -> (forall j, (i <= j < i + k)%nat -> exists x, In x (slice j (c_n_active (s_cfg s)) ps) /\ nisinf (ll x) = false) ->
    exists s', snd (warmup_loop W save t0 rnd i k s) = Ok s' /\ (s_have_blobs s' = true -> blobs_of (s_cfg s') bl <> None) /\ iterations (history_of s') = (iterations (history_of s) + k)%nat.
  Proof.
    intros SV. induction k as [|k IH]; intros i s ps H ES Hw Eps Hk HB HL; cbn [warmup_loop]; [exists s; cbn; split; [reflexivity|]; split; [exact HB|lia]|].
    destruct (checkpoint_total save t0 s SV) as [evs ->]. cbn [tbind].
    destruct (batch_total s i ps H ES Eps ltac:(lia) HB (HL i ltac:(lia))) as (s1 & H1 & HB1).
    assert (R1 : reachable s1) by (eapply rc_batch; [exact H|exact HR|exact Hw| |exact H1]; lia).
    pose proof (batch_frame _ _ _ _ _ H1) as (F1 & F2 & F3). pose proof (batch_count _ _ _ _ _ H1) as (_ & _ & _ & F4 & _).
    pose proof (reachable_pinv W x_undefined x_random X_ieee _ x_unit_interval lp ll bl RG (strictly_inside rows) interrupts s (weaken W interrupts rows s H)) as [_ Pp _ _ _]. rewrite Eps in Pp. destruct Pp as [Lps _].
    assert (EP : exists new, s_prior_samples s1 = Some (set_slice i (c_n_active (s_cfg s)) new ps) /\ length new = c_n_active (s_cfg s)).
    { pose proof (reachable_pinv W x_undefined x_random X_ieee _ x_unit_interval lp ll bl RG (strictly_inside rows) interrupts s1 (weaken W interrupts rows s1 R1)) as [_ Pp _ _ _].
      pose proof H1 as Q. apply warmup_facts in Q as (ps' & y0 & u0 & xi & ldj0 & logp0 & logl0 & b0 & y & u & ldj & logp & logl & b2 & c & W1 & _ & _ & _ & _ & _ & _ & _ & E1).
      rewrite Eps in W1. injection W1 as <-. assert (E2 : s_prior_samples s1 = Some (set_slice i (c_n_active (s_cfg s)) y ps)) by now rewrite E1. exists y. split; [exact E2|].
      rewrite E2, F1 in Pp. destruct Pp as [Pp _]. unfold set_slice in Pp. rewrite !app_length, firstn_length, skipn_length in Pp. 
      assert (Q : ((i + 1) * c_n_active (s_cfg s) <= c_n_prior (s_cfg s))%nat).
      { unfold n_batches in Hk. destruct (Nat.eq_dec (c_n_active (s_cfg s)) 0) as [E|NE]; [rewrite E in Hk; cbn in Hk; lia|].
        pose proof (Nat.mul_div_le (c_n_prior (s_cfg s)) (c_n_active (s_cfg s)) NE) as Q. nia. }
      rewrite Lps in Pp. lia. }
    destruct EP as (new & EP & Lnew).
    destruct (IH (S i) s1 _ R1 ltac:(destruct ES as [A1 A2 A3 A4 A5]; constructor; rewrite ?F1, ?F3; assumption) ltac:(congruence) EP) as (s' & Q1 & Q2 & Q3); [rewrite F1; lia|exact HB1| |].
    - intros j Hj. rewrite F1. destruct (HL j ltac:(lia)) as (x & Hx & Lx). exists x. split; [|exact Lx]. unfold n_batches in Hk.
      rewrite (slice_set_other i j _ new ps (c_n_prior (s_cfg s))); auto; lia.
    - exists s'. rewrite H1. unfold lift at 1. unfold tbind at 1. destruct (warmup_loop W save t0 rnd (S i) k s1) as [ev r]. cbn [snd fst tbind app] in *. split; [exact Q1|]. split; [exact Q2|]. rewrite Q3, F4. lia.
  Qed.

  Lemma warm_total n_total n_evidence save s : save <> Some 0%Z -> reachable s -> exact_sampler rows s -> s_warmup s = true -> s_prior_samples s = None -> (s_have_blobs s = true -> blobs_of (s_cfg s) bl <> None) -> good_prior rnd ll s ->
    exists s0, warmed W rnd n_total n_evidence save s s0 /\ reachable s0 /\ exact_sampler rows s0 /\ s_warmup s0 = false /\ iterations (history_of s0) <> 0%nat /\ s_n_total s0 = Some n_total /\ s_n_evidence s0 = Some n_evidence /\
      s_cfg s0 = s_cfg s /\ s_untrained s0 = s_untrained s /\ (s_have_blobs s0 = true -> blobs_of (s_cfg s0) bl <> None).
  Proof.
    intros SV H ES Hw Eps HB [[Hn1 Hn2] (ps & Hps & HL)]. pose proof ES as [A1 A2 A3 A4 A5].
    pose proof (rc_targets W (exact_draws rows) interrupts n_total n_evidence s H) as R0.
    destruct (reachable_scaler W _ interrupts s H) as (per & refl & tr & r0 & I1 & _ & I3 & _). specialize (I3 Eps).
    assert (C0 : constructed r0 d rows).
    { split; [reflexivity|]. split; [exact (em_admissible _ _ _ _ _ EM)|]. exists (wd_to_f32 W), per, refl, tr, true, true, r0. rewrite <- A1 at 1. rewrite <- (em_bounds _ _ _ _ _ EM). now repeat split. }
    assert (D : diagonal r0 = true).
    { unfold init_reparam in I1. do 3 (apply bind_ok in I1 as [? [_ I1]]). apply Ok_inj in I1. now subst r0. }
    destruct HR as [GD _]. destruct (insides rows ps) as (xs & Ex & HX); [eapply gd_drawn; eauto|].
    pose proof (gd_size _ _ _ GD _ _ Hps) as Lps.
    destruct (fit_result (wd_linalg W) r0 d rows (wd_junk W) xs C0 D (em_junk _ _ _ _ _ EM)) as (r' & F1 & _); [intros ->; rewrite Ex in Lps; cbn in Lps; lia|exact HX|].
    rewrite <- Ex in F1.
    assert (DR : exists s1, draw_prior W rnd (set_targets n_total n_evidence s) = Ok s1).
    { unfold draw_prior. change (s_prior_samples (set_targets n_total n_evidence s)) with (s_prior_samples s). rewrite Eps. change (s_cfg (set_targets n_total n_evidence s)) with (s_cfg s).
      change (s_scaler (set_targets n_total n_evidence s)) with (s_scaler s). rewrite I3.
      apply bind_total. eexists. split; [exact Hps|]. apply bind_total. eexists. split; [exact F1|]. eexists. reflexivity. }
    destruct DR as [s1 DR]. assert (R1 : reachable s1) by (eapply rc_prior; [exact R0|exact HR|exact DR]).
    assert (S1 : s_cfg s1 = s_cfg s /\ s_warmup s1 = true /\ s_prior_samples s1 = Some ps /\ s_have_blobs s1 = s_have_blobs s /\ s_n_total s1 = Some n_total /\ s_n_evidence s1 = Some n_evidence /\ s_untrained s1 = s_untrained s /\ exact_sampler rows s1).
    { pose proof DR as Q. apply draw_facts in Q as [[Q _]|[_ (ps' & sc & Q1 & Q2 & ->)]]; [now destruct Q|]. change (s_cfg (set_targets n_total n_evidence s)) with (s_cfg s) in Q1. rewrite Hps in Q1. apply Ok_inj in Q1. subst ps'.
      apply fit_indices in Q2 as [Q3 Q4]. repeat (split; [assumption || reflexivity|]). constructor; cbn [s_cfg s_scaler set_targets]; try assumption; [now rewrite Q3|now rewrite Q4]. }
    destruct S1 as (C1 & W1 & P1 & B1 & T1 & E1 & U1 & X1).
    destruct (batches_total save (s_t s) SV (n_batches (s_cfg s1)) 0 s1 ps R1 X1 W1 P1) as (s2 & L1 & L2 & L3); [lia|rewrite B1, C1; exact HB| |].
    { intros j Hj. rewrite C1 in *. set (n := c_n_active (s_cfg s)) in *.
      assert (Hjn : ((j + 1) * n <= length ps)%nat).
      { rewrite Lps. unfold n_batches in Hj. fold n in Hj. pose proof (Nat.mul_div_le (c_n_prior (s_cfg s)) n ltac:(lia)) as Q. nia. }
      destruct (HL j Hjn) as (k & x & Hk & Ek & Lx). exists x. split; [|exact Lx].
      unfold slice. apply nth_error_In with (k - j * n)%nat.
      rewrite <- Ek. replace k with (j * n + (k - j * n))%nat at 2 by lia.
      clear -Hk Hn1. assert (Q : (k - j * n < n)%nat) by lia. set (m := (k - j * n)%nat) in *. clearbody m. clear Hk.
      rewrite <- (firstn_skipn (j * n) ps) at 2.
      revert ps. generalize (j * n)%nat as a. intros a ps. 
      transitivity (nth_error (skipn a ps) m).
      - revert m Q. generalize (skipn a ps) as l. generalize n as n'. induction n' as [|n' IH]; intros l [|m] Q; try lia; destruct l as [|y l]; cbn; auto. apply IH. lia.
      - rewrite firstn_skipn. revert ps. induction a as [|a IH]; intros [|y ps]; cbn; auto. now destruct m. }
    assert (WU : snd (warmup W save (s_t s) rnd s1) = Ok (end_warmup s2)).
    { unfold warmup. rewrite W1, C1. replace (Nat.eqb (c_n_active (s_cfg s)) 0) with false by (symmetry; apply Nat.eqb_neq; lia). rewrite C1 in L1.
      destruct (warmup_loop W save (s_t s) rnd 0 (n_batches (s_cfg s)) s1) as [ev r]. cbn [snd] in L1. subst r. reflexivity. }
    destruct (warmup_reachable W (exact_draws rows) interrupts save (s_t s) rnd s1 R1 HR) as [_ R2]. destruct (R2 _ WU) as [R3 W3].
    destruct (warmed_up W rnd save (s_t s) s1 (end_warmup s2) WU W1) as (U2 & C2 & S2 & _ & _).
    exists (end_warmup s2). split; [exists s1; split; [exact DR|exact WU]|]. split; [exact R3|].
    split; [destruct X1; constructor; rewrite ?C2, ?S2; assumption|]. split; [exact W3|]. split.
    { change (iterations (history_of (end_warmup s2))) with (iterations (history_of s2)). rewrite L3. unfold n_batches. rewrite C1. 
      pose proof (Nat.div_str_pos (c_n_prior (s_cfg s)) (c_n_active (s_cfg s)) ltac:(lia)). lia. }
    split; [rewrite (warmup_total _ _ _ _ _ _ WU); exact T1|]. split; [rewrite (warmup_targets _ _ _ _ _ _ WU); exact E1|]. split; [congruence|]. split; [congruence|]. exact L2.
  Qed.

  Lemma evidence_total s n_evidence : reachable s -> exact_sampler rows s -> iterations (history_of s) <> 0%nat -> s_n_evidence s = Some n_evidence -> (c_preconditioned (s_cfg s) = true -> flow_samples rnd d) ->
    exists s', final_evidence W rnd s = Ok s'.
  Proof.
    intros H [E1 E2 E3 E4 E5] NE EN HF. unfold final_evidence. rewrite EN. cbn [of_option bind].
    pose proof (reachable_pinv W x_undefined x_random X_ieee _ x_unit_interval lp ll bl RG (strictly_inside rows) interrupts s (weaken W interrupts rows s H)) as [Pm Pp _ _ _].
    assert (HS : s_prior_samples s <> None) by (intros E; rewrite E in Pp; rewrite Pp in NE; now apply NE).
    destruct ((0 <? n_evidence)%Z && c_preconditioned (s_cfg s))%bool eqn:EF.
    - apply andb_true_iff in EF as [_ EF]. destruct (HF EF (s_flow s) (Z.to_nat n_evidence)) as (ths & Q1 & Q2). unfold compute_evidence.
      destruct (rn_flow rnd (s_flow s) (Z.to_nat n_evidence)) as [tq logq]. cbn [fst] in Q1. subst tq.
      destruct (exact_scaler W interrupts rows (em_bounds _ _ _ _ _ EM) (em_admissible _ _ _ _ _ EM) s H E1 (em_junk _ _ _ _ _ EM) E2 HS) as [SC SD].
      destruct (jacobian (s_scaler s) d rows (wd_junk W) ths SC SD (em_junk _ _ _ _ _ EM) Q2) as (g & dd & _ & Q3).
      apply bind_total. eexists. split; [exact Q3|]. cbv beta iota. apply bind_total. eexists. split; [exact (rt_prior _ _ _ RT _)|]. cbv beta iota zeta.
      match goal with |- exists r, bind (sampler_like W s ?xs) _ = _ => destruct (likelihood_total s xs Pm) as (b & Q4 & _) end.
      apply bind_total. eexists. split; [exact Q4|]. cbv beta iota. eexists. reflexivity.
    - destruct (exact_past W lp ll bl RG _ HN (em_bounded _ _ _ _ _ EM) interrupts s (weaken W interrupts rows s H) NE) as (ls & bs & zs & HH & _).
      pose proof (ess_at_fin (history_of s) ls bs zs HH (c_metric (s_cfg s)) 1) as Q. unfold ess_at in Q. apply bind_ok in Q as (rw & Q & _). unfold relative_weights in Q. apply bind_ok in Q as ([lw lz] & Q & _).
      apply bind_total. exists (lw, lz). split; [exact Q|]. cbv beta iota. eexists. reflexivity.
  Qed.

  Theorem run_raises_nothing s n_total n_evidence save n : save <> Some 0%Z -> reachable s -> exact_sampler rows s -> s_warmup s = true -> s_prior_samples s = None -> s_untrained s = true ->
    (s_have_blobs s = true -> blobs_of (s_cfg s) bl <> None) -> good_prior rnd ll s ->
    (c_sample (s_cfg s) = RWMH -> (2 <= d)%nat) ->
    (c_preconditioned (s_cfg s) = true -> c_train_frequency (s_cfg s) <> 0%Z /\ flow_options (c_train (s_cfg s)) /\ (forall s, flow_bijection (kernel_env_of W s) d) /\ flow_samples rnd d) ->
    good_solve d (wd_fit W) -> good_bisect (wd_fit W) -> total_fit d (wd_fit W) -> good_linalg d (wd_linalg W) -> total_linalg d (wd_linalg W) ->
    (forall s0, warmed W rnd n_total n_evidence save s s0 -> good_loop W rnd d s0) ->
    exists s0 halvings, warmed W rnd n_total n_evidence save s s0 /\ forall bfuel, (halvings <= bfuel)%nat ->
      let outcome := snd (run W {| ra_n_total := n_total; ra_n_evidence := n_evidence; ra_save_every := save; ra_fuel := n; ra_bfuel := bfuel |} rnd s) in
      (exists s', outcome = Ok s') \/ (outcome = Err Diverge /\ gone_through W rnd n s0).
  Proof.
    intros SV H ES Hw Eps Hu HB GP K2 HP GS GB TF GL TL GO.
    destruct (warm_total n_total n_evidence save s SV H ES Hw Eps HB GP) as (s0 & WA & R0 & ES0 & W0 & NE & T0 & E0 & C0 & U0 & B0).
    destruct (loop_raises_nothing W lp ll bl rows EM interrupts rnd s0 n_total HR R0 ES0 W0 NE T0 B0 RT) with (n := n) as [k Hk]; rewrite ?C0; auto.
    { intros Q. destruct (HP Q) as (P1 & P2 & P3 & _). repeat (split; [assumption|]). intros Q'. congruence. }
    exists s0, k. split; [exact WA|]. intros bfuel Hf. cbv zeta. destruct WA as (s1 & WA1 & WA2).
    specialize (Hk bfuel Hf save (s_t s) SV). unfold run, run_from. cbn [ra_n_total ra_n_evidence ra_save_every ra_fuel ra_bfuel].
    rewrite WA1. cbn [lift tbind]. destruct (warmup W save (s_t s) rnd s1) as [ev1 r1]. cbn [snd] in WA2. subst r1. cbn [tbind].
    destruct (smc_loop W n bfuel save (s_t s) rnd s0) as [ev2 r2] eqn:EL. cbn [snd] in Hk.
    destruct Hk as [[s2 ->]|[-> Q]].
    - assert (EL' : snd (smc_loop W n bfuel save (s_t s) rnd s0) = Ok s2) by now rewrite EL.
      assert (L : s2 = s0 \/ later W rnd s0 s2) by (eapply loop_later; eauto).
      destruct (loop_reachable W (exact_draws rows) interrupts n bfuel save (s_t s) rnd s0 R0 HR W0) as [_ R2]. destruct (R2 _ EL') as (R2' & _ & _).
      assert (I2 : exact_sampler rows s2 /\ iterations (history_of s2) <> 0%nat /\ s_cfg s2 = s_cfg s0).
      { destruct L as [->|L]; [auto|]. clear -L ES0 NE. induction L as [f a b _ _ HI|f a b c _ IH _ HI].
        - split; [eapply iteration_sampler; eauto|]. split; [rewrite (proj2 (proj2 (proj2 (iteration_count _ _ _ _ _ HI)))); discriminate|now apply iteration_frame in HI].
        - destruct (IH ES0 NE) as (J1 & J2 & J3). split; [eapply iteration_sampler; eauto|]. split; [rewrite (proj2 (proj2 (proj2 (iteration_count _ _ _ _ _ HI)))); discriminate|]. apply iteration_frame in HI as [-> _]. exact J3. }
      destruct I2 as (I2 & I3 & I4).
      destruct (evidence_total s2 n_evidence R2' I2 I3) as [s3 E3]; [rewrite (loop_targets _ _ _ _ _ _ _ _ EL'); exact E0|rewrite I4, C0; intros Q; now apply HP|].
      left. exists s3. cbn [tbind]. rewrite E3. cbn [lift tbind]. destruct save; reflexivity.
    - right. split; [reflexivity|exact Q].
  Qed.
End Run.

Lemma new_facts {T C P Opt} {NT : NumT T} (W : world T C P Opt) o s : new_sampler W o = Ok s -> s_warmup s = true /\ s_prior_samples s = None /\ s_untrained s = true.
Proof. unfold new_sampler. intros H. do 12 (apply bind_ok in H as [? [_ H]]). apply Ok_inj in H. subst s. auto. Qed.

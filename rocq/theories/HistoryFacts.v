(** * The stored particles *)
From Coq Require Import ZArith String List Bool Lia.
From Verif Require Import Num PyBase PyBaseFacts Tools Scaler ScalerStruct Particles LogLike Geometry Mcmc SpecMcmc McmcFacts Flow Sampler ConfigFacts SpecReach SamplerFacts Reach
  SpecRun BetaFacts RowFacts ParticleInv.
Import ListNotations.
Set Bullet Behavior "Strict Subproofs".
Open Scope list_scope.

Section Mono.
  Context {T C P Opt : Type} {NT : NumT T}.
  Variable W : world T C P Opt.
  Lemma reachable_mono (fair fair' : rand T C P -> Prop) i s : (forall R, fair R -> fair' R) -> reachable W fair i s -> reachable W fair' i s.
  Proof.
    intros F H. induction H.
    - eapply rc_new; eauto.
    - now apply rc_targets.
    - eapply rc_prior; eauto.
    - eapply rc_batch; eauto.
    - now apply rc_end.
    - eapply rc_iteration; eauto.
    - eapply rc_evidence; eauto.
    - now apply rc_results.
    - now apply rc_load.
    - eapply rc_reweighted; eauto.
    - exact (rc_trained W fair' i fuel R s s1 s2 IHreachable (F _ H0) H1 H2 H3 H4).
    - exact (rc_resampled W fair' i fuel R s s1 s2 s3 IHreachable (F _ H0) H1 H2 H3 H4 H5).
    - exact (rc_training W fair' i fuel s s1 c p H IHreachable H1 H2 H3 H4 H5).
  Qed.

  (** ** The scaler *)
  Variable fair : rand T C P -> Prop.
  Variable interrupts : bool.
  (** the scaler is as constructed, or fitted to the prior draws *)
  Definition scaler_origin (s : sampler T C P) : Prop := exists per refl tr r0,
    init_reparam (wd_to_f32 W) (c_n_dim (s_cfg s)) (wd_bounds W) per refl tr true true = Ok r0 /\
    (s_scaler s = r0 \/
     exists R ps, fair R /\ rn_prior R (c_n_prior (s_cfg s)) = Ok ps /\ fit (wd_linalg W) r0 (wd_junk W) ps = Ok (s_scaler s)) /\
    (s_prior_samples s = None -> s_scaler s = r0) /\
    (s_prior_samples s <> None -> exists R ps, fair R /\ rn_prior R (c_n_prior (s_cfg s)) = Ok ps /\ fit (wd_linalg W) r0 (wd_junk W) ps = Ok (s_scaler s)).
  Theorem reachable_scaler s : reachable W fair interrupts s -> scaler_origin s.
  Proof.
    revert s. apply (reach_phases W fair interrupts scaler_origin (fun _ => True) (fun _ => True) (fun _ => True)).
    - intros o s H _. unfold new_sampler in H. do 7 (apply bind_ok in H as [? [? H]]). do 5 (apply bind_ok in H as [? [_ H]]). apply Ok_inj in H. subst s.
      unfold scaler_origin. cbn [s_cfg c_n_dim s_scaler s_prior_samples]. do 4 eexists. split; [eassumption|]. split; [now left|]. split; [reflexivity|]. now intros [].
    - intros n m s I. exact I.
    - intros R s s' I HR H. apply draw_facts in H as [[_ ->]|[En (ps & sc & Hps & Hf & ->)]]; [exact I|].
      destruct I as (per & refl & tr & r0 & I1 & _ & I3 & _). specialize (I3 En). exists per, refl, tr, r0. cbn [s_cfg s_scaler s_prior_samples]. rewrite I3 in Hf.
      assert (E : exists R ps, fair R /\ rn_prior R (c_n_prior (s_cfg s)) = Ok ps /\ fit (wd_linalg W) r0 (wd_junk W) ps = Ok sc) by eauto.
      split; [exact I1|]. split; [now right|]. split; [discriminate|]. intros _. exact E.
    - intros R i s s' I _ _ _ H.
      apply warmup_facts in H as (ps' & x0 & u0 & xi & ldj0 & logp0 & logl0 & b0 & x & u & ldj & logp & logl & b & c & Eps & _ & _ & _ & _ & _ & _ & _ & ->).
      destruct I as (per & refl & tr & r0 & I1 & I2 & I3 & I4). exists per, refl, tr, r0. cbn [s_cfg s_scaler s_prior_samples]. split; [exact I1|]. split; [exact I2|].
      split; [discriminate|]. intros _. apply I4. rewrite Eps. discriminate.
    - intros s I _. exact I.
    - intros fuel s s1 I _ H. split; [|exact Logic.I].
      apply reweight_facts in H as (c & beta & logz & ess & w0 & neff & w1 & idx & w2 & lf & u & x & ldj & logl & logp & b & cn & _ & _ & _ & _ & _ & _ & _ & _ & _ & _ & _ & _ & ->). exact I.
    - intros R s s2 I _ _ H. split; [|exact Logic.I]. apply train_facts in H as (c2' & now & fl & un & ug & tg & _ & _ & _ & ->). exact I.
    - intros R s s3 I _ _ _ H. split; [|exact Logic.I]. apply resample_facts in H as (c' & w3 & idx3 & u3 & x3 & ldj3 & logl3 & logp3 & b3 & _ & _ & _ & _ & _ & _ & _ & _ & _ & ->). exact I.
    - intros R s s4 I _ _ _ H. split; [|exact Logic.I]. apply mutate_facts in H as (c5 & b5 & ks & res & c' & _ & _ & _ & _ & _ & _ & ->). exact I.
    - intros s c I _ _ _. exact I.
    - intros R s s' I _ _ H. apply evidence_facts in H as (n & logz & err & calls & evals & hb & _ & -> & _). exact I.
    - intros s I. unfold results_of. destruct (compute_results (s_particles s)) as [r p]. exact I.
    - intros saved self I _. exact I.
    - intros s p I _ _. exact I.
  Qed.
End Mono.

(** ** Widths *)
Section Width.
  Context {T : Type} {NT : NumT T}.
  Lemma map3'_length {A B C D} (f : A -> B -> C -> D) a b c n : length a = n -> length b = n -> length c = n -> length (map3' f a b c) = n.
  Proof. revert a b c. induction n; intros [|x a] [|y b] [|z c] H1 H2 H3; cbn in *; try lia. rewrite (IHn a b c); lia. Qed.
  Definition same_shape (r r0 : reparam T) : Prop :=
    ndim r = ndim r0 /\ low r = low r0 /\ high r = high r0 /\ mask_none r = mask_none r0 /\ mask_left r = mask_left r0 /\
    mask_right r = mask_right r0 /\ mask_both r = mask_both r0 /\ scale r = scale r0 /\ diagonal r = diagonal r0.
  Lemma fit_shape la r0 junk ps r : fit la r0 junk ps = Ok r -> diagonal r0 = true -> same_shape r r0 /\
    exists u, mapM (forward0_row r0 junk) ps = Ok u /\ mu r = Some (mean_axis0 (ndim r0) u) /\ sigma r = Some (std_axis0 (ndim r0) u).
  Proof.
    unfold fit. intros H D. apply bind_ok in H as [_ [_ H]]. apply bind_ok in H as [u [Hu H]]. rewrite D in H. apply Ok_inj in H. subst r.
    split; [unfold same_shape; cbn; now rewrite D|]. now exists u.
  Qed.
  Lemma same_wf r r0 : same_shape r r0 -> wf r0 -> wf r.
  Proof. unfold same_shape. intros (E1 & E2 & E3 & E4 & E5 & E6 & E7 & _) [A B1 C D E F]. constructor; congruence. Qed.
  (** a scaler fitted to data *)
  Record fitted_diag (r : reparam T) (d : nat) : Prop := {
    fd_wf : wf r; fd_dim : ndim r = d; fd_scale : scale r = true; fd_diag : diagonal r = true;
    fd_mu : exists m, mu r = Some m /\ length m = d; fd_sigma : exists v, sigma r = Some v /\ length v = d }.
  Lemma fit_fitted la r0 junk ps r d : wf r0 -> ndim r0 = d -> scale r0 = true -> diagonal r0 = true -> fit la r0 junk ps = Ok r -> fitted_diag r d.
  Proof.
    intros Hw Hd Hs Hg H. apply fit_shape in H as [S (u & _ & Em & Es)]; [|exact Hg]. pose proof (same_wf _ _ S Hw). destruct S as (E1 & _ & _ & _ & _ & _ & _ & E8 & E9).
    constructor; try congruence.
    - eexists. split; [exact Em|]. unfold mean_axis0. now rewrite map_length, seq_length.
    - eexists. split; [exact Es|]. unfold std_axis0. now rewrite map_length, seq_length.
  Qed.
  Lemma forward_width r d junk x u : fitted_diag r d -> length junk = d -> forward_row r junk x = Ok u -> length x = d /\ length u = d.
  Proof.
    intros [Hw Hd Hs Hg [m [Em Lm]] [v [Ev Lv]]] HJ H. unfold forward_row in H. apply bind_ok in H as [y [Hy H]].
    assert (Lx : length x = ndim r). { unfold forward0_row, check_cols in Hy. destruct (Nat.eqb_spec (length x) (ndim r)); [assumption|discriminate]. }
    rewrite (forward0_row_spec r junk x Hw Lx) in Hy by congruence. apply Ok_inj in Hy. subst y. rewrite Hs in H. unfold forward_affine_row in H.
    rewrite Em, Hg, Ev in H. cbn [bind of_option] in H. apply Ok_inj in H. subst u. split; [congruence|].
    unfold vsub. apply map2_length_eq; [apply map2_length_eq; [|exact Lm]|exact Lv].
    rewrite (map3'_length _ _ _ _ d); [reflexivity| | |congruence]; destruct Hw; congruence.
  Qed.
  Lemma inverse_width r d junk u x l : fitted_diag r d -> length junk = d -> inverse_row r junk u = Ok (x, l) -> length u = d /\ length x = d.
  Proof.
    intros [Hw Hd Hs Hg [m [Em Lm]] [v [Ev Lv]]] HJ H. unfold inverse_row in H. rewrite Hs in H. apply bind_ok in H as [[y l1] [Hy H]].
    unfold inverse_affine_row in Hy. rewrite Em in Hy. cbn [bind of_option] in Hy. destruct (Nat.eqb_spec (length u) (length m)) as [E|]; [|discriminate].
    cbn [bind] in Hy. rewrite Hg, Ev in Hy. cbn [bind of_option] in Hy. apply Ok_inj in Hy. injection Hy as <- _.
    apply bind_ok in H as [[z l2] [Hz H]]. apply Ok_inj in H. injection H as <- _. split; [congruence|].
    assert (Ly : length (vadd m (map2 nmul v u)) = ndim r). { unfold vadd. rewrite Hd. apply map2_length_eq; [exact Lm|]. apply map2_length_eq; congruence. }
    rewrite (inverse0_row_spec r junk _ Hw Ly) in Hz by congruence. apply Ok_inj in Hz. injection Hz as <- _. rewrite map_length.
    apply map3'_length; [destruct Hw; congruence|destruct Hw; congruence|congruence].
  Qed.
End Width.

(** ** Counts *)
Section Counts.
  Context {T C P Opt : Type} {NT : NumT T}.
  Variable W : world T C P Opt.
  Variable fair : rand T C P -> Prop.
  Variable interrupts : bool.
  Definition counts (p : past T (list C)) : list nat := [length (h_x p); length (h_logdetj p); length (h_logl p); length (h_logp p); length (h_logw p);
      length (h_blobs p); length (h_iter p); length (h_logz p); length (h_calls p); length (h_steps p);
      length (h_efficiency p); length (h_ess p); length (h_accept p); length (h_beta p)].
  Definition even (s : sampler T C P) : Prop := counts (history_of s) = repeat (length (h_u (history_of s))) 14.
  Lemma even_update p c : counts p = repeat (length (h_u p)) 14 -> counts (update p (items c)) = repeat (length (h_u (update p (items c)))) 14.
  Proof.
    rewrite update_items. unfold counts. cbn [h_u h_x h_logdetj h_logl h_logp h_logw h_blobs h_iter h_logz h_calls h_steps h_efficiency h_ess h_accept h_beta repeat].
    rewrite !app_length. cbn [length]. intros H. injection H as -> -> -> -> -> -> -> -> -> -> -> -> -> ->. reflexivity.
  Qed.
  Theorem reachable_even s : reachable W fair interrupts s -> even s.
  Proof.
    revert s. apply (reach_phases W fair interrupts even (fun _ => True) (fun _ => True) (fun _ => True)).
    - intros o s H _. unfold new_sampler in H. do 12 (apply bind_ok in H as [? [_ H]]). apply Ok_inj in H. subst s. reflexivity.
    - intros n m s I. exact I.
    - intros R s s' I HR H. apply draw_facts in H as [[_ ->]|[En (ps & sc & Hps & Hf & ->)]]; exact I.
    - intros R i s s' I _ _ _ H.
      apply warmup_facts in H as (ps' & x0 & u0 & xi & ldj0 & logp0 & logl0 & b0 & x & u & ldj & logp & logl & b & c & Eps & _ & _ & _ & _ & _ & _ & _ & ->).
      exact (even_update _ c I).
    - intros s I _. exact I.
    - intros fuel s s1 I _ H. split; [|exact Logic.I].
      apply reweight_facts in H as (c & beta & logz & ess & w0 & neff & w1 & idx & w2 & lf & u & x & ldj & logl & logp & b & cn & _ & _ & _ & _ & _ & _ & _ & _ & _ & _ & _ & _ & ->). exact I.
    - intros R s s2 I _ _ H. split; [|exact Logic.I]. apply train_facts in H as (c2' & now & fl & un & ug & tg & _ & _ & _ & ->). exact I.
    - intros R s s3 I _ _ _ H. split; [|exact Logic.I]. apply resample_facts in H as (c' & w3 & idx3 & u3 & x3 & ldj3 & logl3 & logp3 & b3 & _ & _ & _ & _ & _ & _ & _ & _ & _ & ->). exact I.
    - intros R s s4 I _ _ _ H. split; [|exact Logic.I]. apply mutate_facts in H as (c5 & b5 & ks & res & c' & _ & _ & _ & _ & _ & _ & ->). exact I.
    - intros s c I _ _ _. exact (even_update _ c I).
    - intros R s s' I _ _ H. apply evidence_facts in H as (n & logz & err & calls & evals & hb & _ & -> & _). exact I.
    - intros s I. unfold results_of. assert (E : p_past (snd (compute_results (s_particles s))) = p_past (s_particles s)).
      { unfold compute_results. destruct (p_results (s_particles s)); [reflexivity|]. now destruct (compute_logw_and_logz _ _ _) as [[? ?]|]. }
      destruct (compute_results (s_particles s)) as [r p]. unfold even, history_of in *. cbn [snd with_particles s_particles] in *. rewrite E. exact I.
    - intros saved self I _. exact I.
    - intros s p I _ _. exact I.
  Qed.
End Counts.

(** ** What every stored particle is *)
Section Main.
  Context {T C P Opt : Type} {NT : NumT T}.
  Notation B := (list C).
  Variable W : world T C P Opt.
  Variable undefined random good : T -> Prop.
  Hypothesis L : ieee_like undefined random.
  Hypothesis U : unit_interval good.
  Variable lp ll : vec T -> T.
  Variable bl : option (vec T -> list C).
  Hypothesis RG : regular W lp ll bl.
  Variable drawn : vec T -> Prop.
  Variable interrupts : bool.
  Notation reachable := (reachable W (good_draws random drawn) interrupts).
  Implicit Types s : sampler T C P.

  Lemma in_history_legit s p : reachable s -> in_history s p -> legit W undefined lp ll bl drawn s p.
  Proof.
    intros H (t & k & Ht & Hk & ->). pose proof (reachable_pinv W undefined random L good U lp ll bl RG drawn interrupts s H) as [_ _ [A B1] _ _].
    apply B1; [exact Ht|]. destruct (al_rect _ _ _ A t Ht) as [[R1 _ _ _ _ _] _]. cbn [stored w_u] in R1. now rewrite R1 in Hk.
  Qed.
  Lemma stored_consistent s p : reachable s -> in_history s p ->
    belongs lp ll (blobs_of (s_cfg s) bl) p /\
    (inverse_row (s_scaler s) (wd_junk W) (pt_u p) = Ok (pt_x p, pt_logdetj p) \/
     (forward_row (s_scaler s) (wd_junk W) (pt_x p) = Ok (pt_u p) /\
      exists x, inverse_row (s_scaler s) (wd_junk W) (pt_u p) = Ok (x, pt_logdetj p))).
  Proof.
    intros H Hp. destruct (in_history_legit s p H Hp) as [B1 [D|D]]; (split; [exact B1|]); destruct D; [right|left]; auto.
  Qed.

  Lemma scaler_fitted s : reachable s -> iterations (history_of s) <> 0%nat -> (forall f rows, wd_bounds W = BArray f rows -> length rows = c_n_dim (s_cfg s)) ->
    fitted_diag (s_scaler s) (c_n_dim (s_cfg s)).
  Proof.
    intros H NE HB. destruct (reachable_scaler W _ interrupts s H) as (per & refl & tr & r0 & I1 & _ & _ & I4).
    pose proof (reachable_pinv W undefined random L good U lp ll bl RG drawn interrupts s H) as [_ Pp _ _ _].
    destruct (s_prior_samples s) eqn:E; [|rewrite Pp in NE; now cbn in NE].
    destruct I4 as (R & ps & _ & _ & Hf); [discriminate|].
    assert (Wf : wf r0) by (eapply init_wf; eauto).
    assert (D : ndim r0 = c_n_dim (s_cfg s) /\ scale r0 = true /\ diagonal r0 = true).
    { unfold init_reparam in I1. do 3 (apply bind_ok in I1 as [? [_ I1]]). apply Ok_inj in I1. now subst r0. }
    destruct D as (D1 & D2 & D3). eapply fit_fitted; eauto.
  Qed.

  Lemma stored_rectangular s : reachable s -> (forall f rows, wd_bounds W = BArray f rows -> length rows = c_n_dim (s_cfg s)) ->
    length (wd_junk W) = c_n_dim (s_cfg s) ->
    rectangular_history (history_of s) (c_n_active (s_cfg s)) (c_n_dim (s_cfg s)) (match blobs_of (s_cfg s) bl with Some _ => true | None => false end).
  Proof.
    intros H HB HJ. pose proof (reachable_pinv W undefined random L good U lp ll bl RG drawn interrupts s H) as [_ Pp [A LG] _ _].
    set (p := history_of s) in *. set (n := c_n_active (s_cfg s)) in *. set (d := c_n_dim (s_cfg s)) in *.
    assert (WD : forall t k, (t < iterations p)%nat -> (k < n)%nat -> length (nth k (nth t (h_u p) []) []) = d /\ length (nth k (nth t (h_x p) []) []) = d).
    { intros t k Ht Hk. assert (F : fitted_diag (s_scaler s) d) by (apply scaler_fitted; auto; fold p; lia).
      destruct (LG t k Ht Hk) as [_ [D|D]]; destruct D.
      - destruct (forward_width _ d _ _ _ F HJ pd_u). auto.
      - destruct (inverse_width _ d _ _ _ _ F HJ ac_inverse). auto. }
    destruct A as [A1 A2 A3 A4 A5 A6].
    constructor.
    - pose proof (reachable_even W _ interrupts s H) as E. fold (counts p). unfold even in E. fold p in E. rewrite E. intros m. apply repeat_spec.
    - intros a Ha. assert (Q : exists t, (t < iterations p)%nat /\ (a = nth t (h_u p) [] \/ a = nth t (h_x p) [])).
      { destruct Ha as [Ha|Ha]; apply (In_nth _ _ []) in Ha as [t [Ht <-]]; exists t; (split; [|auto]); [exact Ht|rewrite <- A1; exact Ht]. }
      destruct Q as (t & Ht & Q). destruct (A6 t Ht) as [[R1 R2 _ _ _ _] _]. cbn [stored w_u w_x] in R1, R2.
      destruct Q as [->| ->]; (split; [assumption|]); intros row Hr; apply (In_nth _ _ []) in Hr as [k [Hk <-]]; apply WD; auto; first [rewrite <- R1; exact Hk|rewrite <- R2; exact Hk].
    - intros a Ha. assert (Q : exists t, (t < iterations p)%nat /\ (a = nth t (h_logdetj p) [] \/ a = nth t (h_logl p) [] \/ a = nth t (h_logp p) [])).
      { destruct Ha as [Ha|[Ha|Ha]]; apply (In_nth _ _ []) in Ha as [t [Ht <-]]; exists t; (split; [first [rewrite <- A2; exact Ht|rewrite <- A3; exact Ht|rewrite <- A4; exact Ht]|auto]). }
      destruct Q as (t & Ht & Q). destruct (A6 t Ht) as [[_ _ R3 R4 R5 _] _]. cbn [stored w_logdetj w_logl w_logp] in R3, R4, R5.
      destruct Q as [->|[->| ->]]; assumption.
    - intros b Hb. apply (In_nth _ _ None) in Hb as [t [Ht <-]]. rewrite A5 in Ht. destruct (A6 t Ht) as [[_ _ _ _ _ R6] R7].
      unfold has_blobs in R7. cbn [stored w_blobs] in R6, R7. unfold with_blobs in R7. destruct (nth t (h_blobs p) None); auto.
  Qed.

  (** ** Resampling *)
  Lemma resampled_rows fuel R s s1 s2 s3 : reachable s -> reweight fuel s = Ok s1 -> train W R s1 = Ok s2 -> resample R s2 = Ok s3 ->
    exists beta w0 neff w1 idx w2 left c3,
      relative_weights (history_of s) beta = Ok w0 /\ adjust (s_cfg s) (s_n_effective s) (normalise w0) = Ok (neff, w1) /\
      trim_weights (seq 0 (length w1)) w1 (nfrac 99 100) 1000 = Ok (idx, w2, left) /\
      s_current s3 = Some c3 /\ cu_beta c3 = beta /\ rectangular (current_arrays c3) (c_n_active (s_cfg s)) /\
      forall k, (k < c_n_active (s_cfg s))%nat -> exists t j, (t < iterations (history_of s))%nat /\ (j < c_n_active (s_cfg s))%nat /\
        In (t * c_n_active (s_cfg s) + j)%nat idx /\ particle_at (current_arrays c3) k = particle_at (stored (history_of s) t) j.
  Proof.
    intros H H1 H2 H3. pose proof (reachable_pinv W undefined random L good U lp ll bl RG drawn interrupts s H) as I.
    pose proof I as [_ _ [A _] _ _]. set (n := c_n_active (s_cfg s)) in *.
    destruct (reweight_rows_trim W undefined lp ll bl drawn fuel s s1 I H1) as (EH & NE & idx & c1 & Hc1 & G & w0 & neff & w1 & w2 & lf & Q1 & Q2 & Q3 & Q4 & F1 & F2).
    destruct (flat_rows _ _ _ A) as (FR & FB & _). destruct (gathered_rows _ _ _ _ FR G) as (Y1 & Y2 & Y3).
    pose proof H2 as H2'. apply train_facts in H2' as (c2' & now & fl & un & ug & tg & Ec & _ & _ & Es2). rewrite Hc1 in Ec. injection Ec as <-.
    assert (C2 : s_current s2 = Some c1) by now rewrite Es2. assert (F3 : s_cfg s2 = s_cfg s) by (rewrite Es2; exact F1). assert (F4 : s_have_blobs s2 = with_blobs bl s) by (rewrite Es2; cbn [s_have_blobs]; congruence).
    assert (WB : with_blobs bl s2 = with_blobs bl s) by (unfold with_blobs; now rewrite F3).
    destruct (resample_rows bl R s2 s3 (length idx) c1 ltac:(congruence) H3 C2 Y1 ltac:(congruence)) as (idx3 & c3 & Hc3 & G3 & L3).
    destruct (gathered_rows _ _ _ _ Y1 G3) as (Z1 & Z2 & Z3). rewrite F3 in L3. fold n in L3. rewrite L3 in Z1, Z3.
    apply resample_facts in H3 as (c' & w3 & idx4 & u3 & x3 & ldj3 & logl3 & logp3 & b3 & Ec & _ & _ & _ & _ & _ & _ & _ & _ & Es3).
    rewrite C2 in Ec. injection Ec as <-.
    exists (cu_beta c1), w0, neff, w1, idx, w2, lf, c3. split; [exact Q1|]. split; [exact Q2|]. split; [exact Q3|]. split; [exact Hc3|].
    split; [rewrite Es3 in Hc3; cbn [with_current s_current] in Hc3; now injection Hc3 as <-|]. split; [exact Z1|].
    intros k Hk. destruct (Z3 k Hk) as [V1 V2]. destruct (Y3 _ V1) as [V3 V4].
    destruct (flat_index _ _ _ _ A V3) as (t & j & Ht & Hj & Eq & V5). exists t, j. split; [exact Ht|]. split; [exact Hj|].
    split; [fold n in Eq; rewrite <- Eq; now apply nth_In|]. rewrite V2, V4. exact V5.
  Qed.

  (** ** Warm-up *)
  Lemma batch_stored R i s s' : reachable s -> (i < n_batches (s_cfg s))%nat -> warmup_batch W R i s = Ok s' ->
    exists ps w0 source, s_prior_samples s = Some ps /\ w_x w0 = slice i (c_n_active (s_cfg s)) ps /\ rectangular w0 (c_n_active (s_cfg s)) /\
      iterations (history_of s') = S (iterations (history_of s)) /\
      forall k, (k < c_n_active (s_cfg s))%nat ->
        belongs lp ll (blobs_of (s_cfg s) bl) (particle_at w0 k) /\
        (source k < c_n_active (s_cfg s))%nat /\
        particle_at (stored (history_of s') (iterations (history_of s))) k = particle_at w0 (source k) /\
        nisinf (pt_logl (particle_at w0 (source k))) = false /\
        (nisinf (pt_logl (particle_at w0 k)) = false -> source k = k).
  Proof.
    intros H Hi Hw. pose proof (reachable_pinv W undefined random L good U lp ll bl RG drawn interrupts s H) as [Pp Pr [A _] _ _].
    destruct (s_prior_samples s) as [ps|] eqn:Eps; [|unfold warmup_batch in Hw; rewrite Eps in Hw; discriminate].
    destruct Pr as [Lps _].
    destruct (batch_rows W lp ll bl RG R i s s' ps Hw Pp Eps Lps Hi) as (w0 & source & c & X1 & X2 & X3 & X4 & X5 & X6 & X7 & X8 & X9 & X10 & X11 & X12 & X13 & X14 & X15).
    destruct (gathered_rows w0 _ source (current_arrays c) X2 X7) as (Y1 & Y2 & Y3). rewrite X5 in Y1, Y3.
    pose proof (aligned_update (history_of s) (c_n_active (s_cfg s)) (with_blobs bl s) c A Y1 ltac:(unfold with_blobs; congruence)) as (A1 & A2 & A3 & A4).
    assert (EH : history_of s' = update (history_of s) (items c)) by (unfold history_of; rewrite X9; reflexivity).
    exists ps, w0, (fun k => nth k source 0%nat). split; [reflexivity|]. split; [exact X1|]. split; [exact X2|]. rewrite EH. split; [exact A2|].
    intros k Hk. destruct (X4 k Hk) as [V1 _]. destruct (X6 k Hk) as (V2 & V3 & V4). destruct (Y3 k Hk) as [_ V5]. rewrite A3. auto 10.
  Qed.
  Lemma choose_none pick k : choose_finite pick [] k = Err ValueError.
  Proof. reflexivity. Qed.
  Lemma batch_all_infinite R i s ps : reachable s -> s_prior_samples s = Some ps -> (i < n_batches (s_cfg s))%nat ->
    (forall x, In x (slice i (c_n_active (s_cfg s)) ps) -> nisinf (ll x) = true) ->
    (forall s', warmup_batch W R i s <> Ok s') /\
    (forall u r lps r', forward (s_scaler s) (wd_junk W) (slice i (c_n_active (s_cfg s)) ps) true = Ok u -> inverse (s_scaler s) (wd_junk W) u = Ok r ->
       wd_logpdf W (slice i (c_n_active (s_cfg s)) ps) = Ok lps -> sampler_like W s (slice i (c_n_active (s_cfg s)) ps) = Ok r' ->
       warmup_batch W R i s = Err ValueError).
  Proof.
    intros H Eps Hi Hinf. set (n := c_n_active (s_cfg s)) in *. set (x0 := slice i n ps) in *. split.
    - intros s' Hs. destruct (batch_stored R i s s' H Hi Hs) as (ps' & w0 & source & E1 & E2 & E3 & _ & E5). rewrite Eps in E1. injection E1 as <-.
      fold n in E2, E3, E5. fold x0 in E2. assert (Np : (0 < n)%nat). { unfold n_batches in Hi. fold n in Hi. destruct n; [cbn in Hi; lia|lia]. }
      destruct (E5 0%nat Np) as (_ & S1 & _ & S2 & _). destruct (E5 _ S1) as [[Q1 _ _] _]. rewrite Q1 in S2.
      rewrite Hinf in S2; [discriminate|]. cbn [particle_at pt_x]. rewrite <- E2. apply nth_In. rewrite (re_x _ _ E3). exact S1.
    - intros u [xi ldj] lps [logl b] F1 F2 F3 F4. unfold warmup_batch. rewrite Eps. cbn [of_option bind]. fold n. fold x0. rewrite F1. cbn [bind]. rewrite F2. cbn [bind].
      rewrite F3. cbn [bind]. rewrite F4. cbn [bind].
      pose proof (reachable_pinv W undefined random L good U lp ll bl RG drawn interrupts s H) as [Pp Pr _ _ _]. rewrite Eps in Pr. destruct Pr as [Lps _].
      apply (like_facts W lp ll bl RG _ _ _ _ Pp) in F4 as [Hl _]. subst logl.
      assert (Np : (0 < n)%nat). { unfold n_batches in Hi. fold n in Hi. destruct n; [cbn in Hi; lia|lia]. }
      assert (Lx : length x0 = n) by (unfold x0; now apply slice_length with (m := c_n_prior (s_cfg s))).
      assert (EM : map nisinf (map ll x0) = repeat true (length x0)).
      { rewrite map_map. clear -Hinf. induction x0 as [|a l IH]; [reflexivity|]. cbn [map length repeat]. rewrite Hinf by now left. f_equal. apply IH. intros x Hx. apply Hinf. now right. }
      rewrite EM. replace (existsb (fun b => b) (repeat true (length x0))) with true by (rewrite Lx; destruct n; [lia|reflexivity]).
      replace (true_positions 0 (map negb (repeat true (length x0)))) with (@nil nat); [reflexivity|].
      clear. generalize 0%nat. induction (length x0) as [|m IH]; intros j; [reflexivity|]. cbn. apply IH.
  Qed.
End Main.

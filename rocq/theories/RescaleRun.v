(** * A constant added to the log-prior, over whole runs *)
From Coq Require Import ZArith String Reals Lra Lia.
From Coq Require Import List Bool.
From Verif Require Import Num PyBase PyBaseFacts XReal Tools Scaler Particles ParticlesFacts LogLike Geometry Mcmc SpecMcmc McmcFacts McmcInv Flow Sampler ConfigFacts SamplerFacts SpecReach CounterFacts SpecShift ShiftX ShiftMcmc ShiftSampler ShiftRun ShiftLoop
  SpecRescale RescaleMcmc EvidenceFacts.
Import ListNotations.
Set Bullet Behavior "Strict Subproofs".
Local Open Scope R_scope.

Section Rescale.
  Context {C P Opt : Type}.
  Variable c : R.
  Notation B := (list C).
  Notation sh := (sh c).
  Notation rescale_past := (rescale_past c).
  Notation rescale_sampler := (rescale_sampler c).
  Notation rescale_current := (rescale_current c).
  Notation sampler := (sampler X C P).
  Notation rand := (rand X C P).
  Variable W : world X C P Opt.
  Notation W' := (rescale_world c W).

  (** ** The history *)
  Lemma update_rescale (p : past X B) k : update (rescale_past p) (items (rescale_current k)) = rescale_past (update p (items k)).
  Proof.
    rewrite !update_items. unfold SpecRescale.rescale_past. cbn [h_u h_x h_logdetj h_logl h_logp h_logw h_blobs h_iter h_logz h_calls h_steps h_efficiency h_ess h_accept h_beta
      SpecRescale.rescale_current cu_u cu_x cu_logl cu_logp cu_logdetj cu_logw cu_blobs cu_iter cu_calls cu_steps cu_efficiency cu_ess cu_accept cu_beta cu_logz]. f_equal.
    now rewrite map_app.
  Qed.
  Lemma particles_rescale (q : particles X B) k : particles_update (rescale_particles c q) (items (rescale_current k)) = rescale_particles c (particles_update q (items k)).
  Proof. unfold particles_update, SpecRescale.rescale_particles. cbn [p_past p_results]. f_equal. apply update_rescale. Qed.
  Lemma flat_logp (p : past X B) : get_flat (rescale_past p) Klogp = res_map (map sh) (get_flat p Klogp).
  Proof.
    unfold get_flat. cbn [lookup SpecRescale.rescale_past h_logp].
    assert (M : forall l : list (vec X), mapM (fun v => of_option ValueError (rows_of (T:=X) (B:=B) Klogp v)) l = Ok l) by (induction l as [|v l IH]; [reflexivity|]; cbn [mapM]; rewrite IH; reflexivity).
    destruct (h_logp p) as [|v l]; [reflexivity|]. etransitivity; [exact (f_equal (fun r => bind r (fun cs => Ok (concat cs))) (M (map (map sh) (v :: l))))|].
    symmetry. etransitivity; [exact (f_equal (fun r => res_map (map sh) (bind r (fun cs => Ok (concat cs)))) (M (v :: l)))|]. cbn [bind res_map]. now rewrite concat_map.
  Qed.
  Lemma weights_rescale (p : past X B) b : compute_logw_and_logz (rescale_past p) b true = compute_logw_and_logz p b true.
  Proof. reflexivity. Qed.

  (** ** Warm-up *)
  Notation stored := (ShiftRun.stored (C:=C) (P:=P)).
  Lemma stored_rescale (s : sampler) i ps have u' x' ldj' logp' logl' blobs' :
    stored (rescale_sampler s) i ps have u' x' ldj' (map sh logp') logl' blobs' = rescale_sampler (stored s i ps have u' x' ldj' logp' logl' blobs').
  Proof.
    unfold ShiftRun.stored. cbn zeta. match goal with |- context [particles_update (s_particles s) (items ?k0)] => set (k := k0) end.
    match goal with |- context [particles_update (s_particles (rescale_sampler s)) (items ?k0)] => change k0 with (rescale_current k) end.
    change (s_particles (rescale_sampler s)) with (rescale_particles c (s_particles s)). rewrite particles_rescale. reflexivity.
  Qed.
  Lemma batch_rescale R i (s : sampler) : warmup_batch W' R i (rescale_sampler s) = res_map rescale_sampler (warmup_batch W R i s).
  Proof.
    unfold warmup_batch.
    change (s_prior_samples (rescale_sampler s)) with (s_prior_samples s). change (s_cfg (rescale_sampler s)) with (s_cfg s). change (s_scaler (rescale_sampler s)) with (s_scaler s).
    change (s_t (rescale_sampler s)) with (s_t s). change (wd_junk W') with (wd_junk W). change (sampler_like W' (rescale_sampler s)) with (sampler_like W s). cbn zeta.
    destruct (s_prior_samples s) as [ps|]; cbn [of_option bind res_map]; [|reflexivity].
    destruct (forward _ _ _ true) as [u|]; cbn [bind res_map]; [|reflexivity].
    destruct (inverse _ _ u) as [[x0 ldj]|]; cbn [bind res_map]; [|reflexivity].
    match goal with |- context [wd_logpdf W' ?x] => change (wd_logpdf W' x) with (res_map (map sh) (wd_logpdf W x)) end.
    destruct (wd_logpdf W _) as [logp|]; cbn [bind res_map]; [|reflexivity].
    destruct (sampler_like W s _) as [[logl blobs]|]; cbn [bind res_map]; [|reflexivity].
    change (after_like (rescale_sampler s) blobs) with (after_like s blobs).
    match goal with |- bind (if ?b then _ else _) _ = _ => destruct b end.
    - destruct (choose_finite _ _ _) as [idx|]; cbn [bind res_map]; [|reflexivity].
      destruct (replace_rows _ idx (slice _ _ ps)) as [x'|]; cbn [bind res_map]; [|reflexivity]. destruct (replace_rows _ idx u) as [u'|]; cbn [bind res_map]; [|reflexivity].
      destruct (replace_rows _ idx ldj) as [ldj'|]; cbn [bind res_map]; [|reflexivity].
      rewrite (replace_shift c). destruct (replace_rows _ idx logp) as [logp'|]; cbn [bind res_map]; [|reflexivity].
      destruct (replace_rows _ idx logl) as [logl'|]; cbn [bind res_map]; [|reflexivity].
      match goal with |- bind (bind ?M _) _ = _ => destruct M as [b'|]; cbn [bind res_map]; [|reflexivity] end.
      exact (f_equal Ok (stored_rescale s i ps (after_like s blobs) u' x' ldj' logp' logl' b')).
    - cbn [bind res_map]. exact (f_equal Ok (stored_rescale s i ps (after_like s blobs) u _ ldj logp logl blobs)).
  Qed.

  (** ** One iteration *)
  Lemma reweight_rescale fuel (s : sampler) : reweight fuel (rescale_sampler s) = res_map rescale_sampler (reweight fuel s).
  Proof.
    unfold reweight. change (p_past (s_particles (rescale_sampler s))) with (rescale_past (p_past (s_particles s))). change (s_cfg (rescale_sampler s)) with (s_cfg s).
    change (s_current (rescale_sampler s)) with (option_map rescale_current (s_current s)). change (s_n_effective (rescale_sampler s)) with (s_n_effective s). change (s_have_blobs (rescale_sampler s)) with (s_have_blobs s).
    destruct (s_current s) as [k|]; cbn [option_map of_option bind res_map]; [|reflexivity]. cbn zeta. 
    assert (NB : forall m n, next_beta fuel m (rescale_past (p_past (s_particles s))) n = next_beta fuel m (p_past (s_particles s)) n).
    { intros m n. assert (BI : forall f lo hi, bisect f m (rescale_past (p_past (s_particles s))) n lo hi = bisect f m (p_past (s_particles s)) n lo hi) by (induction f as [|f IH]; intros; cbn [bisect]; [reflexivity|];
        change (ess_at m (rescale_past (p_past (s_particles s)))) with (ess_at m (p_past (s_particles s))); destruct (ess_at m (p_past (s_particles s)) _); cbn [bind]; [|reflexivity]; now rewrite !IH).
      unfold next_beta. change (get_index (rescale_past (p_past (s_particles s))) Kbeta (-1)) with (get_index (p_past (s_particles s)) Kbeta (-1)). change (get_index (rescale_past (p_past (s_particles s))) Klogz (-1)) with (get_index (p_past (s_particles s)) Klogz (-1)).
      change (ess_at m (rescale_past (p_past (s_particles s)))) with (ess_at m (p_past (s_particles s))). destruct (get_index _ Kbeta (-1)); cbn [bind]; [|reflexivity]. now rewrite BI. }
    rewrite NB. destruct (next_beta fuel _ _ _) as [[[b z] e]|]; cbn [bind res_map fst snd]; [|reflexivity].
    change (relative_weights (rescale_past (p_past (s_particles s))) b) with (relative_weights (p_past (s_particles s)) b). destruct (relative_weights _ _) as [w|]; cbn [bind res_map]; [|reflexivity].
    destruct (adjust _ _ _) as [[n w']|]; cbn [bind res_map]; [|reflexivity]. destruct (trim_weights _ _ _ _) as [[[idx w''] t]|]; cbn [bind res_map]; [|reflexivity].
    change (get_flat (rescale_past (p_past (s_particles s))) Ku) with (get_flat (p_past (s_particles s)) Ku). destruct (get_flat _ Ku) as [u|]; cbn [bind res_map]; [|reflexivity]. destruct (gather u idx) as [u'|]; cbn [bind res_map]; [|reflexivity].
    change (get_flat (rescale_past (p_past (s_particles s))) Kx) with (get_flat (p_past (s_particles s)) Kx). destruct (get_flat _ Kx) as [x|]; cbn [bind res_map]; [|reflexivity]. destruct (gather x idx) as [x'|]; cbn [bind res_map]; [|reflexivity].
    change (get_flat (rescale_past (p_past (s_particles s))) Klogdetj) with (get_flat (p_past (s_particles s)) Klogdetj). destruct (get_flat _ Klogdetj) as [d|]; cbn [bind res_map]; [|reflexivity]. destruct (gather d idx) as [d'|]; cbn [bind res_map]; [|reflexivity].
    change (get_flat (rescale_past (p_past (s_particles s))) Klogl) with (get_flat (p_past (s_particles s)) Klogl). destruct (get_flat _ Klogl) as [q|]; cbn [bind res_map]; [|reflexivity]. destruct (gather q idx) as [q'|]; cbn [bind res_map]; [|reflexivity].
    rewrite flat_logp. destruct (get_flat _ Klogp) as [l|]; cbn [bind res_map]; [|reflexivity]. pose proof (gather_map sh l idx) as G.
    match goal with |- bind ?M _ = _ => change M with (@gather X (map sh l) idx) end. rewrite G. clear G.
    match goal with |- _ = res_map _ (bind ?M _) => change M with (@gather X l idx) end. destruct (@gather X l idx) as [l'|]; cbn [bind res_map]; [|reflexivity].
    change (get_flat (rescale_past (p_past (s_particles s))) Kblobs) with (get_flat (p_past (s_particles s)) Kblobs). change (cu_blobs (rescale_current k)) with (cu_blobs k).
    match goal with |- bind ?M _ = _ => destruct M as [b0|]; cbn [bind res_map]; [|reflexivity] end. reflexivity.
  Qed.
  Lemma train_rescale R (s : sampler) : train W' R (rescale_sampler s) = res_map rescale_sampler (train W R s).
  Proof.
    unfold train. change (s_current (rescale_sampler s)) with (option_map rescale_current (s_current s)). destruct (s_current s) as [k|]; cbn [option_map of_option bind res_map]; [|reflexivity].
    cbn zeta. change (trains (rescale_sampler s) (cu_beta (rescale_current k))) with (trains s (cu_beta k)). destruct (trains s _) as [now|]; cbn [bind res_map]; [|reflexivity].
    change (s_flow (rescale_sampler s)) with (s_flow s). change (s_cfg (rescale_sampler s)) with (s_cfg s). change (cu_u (rescale_current k)) with (cu_u k). change (cu_weights (rescale_current k)) with (cu_weights k).
    change (s_t (rescale_sampler s)) with (s_t s). change (wd_train W') with (wd_train W). change (wd_fit W') with (wd_fit W). change (s_u_geometry (rescale_sampler s)) with (s_u_geometry s). change (s_theta_geometry (rescale_sampler s)) with (s_theta_geometry s). change (s_untrained (rescale_sampler s)) with (s_untrained s).
    match goal with |- bind ?M _ = res_map _ (bind ?M' _) => change M with M'; destruct M' as [[[[f ut] ug] tg]|]; cbn [bind res_map]; [|reflexivity] end. reflexivity.
  Qed.
  Lemma resample_rescale (R : rand) (s : sampler) : resample R (rescale_sampler s) = res_map rescale_sampler (resample R s).
  Proof.
    unfold resample. change (s_current (rescale_sampler s)) with (option_map rescale_current (s_current s)). destruct (s_current s) as [k|]; cbn [option_map of_option bind res_map]; [|reflexivity].
    change (cu_weights (rescale_current k)) with (cu_weights k). destruct (cu_weights k) as [w|] eqn:Ew; cbn [of_option bind res_map]; [|reflexivity].
    change (resample_indices R (rescale_sampler s) w) with (resample_indices R s w). destruct (resample_indices R s w) as [idx|]; cbn [bind res_map]; [|reflexivity].
    change (cu_u (rescale_current k)) with (cu_u k). destruct (gather (cu_u k) idx) as [u'|]; cbn [bind res_map]; [|reflexivity].
    change (cu_x (rescale_current k)) with (cu_x k). destruct (gather (cu_x k) idx) as [x'|]; cbn [bind res_map]; [|reflexivity].
    change (cu_logdetj (rescale_current k)) with (cu_logdetj k). destruct (gather (cu_logdetj k) idx) as [d'|]; cbn [bind res_map]; [|reflexivity].
    change (cu_logl (rescale_current k)) with (cu_logl k). destruct (gather (cu_logl k) idx) as [l'|]; cbn [bind res_map]; [|reflexivity].
    change (cu_logp (rescale_current k)) with (map sh (cu_logp k)). etransitivity; [apply (f_equal (fun r => bind r _)), (gather_map sh (cu_logp k) idx)|]. destruct (gather (cu_logp k) idx) as [q'|]; cbn [bind res_map]; [|reflexivity].
    change (cu_blobs (rescale_current k)) with (cu_blobs k). change (s_have_blobs (rescale_sampler s)) with (s_have_blobs s).
    match goal with |- bind ?M _ = _ => destruct M as [b0|]; cbn [bind res_map]; [|reflexivity] end.
    reflexivity.
  Qed.
  Lemma resample_even (R : rand) (s s1 : sampler) : resample R s = Ok s1 -> even_rows s1.
  Proof.
    intros H. apply resample_facts in H as (k & w & idx & u & x & ldj & logl & logp & b & Hk & _ & _ & G1 & G2 & G3 & G4 & G5 & G6 & ->).
    intros k0 [= <-]. exists (length idx). cbn [cu_u cu_x cu_logdetj cu_logl cu_logp cu_blobs with_current s_have_blobs]. apply gather_length in G1, G2, G3, G4, G5. repeat (split; [assumption|]).
    intros E. rewrite E in G6. destruct G6 as (b0 & b' & _ & -> & G6). now apply gather_length in G6.
  Qed.
  Lemma mutate_rescale (R : rand) (s : sampler) : even_rows s -> mutate W' R (rescale_sampler s) = res_map rescale_sampler (mutate W R s).
  Proof.
    intros HE. unfold mutate. change (s_current (rescale_sampler s)) with (option_map rescale_current (s_current s)).
    destruct (s_current s) as [k|] eqn:EC; cbn [option_map of_option bind res_map]; [|reflexivity]. cbn zeta.
    change (s_cfg (rescale_sampler s)) with (s_cfg s). change (s_have_blobs (rescale_sampler s)) with (s_have_blobs s). change (cu_blobs (rescale_current k)) with (cu_blobs k).
    assert (Hblobs : forall b, (if s_have_blobs s then let! b := of_option AttributeError (cu_blobs k) in Ok (Some b) else Ok None) = Ok b ->
      exists n, length (cu_u k) = n /\ length (cu_x k) = n /\ length (cu_logdetj k) = n /\ length (cu_logl k) = n /\ length (cu_logp k) = n /\ match b with Some b => length b = n | None => True end).
    { intros b Hb. destruct (HE k EC) as (n & G1 & G2 & G3 & G4 & G5 & G6). exists n. repeat (split; [assumption|]). destruct (s_have_blobs s).
      - specialize (G6 eq_refl). destruct (cu_blobs k); [|discriminate]. injection Hb as <-. exact G6.
      - injection Hb as <-. exact I. }
    destruct (if s_have_blobs s then _ else _) as [b|]; cbn [bind res_map]; [|reflexivity]. destruct (Hblobs b eq_refl) as (n & G1 & G2 & G3 & G4 & G5 & G6). clear Hblobs.
    set (ks := {| s_u := cu_u k; s_x := cu_x k; s_logdetj := cu_logdetj k; s_logl := cu_logl k; s_logp := cu_logp k; s_blobs := b; s_beta := cu_beta k |}).
    assert (RT : rectangular (walkers_of ks [] []) n) by (constructor; assumption).
    pose proof (kernel_rescale c (kernel_env_of W s) (fun x => res_map (map sh) (wd_logpdf W x)) (fun x => eq_refl) (cu_beta k) (kernel_of (s_cfg s)) (if c_preconditioned (s_cfg s) then s_theta_geometry s else s_u_geometry s)
      (s_scale s) ks (ir_step (rn_iter R (s_t s))) n eq_refl RT) as K.
    match goal with |- bind ?M _ = res_map _ (bind ?M' _) =>
      assert (E1 : M = kernel_fun (kernel_of (s_cfg s)) (with_prior (kernel_env_of W s) (fun x => res_map (map sh) (wd_logpdf W x))) (if c_preconditioned (s_cfg s) then s_theta_geometry s else s_u_geometry s)
        (s_scale s) (rescale_k c ks) (ir_step (rn_iter R (s_t s)))) by (unfold kernel_of; destruct (c_preconditioned (s_cfg s)), (c_sample (s_cfg s)); reflexivity);
      assert (E2 : M' = kernel_fun (kernel_of (s_cfg s)) (kernel_env_of W s) (if c_preconditioned (s_cfg s) then s_theta_geometry s else s_u_geometry s)
        (s_scale s) ks (ir_step (rn_iter R (s_t s)))) by (unfold kernel_of; destruct (c_preconditioned (s_cfg s)), (c_sample (s_cfg s)); reflexivity) end.
    rewrite E1, E2, K. destruct (kernel_fun _ _ _ _ ks _) as [o|]; cbn [bind res_map]; [|reflexivity]. reflexivity.
  Qed.
  Lemma iteration_rescale fuel R (s : sampler) : iteration W' fuel R (rescale_sampler s) = res_map rescale_sampler (iteration W fuel R s).
  Proof.
    unfold iteration. rewrite reweight_rescale. destruct (reweight fuel s) as [s1|] eqn:E1; cbn [bind res_map]; [|reflexivity].
    rewrite train_rescale. destruct (train W R s1) as [s2|] eqn:E2; cbn [bind res_map]; [|reflexivity].
    rewrite resample_rescale. destruct (resample R s2) as [s3|] eqn:E3; cbn [bind res_map]; [|reflexivity].
    rewrite (mutate_rescale R s3 (resample_even _ _ _ E3)). destruct (mutate W R s3) as [s4|] eqn:E4; cbn [bind res_map]; [|reflexivity].
    change (s_current (rescale_sampler s4)) with (option_map rescale_current (s_current s4)). destruct (s_current s4) as [k|] eqn:Ek; cbn [option_map of_option bind res_map]; [|reflexivity].
    apply (f_equal Ok). unfold with_particles. change (s_particles (rescale_sampler s4)) with (rescale_particles c (s_particles s4)). rewrite particles_rescale. reflexivity.
  Qed.
  Lemma termination_rescale (s : sampler) : not_termination (rescale_sampler s) = not_termination s.
  Proof.
    unfold not_termination. change (ess_at (c_metric (s_cfg (rescale_sampler s))) (p_past (s_particles (rescale_sampler s)))) with (ess_at (c_metric (s_cfg s)) (p_past (s_particles s))).
    destruct (ess_at _ _ _) as [e|]; cbn [bind]; [|reflexivity]. change (s_current (rescale_sampler s)) with (option_map rescale_current (s_current s)).
    destruct (s_current s) as [k|]; reflexivity.
  Qed.
  Lemma draw_rescale R (s : sampler) : draw_prior W' R (rescale_sampler s) = res_map rescale_sampler (draw_prior W R s).
  Proof.
    unfold draw_prior. change (s_prior_samples (rescale_sampler s)) with (s_prior_samples s). destruct (s_prior_samples s); [reflexivity|].
    change (s_cfg (rescale_sampler s)) with (s_cfg s). destruct (rn_prior R _) as [ps|]; cbn [bind res_map]; [|reflexivity].
    change (s_scaler (rescale_sampler s)) with (s_scaler s). change (wd_linalg W') with (wd_linalg W). change (wd_junk W') with (wd_junk W). destruct (fit _ _ _ ps) as [sc|]; reflexivity.
  Qed.

  (** ** Evidence *)
  Lemma importance_rescale (ll a b d : list X) : map2 xsub (map2 xadd (map2 xadd ll (map sh a)) b) d = map sh (map2 xsub (map2 xadd (map2 xadd ll a) b) d).
  Proof. rewrite (map2_shift_r c xadd (sh_add_r c)), (map2_shift c xadd (sh_add c)), (map2_shift c xsub (sh_sub_r c)). reflexivity. Qed.
  Lemma compute_evidence_rescale R n (s : sampler) : compute_evidence W' R n (rescale_sampler s) = res_map rescale_sampler (compute_evidence W R n s).
  Proof.
    unfold compute_evidence. change (s_flow (rescale_sampler s)) with (s_flow s). destruct (rn_flow R (s_flow s) n) as [th lq].
    change (s_scaler (rescale_sampler s)) with (s_scaler s). change (wd_junk W') with (wd_junk W). destruct (inverse _ _ th) as [[x ld]|]; cbn [bind res_map]; [|reflexivity].
    change (wd_logpdf W' x) with (res_map (map sh) (wd_logpdf W x)). destruct (wd_logpdf W x) as [lp|]; cbn [bind res_map]; [|reflexivity]. cbn zeta.
    match goal with |- context [map ?f (map sh lp)] => assert (MF : map f (map sh lp) = map f lp) by (rewrite map_map; apply map_ext; intros q; apply sh_isfinite) end. rewrite MF.
    change (sampler_like W' (rescale_sampler s)) with (sampler_like W s). destruct (sampler_like W s _) as [[ll bl]|]; cbn [bind res_map]; [|reflexivity].
    rewrite (compress_map sh).
    match goal with |- context [map2 ?f (map2 ?g (map2 ?h ll (map sh ?a)) ?b) ?d] => assert (E : map2 f (map2 g (map2 h ll (map sh a)) b) d = map sh (map2 f (map2 g (map2 h ll a) b) d)) by apply importance_rescale end.
    rewrite E. match type of E with _ = map sh ?A => set (lw := A) end. clearbody lw. clear E.
    rewrite map_length. rewrite log_mean_shift.
    match goal with |- context [nstd ?A] => match A with map (fun j => log_mean (map _ _)) _ => assert (EB : A = map sh (map (fun j => log_mean (map (fun i => nth (Nat.modulo (rn_boot R j i) (length lw)) lw (nofZ 0)) (seq 0 (length lw)))) (seq 0 (Nat.max n 1000)))) end end.
    { rewrite map_map. apply map_ext. intros j. rewrite <- log_mean_shift. apply f_equal, boot_shift. }
    rewrite EB, nstd_shift. reflexivity.
  Qed.
  Lemma final_rescale R (s : sampler) : final_evidence W' R (rescale_sampler s) = res_map rescale_sampler (final_evidence W R s).
  Proof.
    unfold final_evidence. change (s_n_evidence (rescale_sampler s)) with (s_n_evidence s). destruct (s_n_evidence s) as [n|]; cbn [of_option bind res_map]; [|reflexivity].
    change (s_cfg (rescale_sampler s)) with (s_cfg s). destruct (_ && _); [now apply compute_evidence_rescale|].
    change (p_past (s_particles (rescale_sampler s))) with (rescale_past (p_past (s_particles s))). rewrite weights_rescale.
    destruct (compute_logw_and_logz _ _ _) as [[w z]|]; reflexivity.
  Qed.

  (** ** Loops *)
  Notation rescale_traced := (rescale_traced c).
  Lemma tbind_rescale (m : traced X C P) f f' : (forall s, f' (rescale_sampler s) = rescale_traced (f s)) -> tbind (rescale_traced m) f' = rescale_traced (tbind m f).
  Proof.
    intros K. destruct m as [evs [s|e]]; cbn [SpecRescale.rescale_traced fst snd res_map tbind]; [|reflexivity]. rewrite K. destruct (f s) as [evs' r]. unfold SpecRescale.rescale_traced. cbn [fst snd]. now rewrite map_app.
  Qed.
  Lemma lift_rescale (m m' : res sampler) : m' = res_map rescale_sampler m -> lift m' = rescale_traced (lift m).
  Proof. now intros ->. Qed.
  Lemma checkpoint_rescale k t0 (s : sampler) : checkpoint k t0 (rescale_sampler s) = rescale_traced (checkpoint k t0 s).
  Proof. unfold checkpoint. destruct k as [k|]; [|reflexivity]. destruct (k =? 0)%Z; [reflexivity|]. change (s_t (rescale_sampler s)) with (s_t s). destruct (_ && _); reflexivity. Qed.
  Lemma warmup_loop_rescale k t0 R : forall n i s, warmup_loop W' k t0 R i n (rescale_sampler s) = rescale_traced (warmup_loop W k t0 R i n s).
  Proof.
    induction n as [|n IH]; intros i s; cbn [warmup_loop]; [reflexivity|]. rewrite checkpoint_rescale. apply tbind_rescale. intros s1.
    rewrite (lift_rescale _ _ (batch_rescale R i s1)). apply tbind_rescale. intros s2. apply IH.
  Qed.
  Lemma warmup_rescale k t0 R s : warmup W' k t0 R (rescale_sampler s) = rescale_traced (warmup W k t0 R s).
  Proof.
    unfold warmup. change (s_warmup (rescale_sampler s)) with (s_warmup s). destruct (s_warmup s); [|reflexivity].
    change (s_cfg (rescale_sampler s)) with (s_cfg s). destruct (Nat.eqb _ 0); [reflexivity|]. rewrite warmup_loop_rescale. apply tbind_rescale. reflexivity.
  Qed.
  Lemma smc_rescale bf k t0 R : forall fuel s, smc_loop W' fuel bf k t0 R (rescale_sampler s) = rescale_traced (smc_loop W fuel bf k t0 R s).
  Proof.
    induction fuel as [|f IH]; intros s; cbn [smc_loop]; rewrite termination_rescale; (destruct (not_termination s) as [[]|]; [|reflexivity|reflexivity]); [reflexivity|].
    rewrite checkpoint_rescale. apply tbind_rescale. intros s1. rewrite (lift_rescale _ _ (iteration_rescale bf R s1)). apply tbind_rescale. intros s2. apply IH.
  Qed.
  Theorem run_from_rescale a R s : run_from W' a R (rescale_sampler s) = rescale_traced (run_from W a R s).
  Proof.
    unfold run_from. cbn zeta. change (s_t (rescale_sampler s)) with (s_t s).
    change (set_targets (ra_n_total a) (ra_n_evidence a) (rescale_sampler s)) with (rescale_sampler (set_targets (ra_n_total a) (ra_n_evidence a) s)).
    rewrite (lift_rescale _ _ (draw_rescale R _)). apply tbind_rescale. intros s1. rewrite warmup_rescale. apply tbind_rescale. intros s2.
    rewrite smc_rescale. apply tbind_rescale. intros s3. rewrite (lift_rescale _ _ (final_rescale R s3)). apply tbind_rescale. intros s4. destruct (ra_save_every a); reflexivity.
  Qed.

  (** ** Reading the results *)
  Lemma posterior_rescale a us off (s : sampler) : posterior a us off (rescale_sampler s) = res_map (rescale_posterior c) (posterior a us off s).
  Proof.
    unfold posterior. change (p_past (s_particles (rescale_sampler s))) with (rescale_past (p_past (s_particles s))). change (s_cfg (rescale_sampler s)) with (s_cfg s). change (s_have_blobs (rescale_sampler s)) with (s_have_blobs s).
    set (p := p_past (s_particles s)) in *. clearbody p. cbn zeta.
    destruct (if _ && _ then _ else _); cbn [bind res_map]; [|reflexivity].
    change (get_flat (rescale_past p) Kx) with (get_flat p Kx). destruct (get_flat p Kx) as [x|]; cbn [bind res_map]; [|reflexivity].
    change (get_flat (rescale_past p) Klogl) with (get_flat p Klogl). destruct (get_flat p Klogl) as [q|]; cbn [bind res_map]; [|reflexivity].
    rewrite flat_logp. destruct (get_flat p Klogp) as [l|]; cbn [bind res_map]; [|reflexivity].
    change (get_flat (rescale_past p) Kblobs) with (get_flat p Kblobs). match goal with |- bind ?M _ = _ => destruct M as [bl|]; cbn [bind res_map]; [|reflexivity] end.
    rewrite weights_rescale. destruct (compute_logw_and_logz p _ true) as [[w z]|]; cbn [bind res_map fst snd]; [|reflexivity].
    change (elt X B Klogp) with X in l.
    assert (GM : forall (l : list X) idx, gather (map sh l) idx = match gather l idx with Ok r => Ok (map sh r) | Err e => Err e end) by (intros; apply gather_map).
    destruct (pa_trim a).
    - destruct (trim_weights _ _ _ _) as [[[idx w'] t]|]; cbn [bind res_map]; [|reflexivity]. destruct (gather x idx) as [x'|]; cbn [bind res_map]; [|reflexivity].
      destruct (gather q idx) as [q'|]; cbn [bind res_map]; [|reflexivity].
      match goal with |- context [gather (map ?f l) idx] => change (gather (map f l) idx) with (@gather X (map sh l) idx) end. rewrite GM.
      match goal with |- _ = res_map _ (bind (bind ?M _) _) => change M with (@gather X l idx) end. destruct (@gather X l idx) as [l'|]; cbn [bind res_map]; [|reflexivity].
      destruct (gather w idx) as [lw'|]; cbn [bind res_map]; [|reflexivity].
      match goal with |- bind (bind ?M _) _ = _ => destruct M as [bl'|]; cbn [bind res_map]; [|reflexivity] end.
      destruct (pa_resample a); [|reflexivity].
      match goal with |- bind ?M _ = _ => destruct M as [i2|]; cbn [bind res_map]; [|reflexivity] end. destruct (gather x' i2) as [x2|]; cbn [bind res_map]; [|reflexivity].
      destruct (gather q' i2) as [q2|]; cbn [bind res_map]; [|reflexivity].
      match goal with |- context [gather (map ?f l') i2] => change (gather (map f l') i2) with (@gather X (map sh l') i2) end. rewrite GM.
      match goal with |- _ = res_map _ (bind ?M _) => change M with (@gather X l' i2) end. destruct (@gather X l' i2) as [l2|]; cbn [bind res_map]; [|reflexivity].
      match goal with |- bind ?M _ = _ => destruct M as [bl2|]; cbn [bind res_map]; reflexivity end.
    - cbn [bind res_map]. destruct (pa_resample a); [|reflexivity].
      match goal with |- bind ?M _ = _ => destruct M as [i2|]; cbn [bind res_map]; [|reflexivity] end. destruct (gather x i2) as [x2|]; cbn [bind res_map]; [|reflexivity].
      destruct (gather q i2) as [q2|]; cbn [bind res_map]; [|reflexivity].
      match goal with |- context [gather (map ?f l) i2] => change (gather (map f l) i2) with (@gather X (map sh l) i2) end. rewrite GM.
      match goal with |- _ = res_map _ (bind ?M _) => change M with (@gather X l i2) end. destruct (@gather X l i2) as [l2|]; cbn [bind res_map]; [|reflexivity].
      match goal with |- bind ?M _ = _ => destruct M as [bl2|]; cbn [bind res_map]; reflexivity end.
  Qed.
End Rescale.

Theorem run_rescale {C P Opt} (c : R) (W : world X C P Opt) o a R0 s : new_sampler W o = Ok s ->
  new_sampler (rescale_world c W) o = Ok s /\
  match run W a R0 s, run (rescale_world c W) a R0 s with
  | (evs, Ok s1), (evs', Ok s2) => map ev_file evs' = map ev_file evs /\ differ_in_prior c ((0 <? ra_n_evidence a)%Z && a_precondition o) s1 s2
  | (evs, Err e), (evs', Err e') => map ev_file evs' = map ev_file evs /\ e' = e
  | _, _ => False
  end.
Proof.
  intros H. split; [exact H|].
  assert (E : rescale_sampler c s = s /\ c_preconditioned (s_cfg s) = a_precondition o).
  { unfold new_sampler in H. repeat match type of H with bind ?M _ = Ok _ => let v := fresh "v" in apply bind_ok in H as [v [_ H]] end. apply Ok_inj in H. subst s. split; reflexivity. }
  destruct E as [E EP]. unfold run. pose proof (run_from_rescale c W a R0 s) as K. rewrite E in K. rewrite K. unfold rescale_traced.
  destruct (run_from W a R0 s) as [evs [s1|e]] eqn:ER; cbn [fst snd res_map]; rewrite map_map; (split; [reflexivity|]); [|reflexivity].
  assert (EV : exists z err, evidence s1 = (Some z, err) /\ ((0 <? ra_n_evidence a)%Z && a_precondition o = true <-> err <> None)).
  { destruct (run_ends W (fun _ => True) false a R0 s evs s1 ER) as (s2 & H2 & En & Ec & _).
    apply evidence_facts in H2 as (n' & logz & err & calls & evals & hb & En' & -> & Hv). rewrite En in En'. injection En' as <-. exists logz, err. split; [reflexivity|].
    assert (EC2 : c_preconditioned (s_cfg s2) = a_precondition o) by (rewrite <- EP; exact (f_equal c_preconditioned Ec)). rewrite EC2 in Hv.
    destruct (_ && _); split; intros Q; try discriminate; try reflexivity.
    - destruct Hv as (xq & ldj & logp & logl & b & Hv). destruct (rn_flow _ _ _) as [theta logq]. cbv zeta in Hv. destruct Hv as (_ & _ & _ & _ & _ & _ & _ & ->). discriminate.
    - destruct Hv as (-> & _). easy. }
  destruct EV as (z & err & EV & EF). constructor; try reflexivity; try (split; reflexivity).
  - unfold evidence at 1. cbn [rescale_sampler s_logz s_logz_err]. unfold rescale_evidence. rewrite EV. cbn [fst snd option_map]. unfold evidence in EV. injection EV as E1 E2. rewrite E2.
    destruct err as [e|]; [rewrite (proj2 EF) by discriminate; reflexivity|]. destruct (_ && _); [exfalso; now apply (proj1 EF)|reflexivity].
  - intros pa us off. rewrite (posterior_rescale c pa us off s1). destruct (posterior pa us off s1); cbn [res_map]; repeat split.
Qed.

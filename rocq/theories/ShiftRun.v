(** * A constant added to the log-likelihood, phase by phase *)
From Coq Require Import ZArith String Reals Lra Lia.
From Coq Require Import List Bool.
From Verif Require Import Num PyBase PyBaseFacts XReal Tools Scaler Particles ParticlesFacts LogLike Geometry Mcmc SpecMcmc McmcFacts McmcInv Flow Sampler ConfigFacts SamplerFacts SpecReach SpecShift ShiftX ShiftMcmc ShiftSampler.
Import ListNotations.
Set Bullet Behavior "Strict Subproofs".
Local Open Scope R_scope.

Section Shift.
  Context {C P Opt : Type}.
  Variable c : R.
  Notation B := (list C).
  Notation sh := (sh c).
  Notation tilt := (tilt c).
  Notation shift_past := (shift_past c).
  Notation shift_sampler := (shift_sampler c).
  Notation shift_current := (shift_current c).
  Notation shift_ret := (shift_ret c).
  Notation sampler := (sampler X C P).
  Notation rand := (rand X C P).
  Variable W : world X C P Opt.
  Notation W' := (shift_world c W).

  (** ** Likelihood *)
  Lemma split_shift rs : split_results (map shift_ret rs) = res_map (shift_out c) (@split_results X C rs).
  Proof.
    unfold split_results.
    assert (A : existsb is_scalar (map shift_ret rs) = existsb is_scalar rs) by (clear; induction rs as [|r rs IH]; [reflexivity|]; cbn [map existsb]; rewrite IH; destruct r; reflexivity).
    assert (D : flat_map blob_of (map shift_ret rs) = flat_map blob_of rs) by (clear; induction rs as [|r rs IH]; [reflexivity|]; cbn [map flat_map]; rewrite IH; destruct r; reflexivity).
    assert (F : mapM as_float (map shift_ret rs) = res_map (map sh) (mapM as_float rs)).
    { clear. induction rs as [|r rs IH]; [reflexivity|]. cbn [map mapM]. rewrite IH. destruct r; cbn [SpecShift.shift_ret as_float bind res_map]; try reflexivity; destruct (mapM as_float rs); reflexivity. }
    assert (G : mapM first_of (map shift_ret rs) = res_map (map sh) (mapM first_of rs)).
    { clear. induction rs as [|r rs IH]; [reflexivity|]. cbn [map mapM]. rewrite IH. destruct r; cbn [SpecShift.shift_ret first_of bind res_map]; try reflexivity; destruct (mapM first_of rs); reflexivity. }
    rewrite A, D, F, G. destruct (existsb is_scalar rs); [destruct (mapM as_float rs); reflexivity|].
    destruct (flat_map blob_of rs); [destruct (mapM as_float rs); reflexivity|]. destruct (mapM first_of rs); [reflexivity|]. destruct (mapM as_float rs); reflexivity.
  Qed.
  Lemma like_shift s x : maps (s_pool s) -> sampler_like W' (shift_sampler s) x = res_map (shift_out c) (sampler_like W s x).
  Proof.
    intros HM. unfold sampler_like, log_like. cbn [shift_sampler s_cfg s_pool shift_world wd_vlike wd_like].
    destruct (c_vectorize (s_cfg s)); [reflexivity|]. destruct (s_pool s) as [d|].
    - rewrite !HM. rewrite <- split_shift, map_map. reflexivity.
    - rewrite <- split_shift, map_map. reflexivity.
  Qed.

  (** ** The history *)
  Lemma update_shift (p : past X B) k : ladder p -> real_beta k -> update (shift_past p) (items (shift_current k)) = shift_past (update p (items k)).
  Proof.
    intros [bs [Hb HL]] _. rewrite !update_items. unfold SpecShift.shift_past. cbn [h_u h_x h_logdetj h_logl h_logp h_logw h_blobs h_iter h_logz h_calls h_steps h_efficiency h_ess h_accept h_beta
      SpecShift.shift_current cu_u cu_x cu_logl cu_logp cu_logdetj cu_logw cu_blobs cu_iter cu_calls cu_steps cu_efficiency cu_ess cu_accept cu_beta cu_logz]. f_equal.
    - now rewrite map_app.
    - assert (E : length (h_beta p) = length (h_logz p)) by (rewrite Hb, map_length; auto). revert E. generalize (h_beta p), (h_logz p). clear. intros l m. revert m.
      induction l as [|a l IH]; intros [|b m] E; try discriminate; [reflexivity|]. cbn. f_equal. apply IH. now injection E.
  Qed.
  Lemma ladder_update (p : past X B) k : ladder p -> real_beta k -> ladder (update p (items k)).
  Proof.
    intros [bs [Hb HL]] [b Hk]. exists (bs ++ [b]). rewrite update_items. cbn [h_beta h_logz]. rewrite Hb, Hk, map_app, !app_length, HL. auto.
  Qed.
  Lemma flat_logl (p : past X B) : get_flat (shift_past p) Klogl = res_map (map sh) (get_flat p Klogl).
  Proof.
    unfold get_flat. cbn [lookup SpecShift.shift_past h_logl].
    assert (M : forall l : list (vec X), mapM (fun v => of_option ValueError (rows_of (T:=X) (B:=B) Klogl v)) l = Ok l) by (induction l as [|v l IH]; [reflexivity|]; cbn [mapM]; rewrite IH; reflexivity).
    destruct (h_logl p) as [|v l]; [reflexivity|]. etransitivity; [exact (f_equal (fun r => bind r (fun cs => Ok (concat cs))) (M (map (map sh) (v :: l))))|].
    symmetry. etransitivity; [exact (f_equal (fun r => res_map (map sh) (bind r (fun cs => Ok (concat cs)))) (M (v :: l)))|]. cbn [bind res_map]. now rewrite concat_map.
  Qed.

  (** ** Warm-up *)
  Lemma put_map (f : X -> X) idx : forall vals l, put idx (map f vals) (map f l) = map f (put idx vals l).
  Proof.
    assert (S : forall i v l, set_nth i (f v) (map f l) = map f (set_nth i v l)) by (induction i as [|i IH]; intros v [|a l]; cbn; try reflexivity; now rewrite IH).
    induction idx as [|i idx IH]; intros [|v vals] l; cbn; try reflexivity. now rewrite S, IH.
  Qed.
  Lemma replace_shift ii idx a : replace_rows ii idx (map sh a) = res_map (map sh) (replace_rows ii idx a).
  Proof. unfold replace_rows. rewrite gather_map. destruct (gather a idx); cbn [bind res_map]; [|reflexivity]. now rewrite put_map. Qed.
  Lemma tilt_zero z : tilt (nofZ 0) z = z.
  Proof. unfold SpecShift.tilt. destruct z; cbn; try reflexivity. f_equal. ring. Qed.

  Definition good (s : sampler) : Prop := tempered s /\ maps (s_pool s).
  Definition stored (s : sampler) i ps have (u' x' : list (vec X)) ldj' logp' logl' (blobs' : option (list B)) : sampler :=
    let n := c_n_active (s_cfg s) in
    let calls := (s_calls s + Z.of_nat n)%Z in
    let k := {| cu_u := u'; cu_x := x'; cu_logl := logl'; cu_logp := logp'; cu_logdetj := ldj'; cu_logw := repeat (- nofZ (10 ^ 300))%num n; cu_blobs := blobs'; cu_iter := s_t s; cu_calls := calls;
                cu_steps := 1; cu_efficiency := nofZ 1; cu_ess := nofZ (s_n_effective s); cu_accept := nofZ 1; cu_beta := nofZ 0; cu_logz := nofZ 0; cu_weights := None |} in
    {| s_cfg := s_cfg s; s_pool := s_pool s; s_n_effective := s_n_effective s; s_have_blobs := have; s_n_total := s_n_total s; s_n_evidence := s_n_evidence s;
       s_particles := particles_update (s_particles s) (items k);
       s_t := (s_t s + 1)%Z; s_u_geometry := s_u_geometry s; s_theta_geometry := s_theta_geometry s; s_flow := s_flow s; s_untrained := s_untrained s; s_scaler := s_scaler s; s_prior_samples := Some (set_slice i n x' ps);
       s_logz := s_logz s; s_logz_err := s_logz_err s; s_current := Some k;
       s_warmup := s_warmup s; s_calls := calls; s_scale := s_scale s; s_evals := s_evals s ++ slice i n ps; s_evidence_evals := s_evidence_evals s |}.
  Lemma particles_shift (q : particles X B) k : ladder (p_past q) -> real_beta k -> particles_update (shift_particles c q) (items (shift_current k)) = shift_particles c (particles_update q (items k)).
  Proof. intros H1 H2. unfold particles_update, SpecShift.shift_particles. cbn [p_past p_results]. f_equal. now apply update_shift. Qed.
  Lemma stored_shift s i ps have u' x' ldj' logp' logl' blobs' : tempered s ->
    stored (shift_sampler s) i ps have u' x' ldj' logp' (map sh logl') blobs' = shift_sampler (stored s i ps have u' x' ldj' logp' logl' blobs').
  Proof.
    intros [H1 _]. unfold stored. cbn zeta. match goal with |- context [particles_update (s_particles s) (items ?k0)] => set (k := k0) end.
    match goal with |- context [particles_update (s_particles (shift_sampler s)) (items ?k0)] => assert (EK : k0 = shift_current k) end.
    { unfold SpecShift.shift_current, k. cbn [cu_u cu_x cu_logl cu_logp cu_logdetj cu_logw cu_blobs cu_iter cu_calls cu_steps cu_efficiency cu_ess cu_accept cu_beta cu_logz cu_weights]. rewrite tilt_zero. reflexivity. }
    cbv zeta. rewrite EK. change (s_particles (shift_sampler s)) with (shift_particles c (s_particles s)). rewrite particles_shift; [reflexivity|exact H1|]. exists 0. reflexivity.
  Qed.
  Lemma batch_shift R i s : good s -> warmup_batch W' R i (shift_sampler s) = res_map shift_sampler (warmup_batch W R i s).
  Proof.
    intros [HT HM]. unfold warmup_batch.
    change (s_prior_samples (shift_sampler s)) with (s_prior_samples s). change (s_cfg (shift_sampler s)) with (s_cfg s). change (s_scaler (shift_sampler s)) with (s_scaler s).
    change (s_t (shift_sampler s)) with (s_t s). change (wd_junk W') with (wd_junk W). change (wd_logpdf W') with (wd_logpdf W). cbn zeta.
    destruct (s_prior_samples s) as [ps|]; cbn [of_option bind res_map]; [|reflexivity].
    destruct (forward _ _ _ true) as [u|]; cbn [bind res_map]; [|reflexivity].
    destruct (inverse _ _ u) as [[x0 ldj]|]; cbn [bind res_map]; [|reflexivity].
    destruct (wd_logpdf W _) as [logp|]; cbn [bind res_map]; [|reflexivity]. rewrite like_shift by exact HM.
    destruct (sampler_like W s _) as [[logl blobs]|]; cbn [bind res_map shift_out fst snd]; [|reflexivity].
    change (after_like (shift_sampler s) blobs) with (after_like s blobs).
    match goal with |- context [map ?f (map sh logl)] => assert (MI : map f (map sh logl) = map f logl) by (rewrite map_map; apply map_ext; intros a; apply sh_inf) end.
    rewrite MI.
    match goal with |- bind (if ?b then _ else _) _ = _ => destruct b end.
    - destruct (choose_finite _ _ _) as [idx|]; cbn [bind res_map]; [|reflexivity].
      destruct (replace_rows _ idx (slice _ _ ps)) as [x'|]; cbn [bind res_map]; [|reflexivity]. destruct (replace_rows _ idx u) as [u'|]; cbn [bind res_map]; [|reflexivity].
      destruct (replace_rows _ idx ldj) as [ldj'|]; cbn [bind res_map]; [|reflexivity]. destruct (replace_rows _ idx logp) as [logp'|]; cbn [bind res_map]; [|reflexivity].
      rewrite replace_shift. destruct (replace_rows _ idx logl) as [logl'|]; cbn [bind res_map]; [|reflexivity].
      match goal with |- bind (bind ?M _) _ = _ => destruct M as [b'|]; cbn [bind res_map]; [|reflexivity] end.
      exact (f_equal Ok (stored_shift s i ps (after_like s blobs) u' x' ldj' logp' logl' b' HT)).
    - cbn [bind res_map]. exact (f_equal Ok (stored_shift s i ps (after_like s blobs) u _ ldj logp logl blobs HT)).
  Qed.

  (** ** One iteration *)
  Lemma reweight_shift fuel (s : sampler) : tempered s -> reweight fuel (shift_sampler s) = res_map shift_sampler (reweight fuel s).
  Proof.
    intros (H1 & _ & H3). unfold reweight. change (p_past (s_particles (shift_sampler s))) with (shift_past (p_past (s_particles s))). change (s_cfg (shift_sampler s)) with (s_cfg s).
    change (s_current (shift_sampler s)) with (option_map shift_current (s_current s)). change (s_n_effective (shift_sampler s)) with (s_n_effective s). change (s_have_blobs (shift_sampler s)) with (s_have_blobs s).
    destruct (s_current s) as [k|]; cbn [option_map of_option bind res_map]; [|reflexivity]. cbn zeta. rewrite next_beta_shift by exact H1.
    destruct (next_beta fuel _ _ _) as [[[b z] e]|] eqn:EN; cbn [bind res_map fst snd]; [|reflexivity]. destruct (next_beta_real fuel _ _ _ b z e H1 EN) as [b' ->].
    rewrite relative_shift by exact H1. destruct (relative_weights _ _) as [w|]; cbn [bind res_map]; [|reflexivity].
    destruct (adjust _ _ _) as [[n w']|]; cbn [bind res_map]; [|reflexivity]. destruct (trim_weights _ _ _ _) as [[[idx w''] t]|]; cbn [bind res_map]; [|reflexivity].
    change (get_flat (shift_past (p_past (s_particles s))) Ku) with (get_flat (p_past (s_particles s)) Ku). destruct (get_flat _ Ku) as [u|]; cbn [bind res_map]; [|reflexivity]. destruct (gather u idx) as [u'|]; cbn [bind res_map]; [|reflexivity].
    change (get_flat (shift_past (p_past (s_particles s))) Kx) with (get_flat (p_past (s_particles s)) Kx). destruct (get_flat _ Kx) as [x|]; cbn [bind res_map]; [|reflexivity]. destruct (gather x idx) as [x'|]; cbn [bind res_map]; [|reflexivity].
    change (get_flat (shift_past (p_past (s_particles s))) Klogdetj) with (get_flat (p_past (s_particles s)) Klogdetj). destruct (get_flat _ Klogdetj) as [d|]; cbn [bind res_map]; [|reflexivity]. destruct (gather d idx) as [d'|]; cbn [bind res_map]; [|reflexivity].
    rewrite flat_logl. destruct (get_flat _ Klogl) as [l|]; cbn [bind res_map]; [|reflexivity]. pose proof (gather_map sh l idx) as G.
    match goal with |- bind ?M _ = _ => change M with (@gather X (map sh l) idx) end. rewrite G. clear G.
    match goal with |- _ = res_map _ (bind ?M _) => change M with (@gather X l idx) end. destruct (@gather X l idx) as [l'|]; cbn [bind res_map]; [|reflexivity].
    change (get_flat (shift_past (p_past (s_particles s))) Klogp) with (get_flat (p_past (s_particles s)) Klogp). destruct (get_flat _ Klogp) as [q|]; cbn [bind res_map]; [|reflexivity]. destruct (gather q idx) as [q'|]; cbn [bind res_map]; [|reflexivity].
    change (get_flat (shift_past (p_past (s_particles s))) Kblobs) with (get_flat (p_past (s_particles s)) Kblobs). change (cu_blobs (shift_current k)) with (cu_blobs k).
    match goal with |- bind ?M _ = _ => destruct M as [b0|]; cbn [bind res_map]; [|reflexivity] end. reflexivity.
  Qed.
  Lemma train_shift R (s : sampler) : train W' R (shift_sampler s) = res_map shift_sampler (train W R s).
  Proof.
    unfold train. change (s_current (shift_sampler s)) with (option_map shift_current (s_current s)). destruct (s_current s) as [k|]; cbn [option_map of_option bind res_map]; [|reflexivity].
    cbn zeta. change (trains (shift_sampler s) (cu_beta (shift_current k))) with (trains s (cu_beta k)). destruct (trains s _) as [now|]; cbn [bind res_map]; [|reflexivity].
    change (s_flow (shift_sampler s)) with (s_flow s). change (s_cfg (shift_sampler s)) with (s_cfg s). change (cu_u (shift_current k)) with (cu_u k). change (cu_weights (shift_current k)) with (cu_weights k).
    change (s_t (shift_sampler s)) with (s_t s). change (wd_train W') with (wd_train W). change (wd_fit W') with (wd_fit W). change (s_u_geometry (shift_sampler s)) with (s_u_geometry s). change (s_theta_geometry (shift_sampler s)) with (s_theta_geometry s). change (s_untrained (shift_sampler s)) with (s_untrained s).
    match goal with |- bind ?M _ = res_map _ (bind ?M' _) => change M with M'; destruct M' as [[[[f ut] ug] tg]|]; cbn [bind res_map]; [|reflexivity] end. reflexivity.
  Qed.
  Lemma resample_shift (R : rand) (s : sampler) : resample R (shift_sampler s) = res_map shift_sampler (resample R s).
  Proof.
    unfold resample. change (s_current (shift_sampler s)) with (option_map shift_current (s_current s)). destruct (s_current s) as [k|]; cbn [option_map of_option bind res_map]; [|reflexivity].
    change (cu_weights (shift_current k)) with (cu_weights k). destruct (cu_weights k) as [w|] eqn:Ew; cbn [of_option bind res_map]; [|reflexivity].
    change (resample_indices R (shift_sampler s) w) with (resample_indices R s w). destruct (resample_indices R s w) as [idx|]; cbn [bind res_map]; [|reflexivity].
    change (cu_u (shift_current k)) with (cu_u k). destruct (gather (cu_u k) idx) as [u'|]; cbn [bind res_map]; [|reflexivity].
    change (cu_x (shift_current k)) with (cu_x k). destruct (gather (cu_x k) idx) as [x'|]; cbn [bind res_map]; [|reflexivity].
    change (cu_logdetj (shift_current k)) with (cu_logdetj k). destruct (gather (cu_logdetj k) idx) as [d'|]; cbn [bind res_map]; [|reflexivity].
    change (cu_logl (shift_current k)) with (map sh (cu_logl k)). etransitivity; [apply (f_equal (fun r => bind r _)), (gather_map sh (cu_logl k) idx)|]. destruct (gather (cu_logl k) idx) as [l'|]; cbn [bind res_map]; [|reflexivity].
    change (cu_logp (shift_current k)) with (cu_logp k). destruct (gather (cu_logp k) idx) as [q'|]; cbn [bind res_map]; [|reflexivity].
    change (cu_blobs (shift_current k)) with (cu_blobs k). change (s_have_blobs (shift_sampler s)) with (s_have_blobs s).
    match goal with |- bind ?M _ = _ => destruct M as [b0|]; cbn [bind res_map]; [|reflexivity] end.
    reflexivity.
  Qed.
End Shift.

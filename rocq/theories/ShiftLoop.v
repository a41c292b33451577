(** * A constant added to the log-likelihood, over whole runs *)
From Coq Require Import ZArith String Reals Lra Lia.
From Coq Require Import List Bool.
From Verif Require Import Num PyBase PyBaseFacts XReal Tools Scaler Particles ParticlesFacts LogLike Geometry Mcmc SpecMcmc McmcFacts McmcInv Flow Sampler ConfigFacts SamplerFacts SpecReach CounterFacts SpecShift ShiftX ShiftMcmc ShiftSampler ShiftRun.
Import ListNotations.
Set Bullet Behavior "Strict Subproofs".
Local Open Scope R_scope.

Section Shift.
  Context {C P Opt : Type}.
  Variable c : R.
  Notation B := (list C).
  Notation sh := (sh c).
  Notation tilt := (tilt c).
  Notation shift_past := (shift_past c).
  Notation shift_sampler := (shift_sampler c).
  Notation shift_current := (shift_current c).
  Notation sampler := (sampler X C P).
  Notation rand := (rand X C P).
  Variable W : world X C P Opt.
  Notation W' := (shift_world c W).

  Definition even_rows (s : sampler) : Prop := forall k, s_current s = Some k -> exists n, length (cu_u k) = n /\ length (cu_x k) = n /\ length (cu_logdetj k) = n /\ length (cu_logl k) = n /\ length (cu_logp k) = n /\
    (s_have_blobs s = true -> match cu_blobs k with Some b => length b = n | None => True end).
  Lemma mutate_shift (R : rand) (s : sampler) : good s -> even_rows s -> mutate W' R (shift_sampler s) = res_map shift_sampler (mutate W R s).
  Proof.
    intros [(_ & _ & H3) HM] HE. unfold mutate. change (s_current (shift_sampler s)) with (option_map shift_current (s_current s)).
    destruct (s_current s) as [k|] eqn:EC; cbn [option_map of_option bind res_map]; [|reflexivity]. cbn zeta.
    change (s_cfg (shift_sampler s)) with (s_cfg s). change (s_have_blobs (shift_sampler s)) with (s_have_blobs s). change (cu_blobs (shift_current k)) with (cu_blobs k).
    assert (Hblobs : forall b, (if s_have_blobs s then let! b := of_option AttributeError (cu_blobs k) in Ok (Some b) else Ok None) = Ok b ->
      exists n, length (cu_u k) = n /\ length (cu_x k) = n /\ length (cu_logdetj k) = n /\ length (cu_logl k) = n /\ length (cu_logp k) = n /\ match b with Some b => length b = n | None => True end).
    { intros b Hb. destruct (HE k EC) as (n & G1 & G2 & G3 & G4 & G5 & G6). exists n. repeat (split; [assumption|]). destruct (s_have_blobs s).
      - specialize (G6 eq_refl). destruct (cu_blobs k); [|discriminate]. injection Hb as <-. exact G6.
      - injection Hb as <-. exact I. }
    destruct (if s_have_blobs s then _ else _) as [b|]; cbn [bind res_map]; [|reflexivity]. destruct (Hblobs b eq_refl) as (n & G1 & G2 & G3 & G4 & G5 & G6). clear Hblobs.
    destruct (H3 k eq_refl) as [beta Hbeta].
    set (ks := {| s_u := cu_u k; s_x := cu_x k; s_logdetj := cu_logdetj k; s_logl := cu_logl k; s_logp := cu_logp k; s_blobs := b; s_beta := cu_beta k |}).
    assert (RT : rectangular (walkers_of ks [] []) n) by (constructor; assumption).
    pose proof (kernel_shift c (kernel_env_of W s) (sampler_like W' (shift_sampler s)) (fun x => like_shift c W s x HM) beta (kernel_of (s_cfg s)) (if c_preconditioned (s_cfg s) then s_theta_geometry s else s_u_geometry s)
      (s_scale s) ks (ir_step (rn_iter R (s_t s))) n Hbeta RT) as K.
    match goal with |- bind ?M _ = res_map _ (bind ?M' _) =>
      assert (E1 : M = kernel_fun (kernel_of (s_cfg s)) (with_like (kernel_env_of W s) (sampler_like W' (shift_sampler s))) (if c_preconditioned (s_cfg s) then s_theta_geometry s else s_u_geometry s)
        (s_scale s) (shift_k c ks) (ir_step (rn_iter R (s_t s)))) by (unfold kernel_of; destruct (c_preconditioned (s_cfg s)), (c_sample (s_cfg s)); reflexivity);
      assert (E2 : M' = kernel_fun (kernel_of (s_cfg s)) (kernel_env_of W s) (if c_preconditioned (s_cfg s) then s_theta_geometry s else s_u_geometry s)
        (s_scale s) ks (ir_step (rn_iter R (s_t s)))) by (unfold kernel_of; destruct (c_preconditioned (s_cfg s)), (c_sample (s_cfg s)); reflexivity) end.
    rewrite E1, E2, K. destruct (kernel_fun _ _ _ _ ks _) as [o|]; cbn [bind res_map]; [|reflexivity]. reflexivity.
  Qed.

  (** ** What the phases keep *)
  Lemma reweight_good fuel (s s1 : sampler) : good s -> reweight fuel s = Ok s1 -> good s1.
  Proof.
    intros [(H1 & H2 & H3) HM] H. apply reweight_facts in H as (k & beta & logz & ess & w0 & neff & w1 & idx & w2 & left & u & x & ldj & logl & logp & b & c1 & _ & Hb & _ & _ & _ & _ & _ & _ & _ & _ & _ & -> & ->).
    split; [|exact HM]. split; [exact H1|]. split; [exact H2|]. cbn [s_current]. intros k0 [= <-]. exact (next_beta_real fuel _ _ _ beta logz ess H1 Hb).
  Qed.
  Lemma train_good R (s s1 : sampler) : good s -> train W R s = Ok s1 -> good s1.
  Proof.
    intros [(H1 & H2 & H3) HM] H. apply train_facts in H as (k & now & flow & ut & ug & tg & Hk & _ & _ & ->).
    split; [|exact HM]. split; [exact H1|]. split; [exact H2|]. cbn [s_current]. intros k0 [= <-]. exact (H3 k Hk).
  Qed.
  Lemma resample_good (R : rand) (s s1 : sampler) : good s -> resample R s = Ok s1 -> good s1 /\ even_rows s1.
  Proof.
    intros [(H1 & H2 & H3) HM] H. apply resample_facts in H as (k & w & idx & u & x & ldj & logl & logp & b & Hk & _ & _ & G1 & G2 & G3 & G4 & G5 & G6 & ->).
    split.
    - split; [|exact HM]. split; [exact H1|]. split; [exact H2|]. cbn [with_current s_current]. intros k0 [= <-]. exact (H3 k Hk).
    - intros k0 [= <-]. exists (length idx). cbn [cu_u cu_x cu_logdetj cu_logl cu_logp cu_blobs with_current s_have_blobs]. apply gather_length in G1, G2, G3, G4, G5. repeat (split; [assumption|]).
      intros E. rewrite E in G6. destruct G6 as (b0 & b' & _ & -> & G6). now apply gather_length in G6.
  Qed.
  Lemma mutate_good R (s s1 : sampler) : good s -> mutate W R s = Ok s1 -> good s1.
  Proof.
    intros [(H1 & H2 & H3) HM] H. apply mutate_facts in H as (k & b & ks & r & k' & Hk & _ & _ & _ & _ & -> & ->).
    split; [|exact HM]. split; [exact H1|]. split; [exact H2|]. cbn [s_current]. intros k0 [= <-]. exact (H3 k Hk).
  Qed.
  Lemma store_good (s : sampler) k : good s -> s_current s = Some k -> good (with_particles s (particles_update (s_particles s) (items k))).
  Proof.
    intros [(H1 & H2 & H3) HM] Hk. split; [|exact HM]. split; [|split; [exact H2|exact H3]]. cbn [with_particles s_particles particles_update p_past]. apply ladder_update; [exact H1|exact (H3 k Hk)].
  Qed.
  Lemma iteration_good fuel R (s s' : sampler) : good s -> iteration W fuel R s = Ok s' -> good s'.
  Proof.
    intros G H. apply iteration_facts in H as (s1 & s2 & s3 & s4 & k & E1 & E2 & E3 & E4 & Hk & ->).
    apply store_good; [|exact Hk]. eapply mutate_good; [|exact E4]. eapply resample_good; [|exact E3]. eapply train_good; [|exact E2]. eapply reweight_good; [|exact E1]. exact G.
  Qed.
  Lemma iteration_shift fuel R (s : sampler) : good s -> iteration W' fuel R (shift_sampler s) = res_map shift_sampler (iteration W fuel R s).
  Proof.
    intros G. unfold iteration. rewrite reweight_shift by apply G. destruct (reweight fuel s) as [s1|] eqn:E1; cbn [bind res_map]; [|reflexivity]. pose proof (reweight_good _ _ _ G E1) as G1.
    rewrite train_shift. destruct (train W R s1) as [s2|] eqn:E2; cbn [bind res_map]; [|reflexivity]. pose proof (train_good _ _ _ G1 E2) as G2.
    rewrite resample_shift. destruct (resample R s2) as [s3|] eqn:E3; cbn [bind res_map]; [|reflexivity]. destruct (resample_good _ _ _ G2 E3) as [G3 RE].
    rewrite (mutate_shift R s3 G3 RE). destruct (mutate W R s3) as [s4|] eqn:E4; cbn [bind res_map]; [|reflexivity]. pose proof (mutate_good _ _ _ G3 E4) as [(H1 & H2 & H3) HM].
    change (s_current (shift_sampler s4)) with (option_map shift_current (s_current s4)). destruct (s_current s4) as [k|] eqn:Ek; cbn [option_map of_option bind res_map]; [|reflexivity].
    apply (f_equal Ok). unfold with_particles. change (s_particles (shift_sampler s4)) with (shift_particles c (s_particles s4)). rewrite particles_shift; [|exact H1|exact (H3 k eq_refl)]. reflexivity.
  Qed.

  Lemma batch_good R i (s s' : sampler) : good s -> warmup_batch W R i s = Ok s' -> good s'.
  Proof.
    intros [(H1 & H2 & H3) HM] H. apply warmup_facts in H as (ps & x0 & u0 & xi & ldj0 & logp0 & logl0 & b0 & x & u & ldj & logp & logl & b & k & _ & _ & _ & _ & _ & _ & _ & Hk & ->).
    assert (RB : real_beta k) by (exists 0; subst k; reflexivity).
    split; [|exact HM]. split; [|split; [exact H2|]]; cbn [s_particles particles_update p_past s_current].
    - now apply ladder_update.
    - intros k0 [= <-]. exact RB.
  Qed.
  Lemma termination_shift (s : sampler) : good s -> not_termination (shift_sampler s) = not_termination s.
  Proof.
    intros [(H1 & H2 & H3) HM]. unfold not_termination. change (p_past (s_particles (shift_sampler s))) with (shift_past (p_past (s_particles s))). change (nofZ 1) with (Fin 1). rewrite ess_shift by exact H1.
    change (s_cfg (shift_sampler s)) with (s_cfg s). destruct (ess_at _ _ _) as [e|]; cbn [bind]; [|reflexivity]. change (s_current (shift_sampler s)) with (option_map shift_current (s_current s)).
    destruct (s_current s) as [k|]; reflexivity.
  Qed.
  Lemma draw_shift R (s : sampler) : draw_prior W' R (shift_sampler s) = res_map shift_sampler (draw_prior W R s).
  Proof.
    unfold draw_prior. change (s_prior_samples (shift_sampler s)) with (s_prior_samples s). destruct (s_prior_samples s); [reflexivity|].
    change (s_cfg (shift_sampler s)) with (s_cfg s). destruct (rn_prior R _) as [ps|]; cbn [bind res_map]; [|reflexivity].
    change (s_scaler (shift_sampler s)) with (s_scaler s). change (wd_linalg W') with (wd_linalg W). change (wd_junk W') with (wd_junk W). destruct (fit _ _ _ ps) as [sc|]; reflexivity.
  Qed.
  Lemma draw_good R (s s' : sampler) : good s -> draw_prior W R s = Ok s' -> good s'.
  Proof.
    intros G. unfold draw_prior. destruct (s_prior_samples s); [now intros [= <-]|]. intros H. apply bind_ok in H as [ps [_ H]]. apply bind_ok in H as [sc [_ H]]. apply Ok_inj in H as <-. exact G.
  Qed.

  (** ** Evidence *)
  Lemma log_mean_shift l : log_mean (map sh l) = sh (log_mean l).
  Proof. unfold log_mean. rewrite map_length, lse_shift. apply sh_sub_r. Qed.
  Lemma nstd_shift l : nstd (map sh l) = nstd l.
  Proof.
    unfold nstd. rewrite map_map. do 2 f_equal. apply map_ext. intros a. f_equal. rewrite mean_shift. apply sh_sub.
  Qed.
  Lemma boot_shift (f : nat -> nat) (l : list X) : map (fun i => nth (Nat.modulo (f i) (length l)) (map sh l) (nofZ 0)) (seq 0 (length l)) = map sh (map (fun i => nth (Nat.modulo (f i) (length l)) l (nofZ 0)) (seq 0 (length l))).
  Proof.
    rewrite map_map. apply map_ext_in. intros i Hi. apply in_seq in Hi. rewrite (nth_indep _ _ (sh (nofZ 0))) by (rewrite map_length; apply Nat.mod_upper_bound; lia). apply map_nth.
  Qed.
  Lemma importance_shift (ll a b d : list X) : map2 xsub (map2 xadd (map2 xadd (map sh ll) a) b) d = map sh (map2 xsub (map2 xadd (map2 xadd ll a) b) d).
  Proof. rewrite (map2_shift c xadd (sh_add c)), (map2_shift c xadd (sh_add c)), (map2_shift c xsub (sh_sub_r c)). reflexivity. Qed.
  Lemma compute_evidence_shift R n (s : sampler) : good s -> compute_evidence W' R n (shift_sampler s) = res_map shift_sampler (compute_evidence W R n s).
  Proof.
    intros [HT HM]. unfold compute_evidence. change (s_flow (shift_sampler s)) with (s_flow s). destruct (rn_flow R (s_flow s) n) as [th lq].
    change (s_scaler (shift_sampler s)) with (s_scaler s). change (wd_junk W') with (wd_junk W). destruct (inverse _ _ th) as [[x ld]|]; cbn [bind res_map]; [|reflexivity].
    change (wd_logpdf W') with (wd_logpdf W). destruct (wd_logpdf W x) as [lp|]; cbn [bind res_map]; [|reflexivity]. cbn zeta.
    rewrite like_shift by exact HM. destruct (sampler_like W s _) as [[ll bl]|]; cbn [bind res_map shift_out fst snd]; [|reflexivity].
    match goal with |- context [map2 ?f (map2 ?g (map2 ?h (map sh ll) ?a) ?b) ?d] => assert (E : map2 f (map2 g (map2 h (map sh ll) a) b) d = map sh (map2 f (map2 g (map2 h ll a) b) d)) by apply importance_shift end.
    rewrite E. match goal with |- context [map sh ?A] => set (lw := A) end. clearbody lw. clear E.
    rewrite map_length. rewrite log_mean_shift.
    match goal with |- context [nstd ?A] => match A with map (fun j => log_mean (map _ _)) _ => assert (EB : A = map sh (map (fun j => log_mean (map (fun i => nth (Nat.modulo (rn_boot R j i) (length lw)) lw (nofZ 0)) (seq 0 (length lw)))) (seq 0 (Nat.max n 1000)))) end end.
    { rewrite map_map. apply map_ext. intros j. rewrite <- log_mean_shift. apply f_equal, boot_shift. }
    rewrite EB, nstd_shift. reflexivity.
  Qed.
  Lemma final_shift R (s : sampler) : good s -> final_evidence W' R (shift_sampler s) = res_map shift_sampler (final_evidence W R s).
  Proof.
    intros G. unfold final_evidence. change (s_n_evidence (shift_sampler s)) with (s_n_evidence s). destruct (s_n_evidence s) as [n|]; cbn [of_option bind res_map]; [|reflexivity].
    change (s_cfg (shift_sampler s)) with (s_cfg s). destruct (_ && _); [now apply compute_evidence_shift|].
    change (p_past (s_particles (shift_sampler s))) with (shift_past (p_past (s_particles s))). change (nofZ 1) with (Fin 1). rewrite weights_shift by apply G.
    destruct (compute_logw_and_logz _ _ _) as [[w z]|]; cbn [bind res_map fst snd]; [|reflexivity]. apply (f_equal Ok). rewrite tilt_sh, Rmult_1_r. reflexivity.
  Qed.
  Lemma final_good R (s s' : sampler) : good s -> final_evidence W R s = Ok s' -> good s'.
  Proof. intros G H. apply evidence_facts in H as (n & lz & err & calls & ev & hb & _ & H). match type of H with ?A = _ => idtac | ?A /\ _ => idtac end. destruct H as [-> _]. exact G. Qed.

  (** ** Loops *)
  Notation shift_event := (shift_event c).
  Notation shift_traced := (shift_traced c).
  Definition holds (t : traced X C P) : Prop := forall s, snd t = Ok s -> good s.
  Lemma tbind_shift (m : traced X C P) f f' : holds m -> (forall s, good s -> f' (shift_sampler s) = shift_traced (f s)) -> tbind (shift_traced m) f' = shift_traced (tbind m f).
  Proof.
    intros H K. destruct m as [evs [s|e]]; cbn [SpecShift.shift_traced fst snd res_map tbind]; [|reflexivity]. rewrite K by (apply H; reflexivity). destruct (f s) as [evs' r]. unfold SpecShift.shift_traced. cbn [fst snd]. now rewrite map_app.
  Qed.
  Lemma tbind_holds (m : traced X C P) f : holds m -> (forall s, good s -> holds (f s)) -> holds (tbind m f).
  Proof. intros H K. destruct m as [evs [s|e]]; cbn [tbind]; [|exact H]. specialize (K s (H s eq_refl)). destruct (f s) as [evs' r]. exact K. Qed.
  Lemma lift_shift (m m' : res sampler) : m' = res_map shift_sampler m -> lift m' = shift_traced (lift m).
  Proof. now intros ->. Qed.
  Lemma checkpoint_shift k t0 (s : sampler) : checkpoint k t0 (shift_sampler s) = shift_traced (checkpoint k t0 s).
  Proof. unfold checkpoint. destruct k as [k|]; [|reflexivity]. destruct (k =? 0)%Z; [reflexivity|]. change (s_t (shift_sampler s)) with (s_t s). destruct (_ && _); reflexivity. Qed.
  Lemma checkpoint_holds k t0 (s : sampler) : good s -> holds (checkpoint k t0 s).
  Proof. intros G s' H. unfold checkpoint in H. destruct k as [k|]; [|now injection H as <-]. destruct (k =? 0)%Z; [discriminate|]. destruct (_ && _); now injection H as <-. Qed.
  Lemma warmup_loop_shift k t0 R : forall n i s, good s -> warmup_loop W' k t0 R i n (shift_sampler s) = shift_traced (warmup_loop W k t0 R i n s) /\ holds (warmup_loop W k t0 R i n s).
  Proof.
    induction n as [|n IH]; intros i s G; cbn [warmup_loop]; [split; [reflexivity|now intros s' [= <-]]|]. rewrite checkpoint_shift.
    assert (K : forall s1, good s1 -> tbind (lift (warmup_batch W' R i (shift_sampler s1))) (warmup_loop W' k t0 R (S i) n) = shift_traced (tbind (lift (warmup_batch W R i s1)) (warmup_loop W k t0 R (S i) n)) /\ holds (tbind (lift (warmup_batch W R i s1)) (warmup_loop W k t0 R (S i) n))).
    { intros s1 G1. assert (L : holds (lift (warmup_batch W R i s1))) by (intros s2 E; exact (batch_good R i s1 s2 G1 E)). rewrite (lift_shift _ _ (batch_shift c W R i s1 G1)). split; [apply tbind_shift|apply tbind_holds]; try exact L; intros s2 G2; now apply IH. }
    split; [apply tbind_shift|apply tbind_holds]; try (now apply checkpoint_holds); intros s1 G1; now apply K.
  Qed.
  Lemma warmup_shift k t0 R s : good s -> warmup W' k t0 R (shift_sampler s) = shift_traced (warmup W k t0 R s) /\ holds (warmup W k t0 R s).
  Proof.
    intros G. unfold warmup. change (s_warmup (shift_sampler s)) with (s_warmup s). destruct (s_warmup s); [|split; [reflexivity|now intros s' [= <-]]].
    change (s_cfg (shift_sampler s)) with (s_cfg s). destruct (Nat.eqb _ 0); [split; [reflexivity|discriminate]|]. destruct (warmup_loop_shift k t0 R (n_batches (s_cfg s)) 0%nat s G) as [E H].
    split; [rewrite E; apply tbind_shift; [exact H|reflexivity]|apply tbind_holds; [exact H|]]. intros s1 G1 s2 [= <-]. exact G1.
  Qed.
  Lemma smc_shift bf k t0 R : forall fuel s, good s -> smc_loop W' fuel bf k t0 R (shift_sampler s) = shift_traced (smc_loop W fuel bf k t0 R s) /\ holds (smc_loop W fuel bf k t0 R s).
  Proof.
    assert (E0 : forall fuel s, smc_loop W fuel bf k t0 R s = match not_termination s with Err e => ([], Err e) | Ok false => ([], Ok s) | Ok true => match fuel with O => ([], Err Diverge) | S f =>
      tbind (checkpoint k t0 s) (fun s => tbind (lift (iteration W bf R s)) (smc_loop W f bf k t0 R)) end end) by (intros [|f] s; reflexivity).
    assert (E0' : forall fuel s, smc_loop W' fuel bf k t0 R s = match not_termination s with Err e => ([], Err e) | Ok false => ([], Ok s) | Ok true => match fuel with O => ([], Err Diverge) | S f =>
      tbind (checkpoint k t0 s) (fun s => tbind (lift (iteration W' bf R s)) (smc_loop W' f bf k t0 R)) end end) by (intros [|f] s; reflexivity).
    induction fuel as [|f IH]; intros s G; rewrite E0, E0', termination_shift by exact G; (destruct (not_termination s) as [[]|]; [|split; [reflexivity|now intros s' [= <-]]|split; [reflexivity|discriminate]]); [split; [reflexivity|discriminate]|].
    rewrite checkpoint_shift.
    assert (K : forall s1, good s1 -> tbind (lift (iteration W' bf R (shift_sampler s1))) (smc_loop W' f bf k t0 R) = shift_traced (tbind (lift (iteration W bf R s1)) (smc_loop W f bf k t0 R)) /\ holds (tbind (lift (iteration W bf R s1)) (smc_loop W f bf k t0 R))).
    { intros s1 G1. assert (L : holds (lift (iteration W bf R s1))) by (intros s2 E; exact (iteration_good bf R s1 s2 G1 E)). rewrite (lift_shift _ _ (iteration_shift bf R s1 G1)). split; [apply tbind_shift|apply tbind_holds]; try exact L; intros s2 G2; now apply IH. }
    split; [apply tbind_shift|apply tbind_holds]; try (now apply checkpoint_holds); intros s1 G1; now apply K.
  Qed.
  Theorem run_from_shift a R s : good s -> run_from W' a R (shift_sampler s) = shift_traced (run_from W a R s) /\ holds (run_from W a R s).
  Proof.
    intros G. unfold run_from. cbn zeta. change (s_t (shift_sampler s)) with (s_t s).
    change (set_targets (ra_n_total a) (ra_n_evidence a) (shift_sampler s)) with (shift_sampler (set_targets (ra_n_total a) (ra_n_evidence a) s)).
    rewrite (lift_shift _ _ (draw_shift R _)).
    assert (L : holds (lift (draw_prior W R (set_targets (ra_n_total a) (ra_n_evidence a) s)))) by (intros s2 E; refine (draw_good R _ s2 _ E); exact G).
    assert (K1 : forall s1, good s1 -> let f := fun s : sampler => match ra_save_every a with None => ([], Ok s) | Some _ => ([{| ev_file := Final; ev_state := s |}], Ok s) end in f (shift_sampler s1) = shift_traced (f s1) /\ holds (f s1)).
    { intros s1 G1 f. unfold f. destruct (ra_save_every a); split; try reflexivity; now intros s2 [= <-]. }
    assert (K2 : forall s1, good s1 -> let f := fun s : sampler => match ra_save_every a with None => ([], Ok s) | Some _ => ([{| ev_file := Final; ev_state := s |}], Ok s) end in
      tbind (lift (final_evidence W' R (shift_sampler s1))) f = shift_traced (tbind (lift (final_evidence W R s1)) f) /\ holds (tbind (lift (final_evidence W R s1)) f)).
    { intros s1 G1 f. assert (L1 : holds (lift (final_evidence W R s1))) by (intros s2 E; exact (final_good R s1 s2 G1 E)). rewrite (lift_shift _ _ (final_shift R s1 G1)).
      split; [apply tbind_shift|apply tbind_holds]; try exact L1; intros s2 G2; now apply K1. }
    set (f := fun s : sampler => match ra_save_every a with None => ([], Ok s) | Some _ => ([{| ev_file := Final; ev_state := s |}], Ok s) end) in *.
    assert (K3 : forall s1, good s1 ->
      tbind (smc_loop W' (ra_fuel a) (ra_bfuel a) (ra_save_every a) (s_t s) R (shift_sampler s1)) (fun s => tbind (lift (final_evidence W' R s)) f) =
      shift_traced (tbind (smc_loop W (ra_fuel a) (ra_bfuel a) (ra_save_every a) (s_t s) R s1) (fun s => tbind (lift (final_evidence W R s)) f)) /\
      holds (tbind (smc_loop W (ra_fuel a) (ra_bfuel a) (ra_save_every a) (s_t s) R s1) (fun s => tbind (lift (final_evidence W R s)) f))).
    { intros s1 G1. destruct (smc_shift (ra_bfuel a) (ra_save_every a) (s_t s) R (ra_fuel a) s1 G1) as [E H]. rewrite E. split; [apply tbind_shift|apply tbind_holds]; try exact H; intros s2 G2; now apply K2. }
    assert (K4 : forall s1, good s1 ->
      tbind (warmup W' (ra_save_every a) (s_t s) R (shift_sampler s1)) (fun s0 => tbind (smc_loop W' (ra_fuel a) (ra_bfuel a) (ra_save_every a) (s_t s) R s0) (fun s => tbind (lift (final_evidence W' R s)) f)) =
      shift_traced (tbind (warmup W (ra_save_every a) (s_t s) R s1) (fun s0 => tbind (smc_loop W (ra_fuel a) (ra_bfuel a) (ra_save_every a) (s_t s) R s0) (fun s => tbind (lift (final_evidence W R s)) f))) /\
      holds (tbind (warmup W (ra_save_every a) (s_t s) R s1) (fun s0 => tbind (smc_loop W (ra_fuel a) (ra_bfuel a) (ra_save_every a) (s_t s) R s0) (fun s => tbind (lift (final_evidence W R s)) f)))).
    { intros s1 G1. destruct (warmup_shift (ra_save_every a) (s_t s) R s1 G1) as [E H]. rewrite E. split; [apply tbind_shift|apply tbind_holds]; try exact H; intros s2 G2; now apply K3. }
    split; [apply tbind_shift|apply tbind_holds]; try exact L; intros s1 G1; now apply K4.
  Qed.

  (** ** Reading the results *)
  Lemma posterior_shift a us off (s : sampler) : good s -> posterior a us off (shift_sampler s) = res_map (shift_posterior c) (posterior a us off s).
  Proof.
    intros [(H1 & _) _]. unfold posterior. change (p_past (s_particles (shift_sampler s))) with (shift_past (p_past (s_particles s))). change (s_cfg (shift_sampler s)) with (s_cfg s). change (s_have_blobs (shift_sampler s)) with (s_have_blobs s).
    set (p := p_past (s_particles s)) in *. clearbody p. cbn zeta.
    destruct (if _ && _ then _ else _); cbn [bind res_map]; [|reflexivity].
    change (get_flat (shift_past p) Kx) with (get_flat p Kx). destruct (get_flat p Kx) as [x|]; cbn [bind res_map]; [|reflexivity].
    rewrite flat_logl. destruct (get_flat p Klogl) as [l|]; cbn [bind res_map]; [|reflexivity].
    change (get_flat (shift_past p) Klogp) with (get_flat p Klogp). destruct (get_flat p Klogp) as [q|]; cbn [bind res_map]; [|reflexivity].
    change (get_flat (shift_past p) Kblobs) with (get_flat p Kblobs). match goal with |- bind ?M _ = _ => destruct M as [bl|]; cbn [bind res_map]; [|reflexivity] end.
    change (nofZ 1) with (Fin 1). rewrite weights_shift by exact H1. destruct (compute_logw_and_logz p (Fin 1) true) as [[w z]|]; cbn [bind res_map fst snd]; [|reflexivity].
    change (elt X B Klogl) with X in l.
    assert (GM : forall (l : list X) idx, gather (map sh l) idx = match gather l idx with Ok r => Ok (map sh r) | Err e => Err e end) by (intros; apply gather_map).
    destruct (pa_trim a).
    - destruct (trim_weights _ _ _ _) as [[[idx w'] t]|]; cbn [bind res_map]; [|reflexivity]. destruct (gather x idx) as [x'|]; cbn [bind res_map]; [|reflexivity].
      match goal with |- context [gather (map ?f l) idx] => change (gather (map f l) idx) with (@gather X (map sh l) idx) end. rewrite GM.
      match goal with |- _ = res_map _ (bind (bind ?M _) _) => change M with (@gather X l idx) end. destruct (@gather X l idx) as [l'|]; cbn [bind res_map]; [|reflexivity].
      destruct (gather q idx) as [q'|]; cbn [bind res_map]; [|reflexivity]. destruct (gather w idx) as [lw'|]; cbn [bind res_map]; [|reflexivity].
      match goal with |- bind (bind ?M _) _ = _ => destruct M as [bl'|]; cbn [bind res_map]; [|reflexivity] end.
      destruct (pa_resample a); [|reflexivity].
      match goal with |- bind ?M _ = _ => destruct M as [i2|]; cbn [bind res_map]; [|reflexivity] end. destruct (gather x' i2) as [x2|]; cbn [bind res_map]; [|reflexivity].
      match goal with |- context [gather (map ?f l') i2] => change (gather (map f l') i2) with (@gather X (map sh l') i2) end. rewrite GM.
      match goal with |- _ = res_map _ (bind ?M _) => change M with (@gather X l' i2) end. destruct (@gather X l' i2) as [l2|]; cbn [bind res_map]; [|reflexivity]. destruct (gather q' i2) as [q2|]; cbn [bind res_map]; [|reflexivity].
      match goal with |- bind ?M _ = _ => destruct M as [bl2|]; cbn [bind res_map]; reflexivity end.
    - cbn [bind res_map]. destruct (pa_resample a); [|reflexivity].
      match goal with |- bind ?M _ = _ => destruct M as [i2|]; cbn [bind res_map]; [|reflexivity] end. destruct (gather x i2) as [x2|]; cbn [bind res_map]; [|reflexivity].
      match goal with |- context [gather (map ?f l) i2] => change (gather (map f l) i2) with (@gather X (map sh l) i2) end. rewrite GM.
      match goal with |- _ = res_map _ (bind ?M _) => change M with (@gather X l i2) end. destruct (@gather X l i2) as [l2|]; cbn [bind res_map]; [|reflexivity]. destruct (gather q i2) as [q2|]; cbn [bind res_map]; [|reflexivity].
      match goal with |- bind ?M _ = _ => destruct M as [bl2|]; cbn [bind res_map]; reflexivity end.
  Qed.
  Lemma results_shift (s : sampler) : good s -> results_of (shift_sampler s) = (res_map (shift_results c) (fst (results_of s)), shift_sampler (snd (results_of s))).
  Proof.
    intros [(H1 & _) _]. unfold results_of, compute_results. change (s_particles (shift_sampler s)) with (shift_particles c (s_particles s)). cbn [shift_particles p_results p_past].
    destruct (p_results (s_particles s)) as [r|] eqn:Er; cbn [option_map].
    - cbn [fst snd res_map]. apply f_equal2; [reflexivity|]. unfold with_particles, SpecShift.shift_sampler, shift_particles. cbn [s_particles]. rewrite ?Er. reflexivity.
    - change (nofZ 1) with (Fin 1). rewrite weights_shift by exact H1. destruct (compute_logw_and_logz _ _ _) as [[w z]|]; reflexivity.
  Qed.
  Lemma results_good (s : sampler) : good s -> good (snd (results_of s)).
  Proof.
    intros [(H1 & H2 & H3) HM]. unfold results_of, compute_results. destruct (p_results (s_particles s)) as [r|] eqn:Er.
    - cbn [snd]. split; [|exact HM]. split; [exact H1|]. split; [|exact H3]. cbn [with_particles s_particles]. rewrite Er in *. exact H2.
    - destruct (compute_logw_and_logz _ _ _) as [[w z]|]; (split; [|exact HM]; split; [exact H1|]; split; [|exact H3]); intros r [= <-]; exact H1.
  Qed.

  (** ** Every state of a sampler *)
  Lemma new_good o s : new_sampler W o = Ok s -> maps (s_pool s) -> good s /\ shift_sampler s = s.
  Proof.
    intros H HM. unfold new_sampler in H. repeat match type of H with bind ?M _ = Ok _ => let v := fresh "v" in apply bind_ok in H as [v [_ H]] end. apply Ok_inj in H. subst s.
    split; [split; [|exact HM]; split; [exists []; split; reflexivity|split; discriminate]|reflexivity].
  Qed.
  Lemma reachable_good fair interrupts s : reachable W fair interrupts s -> good s.
  Proof.
    induction 1 as [o s E HM|nt ne s _ IH|R s s' _ IH _ E|R i s s' _ IH _ _ _ E|s _ IH _|fuel R s s' _ IH _ _ _ E|R s s' _ IH _ _ E|s _ IH|saved self _ IH1 _ IH2|fuel s s1 _ IH _ _ E|fuel R s s1 s2 _ IH _ _ _ E1 E2|fuel R s s1 s2 s3 _ IH _ _ _ E1 E2 E3|fuel s s1 k p _ _ IH _ _ E Ek _].
    - now apply (new_good o).
    - exact IH.
    - exact (draw_good R s s' IH E).
    - exact (batch_good R i s s' IH E).
    - exact IH.
    - exact (iteration_good fuel R s s' IH E).
    - exact (final_good R s s' IH E).
    - now apply results_good.
    - destruct IH1 as [T1 M1], IH2 as [_ M2]. split; [exact T1|]. cbn [load with_pool s_pool]. destruct (s_pool saved); [exact M2|exact I].
    - exact (reweight_good fuel s s1 IH E).
    - eapply train_good; [|exact E2]. exact (reweight_good fuel s s1 IH E1).
    - eapply resample_good; [|exact E3]. eapply train_good; [|exact E2]. exact (reweight_good fuel s s1 IH E1).
    - exact (reweight_good fuel s s1 IH E).
  Qed.
End Shift.

Theorem run_shift {C P Opt} (c : R) (W : world X C P Opt) o a R0 s : new_sampler W o = Ok s -> maps (s_pool s) ->
  new_sampler (shift_world c W) o = Ok s /\
  match run W a R0 s, run (shift_world c W) a R0 s with
  | (evs, Ok s1), (evs', Ok s2) => map ev_file evs' = map ev_file evs /\ differ_by c s1 s2
  | (evs, Err e), (evs', Err e') => map ev_file evs' = map ev_file evs /\ e' = e
  | _, _ => False
  end.
Proof.
  intros H HM. split; [exact H|]. destruct (new_good c W o s H HM) as [G E]. unfold run.
  pose proof (run_from_shift c W a R0 s G) as [K HG]. rewrite E in K. rewrite K. unfold shift_traced.
  destruct (run_from W a R0 s) as [evs [s1|e]]; cbn [fst snd res_map]; rewrite map_map; (split; [reflexivity|]); [|reflexivity].
  pose proof (HG s1 eq_refl) as G1. constructor; try reflexivity; try (split; reflexivity).
  intros pa us off. rewrite (posterior_shift c pa us off s1 G1). destruct (posterior pa us off s1); cbn [res_map]; repeat split.
Qed.
Theorem state_shift {C P Opt} (c : R) (W : world X C P Opt) fair interrupts a R0 s : reachable W fair interrupts s ->
  run (shift_world c W) a R0 (shift_sampler c s) = shift_traced c (run W a R0 s).
Proof. intros H. apply run_from_shift. exact (reachable_good c W fair interrupts s H). Qed.

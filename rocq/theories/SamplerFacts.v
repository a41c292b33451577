(** * What each phase of a run does *)
From Coq Require Import ZArith String List Bool Lia.
From Verif Require Import Num PyBase PyBaseFacts Tools Scaler Particles LogLike Geometry Mcmc SpecMcmc Flow Sampler ConfigFacts SpecReach.
Import ListNotations.
Open Scope list_scope.

Section Facts.
  Context {T C P Opt : Type} {NT : NumT T}.
  Notation B := (list C).
  Variable W : world T C P Opt.
  Implicit Types s : sampler T C P.

  (** ** The history *)
  Lemma update_items (p : past T B) (c : current T C) : update p (items c) =
    {| h_u := h_u p ++ [cu_u c]; h_x := h_x p ++ [cu_x c]; h_logdetj := h_logdetj p ++ [cu_logdetj c];
       h_logl := h_logl p ++ [cu_logl c]; h_logp := h_logp p ++ [cu_logp c]; h_logw := h_logw p ++ [cu_logw c];
       h_blobs := h_blobs p ++ [cu_blobs c]; h_iter := h_iter p ++ [cu_iter c]; h_logz := h_logz p ++ [cu_logz c];
       h_calls := h_calls p ++ [cu_calls c]; h_steps := h_steps p ++ [cu_steps c];
       h_efficiency := h_efficiency p ++ [cu_efficiency c]; h_ess := h_ess p ++ [cu_ess c];
       h_accept := h_accept p ++ [cu_accept c]; h_beta := h_beta p ++ [cu_beta c] |}.
  Proof. unfold items. destruct (cu_weights c); reflexivity. Qed.

  (** ** Reweighting *)
  Definition picked (p : past T B) (k : key) (idx : list nat) (v : list (elt T B k)) : Prop :=
    exists a, get_flat p k = Ok a /\ gather a idx = Ok v.
  Lemma reweight_facts fuel s s1 : reweight fuel s = Ok s1 ->
    exists c beta logz ess w0 neff w1 idx w2 left u x ldj logl logp b c1,
      s_current s = Some c /\
      next_beta fuel (c_metric (s_cfg s)) (history_of s) (nofZ (s_n_effective s)) = Ok (beta, logz, ess) /\
      relative_weights (history_of s) beta = Ok w0 /\
      adjust (s_cfg s) (s_n_effective s) (normalise w0) = Ok (neff, w1) /\
      trim_weights (seq 0 (length w1)) w1 (nfrac 99 100) 1000 = Ok (idx, w2, left) /\
      picked (history_of s) Ku idx u /\ picked (history_of s) Kx idx x /\ picked (history_of s) Klogdetj idx ldj /\
      picked (history_of s) Klogl idx logl /\ picked (history_of s) Klogp idx logp /\
      (if s_have_blobs s then exists b', b = Some b' /\ picked (history_of s) Kblobs idx b' else b = cu_blobs c) /\
      c1 = {| cu_u := u; cu_x := x; cu_logl := logl; cu_logp := logp; cu_logdetj := ldj;
              cu_logw := cu_logw c; cu_blobs := b; cu_iter := cu_iter c; cu_calls := cu_calls c;
              cu_steps := cu_steps c; cu_efficiency := cu_efficiency c; cu_ess := ess; cu_accept := cu_accept c;
              cu_beta := beta; cu_logz := logz; cu_weights := Some w2 |} /\
      s1 = {| s_cfg := s_cfg s; s_pool := s_pool s; s_n_effective := neff; s_have_blobs := s_have_blobs s;
          s_n_total := s_n_total s; s_n_evidence := s_n_evidence s; s_particles := s_particles s;
          s_t := (s_t s + 1)%Z;
          s_u_geometry := s_u_geometry s; s_theta_geometry := s_theta_geometry s; s_flow := s_flow s;
          s_untrained := s_untrained s; s_scaler := s_scaler s; s_prior_samples := s_prior_samples s;
          s_logz := s_logz s; s_logz_err := s_logz_err s; s_current := Some c1; s_warmup := s_warmup s;
          s_calls := s_calls s; s_scale := s_scale s; s_evals := s_evals s; s_evidence_evals := s_evidence_evals s |}.
  Proof.
    unfold reweight. fold (history_of s). intros H.
    apply bind_ok in H as [c [Hc H]]. apply bind_ok in H as [[[beta logz] ess] [Hb H]]. apply bind_ok in H as [w0 [Hw H]].
    apply bind_ok in H as [[neff w1] [Ha H]]. apply bind_ok in H as [[[idx w2] lf] [Ht H]].
    apply bind_ok in H as [u0 [Hu0 H]]. apply bind_ok in H as [u [Hu H]].
    apply bind_ok in H as [x0 [Hx0 H]]. apply bind_ok in H as [x [Hx H]].
    apply bind_ok in H as [d0 [Hd0 H]]. apply bind_ok in H as [d [Hd H]].
    apply bind_ok in H as [l0 [Hl0 H]]. apply bind_ok in H as [l [Hl H]].
    apply bind_ok in H as [q0 [Hq0 H]]. apply bind_ok in H as [q [Hq H]].
    apply bind_ok in H as [b [Hbl H]]. apply Ok_inj in H. subst s1.
    exists c, beta, logz, ess, w0, neff, w1, idx, w2, lf, u, x, d, l, q, b. eexists.
    split; [destruct (s_current s); [now injection Hc as ->|discriminate]|].
    split; [exact Hb|]. split; [exact Hw|]. split; [exact Ha|]. split; [exact Ht|].
    split; [now exists u0|]. split; [now exists x0|]. split; [now exists d0|]. split; [now exists l0|]. split; [now exists q0|].
    split; [|split; reflexivity].
    destruct (s_have_blobs s); [|now apply Ok_inj in Hbl].
    apply bind_ok in Hbl as [b0 [Hb0 Hbl]]. apply bind_ok in Hbl as [b1 [Hb1 Hbl]]. apply Ok_inj in Hbl. subst b.
    exists b1. split; [reflexivity|now exists b0].
  Qed.

  (** ** Training *)
  Lemma train_facts R s s2 : train W R s = Ok s2 -> exists c now flow untrained ug tg,
    s_current s = Some c /\ trains s (cu_beta c) = Ok now /\
    (if now then
       untrained = false /\ ug = s_u_geometry s /\
       (exists hist stop, flow_fit (wd_train W)
          (set_train (c_train (s_cfg s)) (TC_batch_size (Z.min (Z.of_nat (length (cu_u c)) / 2) (c_batch_size (c_train (s_cfg s))))))
          (ir_fit (rn_iter R (s_t s))) (s_flow s) (cu_u c) (cu_weights c) = Ok (flow, hist, stop)) /\
       geometry_fit (wd_fit W) (ir_geometry (rn_iter R (s_t s))) (c_n_dim (s_cfg s)) (latent W flow (cu_u c)) (cu_weights c) = Ok tg
     else flow = s_flow s /\ untrained = s_untrained s /\ tg = s_theta_geometry s /\
       geometry_fit (wd_fit W) (ir_geometry (rn_iter R (s_t s))) (c_n_dim (s_cfg s)) (cu_u c) (cu_weights c) = Ok ug) /\
    s2 = {| s_cfg := s_cfg s; s_pool := s_pool s; s_n_effective := s_n_effective s; s_have_blobs := s_have_blobs s;
          s_n_total := s_n_total s; s_n_evidence := s_n_evidence s; s_particles := s_particles s; s_t := s_t s;
          s_u_geometry := ug; s_theta_geometry := tg; s_flow := flow; s_untrained := untrained;
          s_scaler := s_scaler s; s_prior_samples := s_prior_samples s;
          s_logz := s_logz s; s_logz_err := s_logz_err s; s_current := Some c; s_warmup := s_warmup s;
          s_calls := s_calls s; s_scale := s_scale s; s_evals := s_evals s; s_evidence_evals := s_evidence_evals s |}.
  Proof.
    unfold train. intros H. apply bind_ok in H as [c [Hc H]]. apply bind_ok in H as [now [Hn H]].
    apply bind_ok in H as [[[[flow un] ug] tg] [Hf H]]. apply Ok_inj in H. subst s2.
    exists c, now, flow, un, ug, tg. split; [destruct (s_current s); [now injection Hc as ->|discriminate]|].
    split; [exact Hn|]. split; [|reflexivity]. destruct now.
    - apply bind_ok in Hf as [[[fl hi] st] [Hfit Hf]]. apply bind_ok in Hf as [g [Hg Hf]]. apply Ok_inj in Hf. injection Hf as <- <- <- <-.
      split; [reflexivity|]. split; [reflexivity|]. split; [now exists hi, st|exact Hg].
    - apply bind_ok in Hf as [g [Hg Hf]]. apply Ok_inj in Hf. injection Hf as <- <- <- <-. auto.
  Qed.

  (** ** Resampling *)
  Lemma resample_facts R s s3 : resample R s = Ok s3 -> exists c w idx u x ldj logl logp b,
    s_current s = Some c /\ cu_weights c = Some w /\ resample_indices R s w = Ok idx /\
    gather (cu_u c) idx = Ok u /\ gather (cu_x c) idx = Ok x /\ gather (cu_logdetj c) idx = Ok ldj /\
    gather (cu_logl c) idx = Ok logl /\ gather (cu_logp c) idx = Ok logp /\
    (if s_have_blobs s then exists b0 b', cu_blobs c = Some b0 /\ b = Some b' /\ gather b0 idx = Ok b' else b = cu_blobs c) /\
    s3 = with_current s
         {| cu_u := u; cu_x := x; cu_logl := logl; cu_logp := logp; cu_logdetj := ldj;
            cu_logw := cu_logw c; cu_blobs := b; cu_iter := cu_iter c; cu_calls := cu_calls c;
            cu_steps := cu_steps c; cu_efficiency := cu_efficiency c; cu_ess := cu_ess c; cu_accept := cu_accept c;
            cu_beta := cu_beta c; cu_logz := cu_logz c; cu_weights := cu_weights c |}.
  Proof.
    unfold resample. intros H. apply bind_ok in H as [c [Hc H]]. apply bind_ok in H as [w [Hw H]]. apply bind_ok in H as [idx [Hi H]].
    apply bind_ok in H as [u [Hu H]]. apply bind_ok in H as [x [Hx H]]. apply bind_ok in H as [d [Hd H]].
    apply bind_ok in H as [l [Hl H]]. apply bind_ok in H as [q [Hq H]]. apply bind_ok in H as [b [Hb H]]. apply Ok_inj in H. subst s3.
    exists c, w, idx, u, x, d, l, q, b.
    split; [destruct (s_current s); [now injection Hc as ->|discriminate]|].
    split; [destruct (cu_weights c); [now injection Hw as ->|discriminate]|].
    repeat (split; [assumption|]). split; [|reflexivity].
    destruct (s_have_blobs s); [|now apply Ok_inj in Hb].
    apply bind_ok in Hb as [b0 [Hb0 Hb]]. apply bind_ok in Hb as [b1 [Hb1 Hb]]. apply Ok_inj in Hb. subst b.
    exists b0, b1. destruct (cu_blobs c); [|discriminate]. injection Hb0 as ->. auto.
  Qed.

  (** ** An iteration *)
  Lemma iteration_facts fuel R s s' : iteration W fuel R s = Ok s' -> exists s1 s2 s3 s4 c4,
    reweight fuel s = Ok s1 /\ train W R s1 = Ok s2 /\ resample R s2 = Ok s3 /\ mutate W R s3 = Ok s4 /\
    s_current s4 = Some c4 /\ s' = with_particles s4 (particles_update (s_particles s4) (items c4)).
  Proof.
    unfold iteration. intros H. apply bind_ok in H as [s1 [H1 H]]. apply bind_ok in H as [s2 [H2 H]].
    apply bind_ok in H as [s3 [H3 H]]. apply bind_ok in H as [s4 [H4 H]]. apply bind_ok in H as [c4 [Hc H]].
    apply Ok_inj in H. exists s1, s2, s3, s4, c4. destruct (s_current s4); [|discriminate]. injection Hc as ->. auto 10.
  Qed.

  (** ** Warm-up *)
  Lemma warmup_facts R i s s' : warmup_batch W R i s = Ok s' ->
    exists ps x0 u0 xi ldj0 logp0 logl0 b0 x u ldj logp logl b c,
      s_prior_samples s = Some ps /\ x0 = slice i (c_n_active (s_cfg s)) ps /\
      forward (s_scaler s) (wd_junk W) x0 true = Ok u0 /\ inverse (s_scaler s) (wd_junk W) u0 = Ok (xi, ldj0) /\
      wd_logpdf W x0 = Ok logp0 /\ sampler_like W s x0 = Ok (logl0, b0) /\
      (if existsb (fun b => b) (map nisinf logl0) then
         exists idx, let inf := true_positions 0 (map nisinf logl0) in
           choose_finite (rn_pick R (s_t s)) (true_positions 0 (map negb (map nisinf logl0))) (length inf) = Ok idx /\
           replace_rows inf idx x0 = Ok x /\ replace_rows inf idx u0 = Ok u /\ replace_rows inf idx ldj0 = Ok ldj /\
           replace_rows inf idx logp0 = Ok logp /\ replace_rows inf idx logl0 = Ok logl /\
           (if after_like s b0 then exists b1 b2, b0 = Some b1 /\ b = Some b2 /\ replace_rows inf idx b1 = Ok b2 else b = b0)
       else x = x0 /\ u = u0 /\ ldj = ldj0 /\ logp = logp0 /\ logl = logl0 /\ b = b0) /\
      c = {| cu_u := u; cu_x := x; cu_logl := logl; cu_logp := logp; cu_logdetj := ldj;
             cu_logw := repeat (nopp (nofZ (10 ^ 300))) (c_n_active (s_cfg s)); cu_blobs := b; cu_iter := s_t s;
             cu_calls := (s_calls s + Z.of_nat (c_n_active (s_cfg s)))%Z;
             cu_steps := 1; cu_efficiency := nofZ 1; cu_ess := nofZ (s_n_effective s); cu_accept := nofZ 1;
             cu_beta := nofZ 0; cu_logz := nofZ 0; cu_weights := None |} /\
      s' = {| s_cfg := s_cfg s; s_pool := s_pool s; s_n_effective := s_n_effective s; s_have_blobs := after_like s b0;
          s_n_total := s_n_total s; s_n_evidence := s_n_evidence s;
          s_particles := particles_update (s_particles s) (items c);
          s_t := (s_t s + 1)%Z;
          s_u_geometry := s_u_geometry s; s_theta_geometry := s_theta_geometry s; s_flow := s_flow s;
          s_untrained := s_untrained s; s_scaler := s_scaler s; s_prior_samples := Some (set_slice i (c_n_active (s_cfg s)) x ps);
          s_logz := s_logz s; s_logz_err := s_logz_err s; s_current := Some c; s_warmup := s_warmup s;
          s_calls := (s_calls s + Z.of_nat (c_n_active (s_cfg s)))%Z; s_scale := s_scale s;
          s_evals := s_evals s ++ x0; s_evidence_evals := s_evidence_evals s |}.
  Proof.
    unfold warmup_batch. intros H. apply bind_ok in H as [ps [Hps H]]. apply bind_ok in H as [u0 [Hu H]].
    apply bind_ok in H as [[xi ldj0] [Hi H]]. apply bind_ok in H as [logp0 [Hp H]]. apply bind_ok in H as [[logl0 b0] [Hl H]].
    apply bind_ok in H as [[[[[[x u] ldj] logp] logl] b] [Hr H]]. apply Ok_inj in H. subst s'.
    exists ps. eexists. exists u0, xi, ldj0, logp0, logl0, b0, x, u, ldj, logp, logl, b. eexists.
    split; [destruct (s_prior_samples s); [now injection Hps as ->|discriminate]|].
    split; [reflexivity|]. split; [exact Hu|]. split; [exact Hi|]. split; [exact Hp|]. split; [exact Hl|].
    split; [|split; reflexivity].
    destruct (existsb _ _).
    - apply bind_ok in Hr as [idx [Hidx Hr]]. exists idx. cbv zeta. split; [exact Hidx|].
      apply bind_ok in Hr as [x1 [Hx1 Hr]]. apply bind_ok in Hr as [u1 [Hu1 Hr]]. apply bind_ok in Hr as [d1 [Hd1 Hr]].
      apply bind_ok in Hr as [p1 [Hp1 Hr]]. apply bind_ok in Hr as [l1 [Hl1 Hr]]. apply bind_ok in Hr as [b1 [Hb1 Hr]].
      apply Ok_inj in Hr. injection Hr as <- <- <- <- <- <-. repeat (split; [assumption|]).
      destruct (after_like s b0); [|now apply Ok_inj in Hb1].
      apply bind_ok in Hb1 as [b2 [Hb2 Hb1]]. apply bind_ok in Hb1 as [b3 [Hb3 Hb1]]. apply Ok_inj in Hb1. subst b1.
      exists b2, b3. destruct b0; [|discriminate]. injection Hb2 as ->. auto.
    - apply Ok_inj in Hr. injection Hr as <- <- <- <- <- <-. auto 10.
  Qed.

  (** ** Prior draws *)
  Lemma draw_facts R s s' : draw_prior W R s = Ok s' ->
    (s_prior_samples s <> None /\ s' = s) \/
    (s_prior_samples s = None /\ exists ps sc, rn_prior R (c_n_prior (s_cfg s)) = Ok ps /\
       fit (wd_linalg W) (s_scaler s) (wd_junk W) ps = Ok sc /\
       s' = {| s_cfg := s_cfg s; s_pool := s_pool s; s_n_effective := s_n_effective s; s_have_blobs := s_have_blobs s;
            s_n_total := s_n_total s; s_n_evidence := s_n_evidence s; s_particles := s_particles s; s_t := s_t s;
            s_u_geometry := s_u_geometry s; s_theta_geometry := s_theta_geometry s; s_flow := s_flow s;
            s_untrained := s_untrained s; s_scaler := sc; s_prior_samples := Some ps;
            s_logz := s_logz s; s_logz_err := s_logz_err s; s_current := s_current s; s_warmup := s_warmup s;
            s_calls := s_calls s; s_scale := s_scale s; s_evals := s_evals s; s_evidence_evals := s_evidence_evals s |}).
  Proof.
    unfold draw_prior. destruct (s_prior_samples s) eqn:E.
    - intros H. apply Ok_inj in H. left. split; [discriminate|auto].
    - intros H. apply bind_ok in H as [ps [Hp H]]. apply bind_ok in H as [sc [Hs H]]. apply Ok_inj in H. right. split; [reflexivity|].
      exists ps, sc. auto.
  Qed.

  (** ** Evidence *)
  Lemma evidence_facts R s s' : final_evidence W R s = Ok s' -> exists n logz err calls evals hb,
    s_n_evidence s = Some n /\ s' = with_evidence s (Some logz) err calls evals hb /\
    (if (0 <? n)%Z && c_preconditioned (s_cfg s) then
       exists xq ldj logp logl b, let '(theta, logq) := rn_flow R (s_flow s) (Z.to_nat n) in
         inverse (s_scaler s) (wd_junk W) theta = Ok (xq, ldj) /\ wd_logpdf W xq = Ok logp /\
         let keep := map nisfinite logp in
         evals = compress keep xq /\ sampler_like W s evals = Ok (logl, b) /\ hb = after_like s b /\
         let logw := map2 nsub (map2 nadd (map2 nadd logl (compress keep logp)) (compress keep ldj)) (compress keep logq) in
         logz = log_mean logw /\ calls = (s_calls s + Z.of_nat (length logw))%Z /\
         err = Some (nstd (map (fun j => log_mean (map (fun i => nth (Nat.modulo (rn_boot R j i) (length logw)) logw (nofZ 0)) (seq 0 (length logw))))
                    (seq 0 (Nat.max (Z.to_nat n) 1000))))
     else err = None /\ calls = s_calls s /\ evals = [] /\ hb = s_have_blobs s /\
       exists lw, compute_logw_and_logz (history_of s) (nofZ 1) true = Ok (lw, logz)).
  Proof.
    unfold final_evidence. intros H. apply bind_ok in H as [n [Hn H]].
    assert (En : s_n_evidence s = Some n) by (destruct (s_n_evidence s); [now injection Hn as ->|discriminate]).
    destruct ((0 <? n)%Z && c_preconditioned (s_cfg s)) eqn:E.
    - unfold compute_evidence in H. destruct (rn_flow R (s_flow s) (Z.to_nat n)) as [theta logq] eqn:Ef.
      apply bind_ok in H as [[xq ldj] [Hi H]]. apply bind_ok in H as [logp [Hp H]]. apply bind_ok in H as [[logl b] [Hl H]].
      apply Ok_inj in H. subst s'. do 6 eexists. split; [exact En|]. split; [reflexivity|]. rewrite E.
      exists xq, ldj, logp, logl, b. cbv zeta. rewrite Ef. repeat (split; [first [assumption | reflexivity]|]). reflexivity.
    - apply bind_ok in H as [[lw logz] [Hc H]]. apply Ok_inj in H. subst s'. do 6 eexists. split; [exact En|]. split; [reflexivity|]. rewrite E.
      repeat (split; [reflexivity|]). exists lw. exact Hc.
  Qed.
End Facts.

(** * The four kernels as chains *)
From Coq Require Import Reals ZArith Bool Lia Lra.
From Coquelicot Require Import Coquelicot.
From Coq Require Import List.
From Verif Require Import Num PyBase PyBaseFacts XReal RList Scaler ScalerStruct SpecScaler ScalerFacts ScalerFitFacts ScalerSpecFacts Geometry SpecGeometry GeometryFacts
  Mcmc SpecMcmc McmcFacts McmcInv McmcCoherent McmcNum McmcSigma SpecBalance BalanceFacts McmcBalance SpecChain ChainFacts ChainSim ChainLaws ChainRun.
Import ListNotations.
Set Bullet Behavior "Strict Subproofs".
Local Open Scope R_scope.

Section Main.
  Context {B : Type}.
  Variable env : kernel_env X B.
  Variables (d n : nat) (rows : list (X * X)).
  Hypothesis HE : exact_env env d rows.
  Variables (lp ll : vec X -> X) (bl : vec X -> B).
  Hypothesis HP : prior_rows env lp.
  Hypothesis HL : like_rows env ll bl.
  Hypothesis HI : bounded_like ll.
  Variable beta : R.
  Variables (s : kstate X B) (us : list (list R)).
  Hypothesis HX : exact_input env d n lp ll bl beta s us.
  Variables (rand : Z -> step_rand X B) (normal : nat -> nat -> list R) (uniform : nat -> nat -> R).
  Hypothesis HR : exact_rand n rand normal uniform.
  Hypothesis HN : (0 <= k_n_steps env)%Z.
  Variable p : R.
  Hypothesis Hp : 0 <= p.

  Lemma us_len : length us = n.
  Proof. pose proof (re_u _ _ (ei_rect _ _ _ _ _ _ _ _ _ HX)) as L. cbn in L. rewrite (ei_u _ _ _ _ _ _ _ _ _ HX), map_length in L. exact L. Qed.
  Lemma us_k k : (k < n)%nat -> length (nth k us []) = d /\ exists t, log_target env lp ll beta (nth k us []) t.
  Proof.
    intros Hk. assert (I : In (nth k us []) us) by (apply nth_In; rewrite us_len; exact Hk). split.
    - pose proof (ei_d _ _ _ _ _ _ _ _ _ HX) as F. rewrite Forall_forall in F. now apply F.
    - now apply (ei_target _ _ _ _ _ _ _ _ _ HX).
  Qed.

  Lemma initial_plain kd sg mu best : latent kd = false -> (exists q, sg = Fin q /\ in_range kd q) -> (exists m, mu = map Fin m /\ (cn kd = true -> length m = d)) ->
    inv env d n lp ll bl beta kd (start (walkers_of s [] []) sg mu best) /\ forall k, (k < n)%nat -> posR kd (start (walkers_of s [] []) sg mu best) k = nth k us [].
  Proof.
    intros El Hs Hm.
    assert (P : forall k, (k < n)%nat -> nth k (s_u s) [] = map Fin (nth k us [])).
    { intros k Hk. rewrite (ei_u _ _ _ _ _ _ _ _ _ HX). apply (nth_map_f (map Fin)). now rewrite us_len. }
    split.
    - constructor; cbn [start m_w m_sigma m_mu]; auto.
      + exact (ei_rect _ _ _ _ _ _ _ _ _ HX).
      + exact (ei_coherent _ _ _ _ _ _ _ _ _ HX).
      + exact (ei_blobs _ _ _ _ _ _ _ _ _ HX).
      + unfold pos. rewrite El. exact (re_u _ _ (ei_rect _ _ _ _ _ _ _ _ _ HX)).
      + intros k Hk. destruct (us_k k Hk) as [Lk [t Ht]]. exists (nth k us []), t. unfold pos, tgt. rewrite El. split; [exact (P k Hk)|]. auto.
      + rewrite El. discriminate.
    - intros k Hk. unfold posR, pos. rewrite El. cbn [start m_w walkers_of w_u]. rewrite (ei_u _ _ _ _ _ _ _ _ _ HX). now rewrite map_map_unfin.
  Qed.
  Lemma initial_latent kd sg mu best : latent kd = true -> flow_bijection env d -> (exists q, sg = Fin q /\ in_range kd q) -> (exists m, mu = map Fin m /\ (cn kd = true -> length m = d)) ->
    let st := start (walkers_of s (fst (flow_forward env (s_u s))) (snd (flow_forward env (s_u s)))) sg mu best in
    inv env d n lp ll bl beta kd st /\ forall k, (k < n)%nat -> exists f, k_flow_forward env (map Fin (nth k us [])) = (map Fin (posR kd st k), Fin f).
  Proof.
    intros El [Fw _] Hs Hm st.
    assert (P : forall k, (k < n)%nat -> nth k (s_u s) [] = map Fin (nth k us [])).
    { intros k Hk. rewrite (ei_u _ _ _ _ _ _ _ _ _ HX). apply (nth_map_f (map Fin)). now rewrite us_len. }
    pose proof (re_u _ _ (ei_rect _ _ _ _ _ _ _ _ _ HX)) as Lu. cbn in Lu.
    assert (G : forall k, (k < n)%nat -> exists th f, k_flow_forward env (map Fin (nth k us [])) = (map Fin th, Fin f) /\ length th = d /\
      k_flow_inverse env (map Fin th) = (map Fin (nth k us []), Fin (- f)) /\
      nth k (w_theta (m_w st)) [] = map Fin th /\ nth k (w_ldf (m_w st)) (Fin 0) = Fin (- f)).
    { intros k Hk. destruct (us_k k Hk) as [Lk _]. destruct (Fw _ Lk) as [th [f [E1 [E2 E3]]]]. exists th, f. split; [exact E1|]. split; [exact E2|]. split; [exact E3|].
      unfold st, flow_forward. cbn [start m_w walkers_of w_theta w_ldf fst snd]. split.
      - etransitivity; [exact (nth_map_f (fun x => fst (k_flow_forward env x)) (s_u s) k [] [] (eq_ind_r (fun z => (k < z)%nat) Hk Lu))|].
        etransitivity; [exact (f_equal (fun x => fst (k_flow_forward env x)) (P k Hk))|]. now rewrite E1.
      - etransitivity; [exact (nth_map_f (fun x => nopp (snd (k_flow_forward env x))) (s_u s) k [] (Fin 0) (eq_ind_r (fun z => (k < z)%nat) Hk Lu))|].
        etransitivity; [exact (f_equal (fun x => nopp (snd (k_flow_forward env x))) (P k Hk))|]. now rewrite E1. }
    assert (Lt : latent_rectangular (m_w st) n).
    { unfold latent_rectangular, st, flow_forward. cbn [start m_w walkers_of w_theta w_ldf fst snd]. rewrite !map_length. auto. }
    assert (V : inv env d n lp ll bl beta kd st).
    { constructor; cbn [st start m_w m_sigma m_mu]; auto.
      + pose proof (ei_rect _ _ _ _ _ _ _ _ _ HX) as [R1 R2 R3 R4 R5 R6]. constructor; assumption.
      + intros k Hk. exact (ei_coherent _ _ _ _ _ _ _ _ _ HX k Hk).
      + exact (ei_blobs _ _ _ _ _ _ _ _ _ HX).
      + unfold pos. rewrite El. apply Lt.
      + intros k Hk. destruct (G k Hk) as [th [f [G1 [G2 [G3 [G4 G5]]]]]]. destruct (us_k k Hk) as [Lk [t Ht]].
        exists th, (t + - f). unfold pos, tgt. rewrite El. split; [exact G4|]. split; [exact G2|]. exists (nth k us []), (- f), t. auto.
      + intros _. split; [exact Lt|]. intros k Hk. destruct (G k Hk) as [th [f [G1 [G2 [G3 [G4 G5]]]]]]. unfold latent_coherent.
        change (vec X) with (list X) in *. unfold st in G4, G5. cbn [start m_w] in G4, G5. rewrite G4, G5, G3. cbn [walkers_of w_u]. f_equal. symmetry. exact (P k Hk). }
    split; [exact V|].
    intros k Hk. destruct (G k Hk) as [th [f [G1 [G2 [G3 [G4 G5]]]]]]. exists f. rewrite G1. f_equal. destruct (inv_posR env d n lp ll bl beta kd st k V Hk) as [E _].
    rewrite <- E. unfold pos. rewrite El. exact (eq_sym G4).
  Qed.

  Lemma final_plain kd st : latent kd = false -> inv env d n lp ll bl beta kd st -> w_u (m_w st) = map (fun k => map Fin (posR kd st k)) (seq 0 n).
  Proof.
    intros El V. apply (nth_ext _ _ [] []); [rewrite map_length, seq_length; apply (v_rect _ _ _ _ _ _ _ _ _ V)|]. intros k Hk.
    assert (Hk' : (k < n)%nat) by (rewrite <- (re_u _ _ (v_rect _ _ _ _ _ _ _ _ _ V)); exact Hk).
    destruct (inv_posR env d n lp ll bl beta kd st k V Hk') as [E _]. unfold pos in E. rewrite El in E. etransitivity; [exact E|].
    rewrite (nth_map_f (fun k => map Fin (posR kd st k)) (seq 0 n) k 0%nat) by (now rewrite seq_length). now rewrite seq_nth.
  Qed.
  Lemma final_latent kd st k : latent kd = true -> inv env d n lp ll bl beta kd st -> (k < n)%nat -> exists f, k_flow_inverse env (map Fin (posR kd st k)) = (nth k (w_u (m_w st)) [], Fin f).
  Proof.
    intros El V Hk. destruct (inv_posR env d n lp ll bl beta kd st k V Hk) as [E [_ [t Ht]]]. unfold pos in E. unfold tgt in Ht. rewrite El in E, Ht.
    destruct (v_lat _ _ _ _ _ _ _ _ _ V El) as [_ LC]. specialize (LC k Hk). unfold latent_coherent in LC. rewrite E in LC.
    destruct Ht as [u [f [t' [E1 _]]]]. rewrite LC in E1. injection E1 as E1 E2. exists f. rewrite LC. now rewrite E2.
  Qed.

  Lemma beta_eq : s_beta s = Fin beta. Proof. apply HX. Qed.
  Lemma beta_pos : 0 <= beta. Proof. apply (ei_beta _ _ _ _ _ _ _ _ _ HX). Qed.

  Lemma rwm_walk C L i st1 st2 stop : cholesky_of d L C -> inv env d n lp ll bl beta RWM st1 -> rwm_step env (fin_mat L) (Fin beta) (rand (Z.of_nat (S i))) (Z.of_nat (S i)) st1 = Ok (st2, stop) -> forall k, (k < n)%nat ->
    length (prop RWM (fun sg _ i k u => walk sg L u (normal i k)) st1 (S i) k) = d /\
    walker_step (tgt env lp ll beta RWM) (posR RWM st1 k) (prop RWM (fun sg _ i k u => walk sg L u (normal i k)) st1 (S i) k) (hstg RWM (fun sg _ i k u => walk sg L u (normal i k)) (fun _ _ _ => 0) st1 (S i) k) (uniform (S i) k) (nth k (m_alpha st2) (Fin 0)) (nth k (pos RWM (m_w st2)) []) /\
    (latent RWM = true -> latent_coherent env (m_w st2) k).
  Proof.
    intros HCh V E k Hk.
      destruct (inv_pos env d n lp ll bl beta RWM st1 V) as [E1 [E2 E3]]. destruct (inv_posR env d n lp ll bl beta RWM st1 k V Hk) as [_ [Lk Ht]].
      destruct (v_sigma _ _ _ _ _ _ _ _ _ V) as [sg [Es _]]. destruct (HCh) as [[LL _] _].
      unfold prop, hstg. rewrite Es. cbn [unfin].
      split; [|split; [|discriminate]].
    - apply vplus_length; [exact Lk|]. now rewrite vmult_length, matvec_length.
    - destruct (er_uniform _ _ _ _ HR (S i) k) as [U1 U2].
        exact (rwm_walker env d rows HE lp ll bl HP HL beta beta_pos HI L sg _ _ st1 st2 stop n _ (normal (S i)) k (uniform (S i) k) E (v_rect _ _ _ _ _ _ _ _ _ V) Es LL E1 E2
          (fun j Hj => er_normal _ _ _ _ HR (S i) j Hj) Hk (inv_coherent env d n lp ll bl beta RWM st1 k V Hk) Ht U1 (proj1 U2)).
  Qed.

  Theorem rwm_chain C L g o : normal_cov g = Some (Cov2 (fin_mat C)) -> la_cholesky (k_linalg env) (fin_mat C) = Ok (fin_mat L) -> cholesky_of d L C ->
    rwm env g (Fin p) s rand = Ok o ->
    exists c q, result_of o n c /\ (forall k, (k < n)%nat -> ch_pos c 0 k = nth k us []) /\ ch_scale c 0 = p /\
      moves n (log_target env lp ll beta) (fun i k => walk (ch_scale c (pred i)) L (ch_pos c (pred i) k) (normal i k)) (fun _ _ => 0) uniform c /\
      adapts n adapted_walk c /\ mean_value n (log_target env lp ll 1) c q /\
      stops (k_n_max env) q (fun i => long_enough d (k_n_steps env) (ch_scale c i)) (ch_steps c) /\
      w_u (o_w o) = map (fun k => map Fin (ch_pos c (ch_steps c) k)) (seq 0 n).
  Proof.
    intros EC EL HCh. unfold rwm. rewrite EC. cbn [need_cov bind]. rewrite EL. cbn [bind]. rewrite beta_eq.
    match goal with |- bind ?M _ = _ -> _ => destruct M as [[st N]|] eqn:EK end; cbn [bind]; [|discriminate]. intros Ho; injection Ho as <-.
    destruct (initial_plain RWM (Fin p) [] (nmean (sum3 (s_logl s) (s_logp s) (s_logdetj s))) eq_refl) as [V0 P0]; [exists p; auto|exists []; split; [reflexivity|discriminate]|].
    destruct (run env d n rows HE lp ll bl HP HL beta beta_pos (ei_n _ _ _ _ _ _ _ _ _ HX) (ei_dim _ _ _ _ _ _ _ _ _ HX) HN RWM (rwm_step env (fin_mat L) (Fin beta)) (ex_intro _ (fin_mat L) eq_refl) rand uniform (er_uniform _ _ _ _ HR)
      (fun sg _ i k u => walk sg L u (normal i k)) (fun _ _ _ => 0)) with (3 := EK) as [c [q (RO & VN & I0 & IN & S0 & C0 & MV & AD & _ & _ & QV & ST)]]; auto.
    - intros i st1 st2 stop V E k Hk. exact (rwm_walk C L i st1 st2 stop HCh V E k Hk).
    - intros r i st1 st2 stop _ _ _ H. discriminate H.
    - exists c, q. split; [exact RO|]. split; [intros k Hk; rewrite I0; now apply P0|]. split; [cbn in S0; now injection S0|].
      split; [exact MV|]. split; [exact AD|]. split; [exact QV|]. split; [exact ST|].
      cbn [finish o_w]. etransitivity; [exact (final_plain RWM st eq_refl VN)|]. apply map_ext_in. intros k _. now rewrite IN.
  Qed.

  Lemma latent_rect_step kd step r i st st' stop : latent kd = true -> step_of kd env (Fin beta) step -> rectangular (m_w st) n -> latent_rectangular (m_w st) n ->
    step r i st = Ok (st', stop) -> latent_rectangular (m_w st') n.
  Proof.
    intros El HS R [R1 R2] E.
    destruct kd; try discriminate El; [destruct HS as [nu [ic [ch ->]]]; destruct (ppcn_full _ _ _ _ _ _ _ _ _ _ E) as [u1 [x1 [l1 [e [C [E1 [E2 _]]]]]]]
      |destruct HS as [ch ->]; destruct (prwm_full _ _ _ _ _ _ _ _ E) as [u1 [x1 [l1 [e [C [E1 [E2 _]]]]]]]];
    (assert (La : length (accept_mask r (m_alpha st')) = n) by (rewrite accept_mask_length; rewrite (c_alen _ _ _ _ _ _ _ _ _ _ _ C); apply R));
    (split; [rewrite E1|rewrite E2]; apply where_length; auto; rewrite ?map_length, ?seq_length; unfold flow_inverse; cbn [snd]; rewrite ?map_length, ?seq_length; apply R).
  Qed.

  Lemma prwm_walk C L i st1 st2 stop : cholesky_of d L C -> flow_bijection env d -> inv env d n lp ll bl beta PRWM st1 -> prwm_step env (fin_mat L) (Fin beta) (rand (Z.of_nat (S i))) (Z.of_nat (S i)) st1 = Ok (st2, stop) -> forall k, (k < n)%nat ->
    length (prop PRWM (fun sg _ i k u => walk sg L u (normal i k)) st1 (S i) k) = d /\
    walker_step (tgt env lp ll beta PRWM) (posR PRWM st1 k) (prop PRWM (fun sg _ i k u => walk sg L u (normal i k)) st1 (S i) k) (hstg PRWM (fun sg _ i k u => walk sg L u (normal i k)) (fun _ _ _ => 0) st1 (S i) k) (uniform (S i) k) (nth k (m_alpha st2) (Fin 0)) (nth k (pos PRWM (m_w st2)) []) /\
    (latent PRWM = true -> latent_coherent env (m_w st2) k).
  Proof.
    intros HCh HB V E k Hk.
      destruct (inv_pos env d n lp ll bl beta PRWM st1 V) as [E1 [E2 E3]]. destruct (inv_posR env d n lp ll bl beta PRWM st1 k V Hk) as [_ [Lk Ht]].
      destruct (v_sigma _ _ _ _ _ _ _ _ _ V) as [sg [Es _]]. destruct (HCh) as [[LL _] _].
      destruct (v_lat _ _ _ _ _ _ _ _ _ V eq_refl) as [RL LC].
      unfold prop, hstg. rewrite Es. cbn [unfin].
      destruct (er_uniform _ _ _ _ HR (S i) k) as [U1 U2].
      destruct (prwm_walker env d rows HE lp ll bl HP HL beta beta_pos HI (fb_inverse _ _ HB) L sg _ _ st1 st2 stop n _ (normal (S i)) k (uniform (S i) k) E (v_rect _ _ _ _ _ _ _ _ _ V) RL Es LL E1 E2
          (fun j Hj => er_normal _ _ _ _ HR (S i) j Hj) Hk (inv_coherent env d n lp ll bl beta PRWM st1 k V Hk) (LC k Hk) Ht U1 (proj1 U2)) as [W1 W2].
      split; [|split; [exact W1|intros _; exact W2]].
      apply vplus_length; [exact Lk|]. now rewrite vmult_length, matvec_length.
  Qed.

  Theorem prwm_chain C L g o : normal_cov g = Some (Cov2 (fin_mat C)) -> la_cholesky (k_linalg env) (fin_mat C) = Ok (fin_mat L) -> cholesky_of d L C -> flow_bijection env d ->
    preconditioned_rwm env g (Fin p) s rand = Ok o ->
    exists c q, result_of o n c /\ (forall k, (k < n)%nat -> exists f, k_flow_forward env (map Fin (nth k us [])) = (map Fin (ch_pos c 0 k), Fin f)) /\ ch_scale c 0 = p /\
      moves n (log_target_latent env lp ll beta) (fun i k => walk (ch_scale c (pred i)) L (ch_pos c (pred i) k) (normal i k)) (fun _ _ => 0) uniform c /\
      adapts n adapted_latent_walk c /\ mean_value n (through_flow env (log_target env lp ll 1)) c q /\
      stops (k_n_max env) q (fun i => long_enough_latent_walk d (k_n_steps env) (ch_scale c i)) (ch_steps c) /\
      (forall k, (k < n)%nat -> exists f, k_flow_inverse env (map Fin (ch_pos c (ch_steps c) k)) = (nth k (w_u (o_w o)) [], Fin f)).
  Proof.
    intros EC EL HCh HB. unfold preconditioned_rwm. rewrite EC. cbn [need_cov bind]. rewrite EL. cbn [bind]. rewrite beta_eq.
    rewrite (surjective_pairing (flow_forward env (s_u s))).
    match goal with |- bind ?M _ = _ -> _ => destruct M as [[st N]|] eqn:EK end; cbn [bind]; [|discriminate]. intros Ho; injection Ho as <-.
    destruct (initial_latent PRWM (Fin p) [] (nmean (sum3 (s_logl s) (s_logp s) (s_logdetj s))) eq_refl HB) as [V0 P0]; [exists p; split; [reflexivity|exact I]|exists []; split; [reflexivity|discriminate]|].
    destruct (run env d n rows HE lp ll bl HP HL beta beta_pos (ei_n _ _ _ _ _ _ _ _ _ HX) (ei_dim _ _ _ _ _ _ _ _ _ HX) HN PRWM (prwm_step env (fin_mat L) (Fin beta)) (ex_intro _ (fin_mat L) eq_refl) rand uniform (er_uniform _ _ _ _ HR)
      (fun sg _ i k u => walk sg L u (normal i k)) (fun _ _ _ => 0)) with (3 := EK) as [c [q (RO & VN & I0 & IN & S0 & C0 & MV & AD & _ & _ & QV & ST)]]; auto.
    - intros i st1 st2 stop V E k Hk. exact (prwm_walk C L i st1 st2 stop HCh HB V E k Hk).
    - intros r i st1 st2 stop R RL E El. eapply (latent_rect_step PRWM); eauto. cbn [step_of]. eauto.
    - exists c, q. split; [exact RO|]. split; [intros k Hk; rewrite I0; now apply P0|]. split; [cbn in S0; now injection S0|].
      split; [exact MV|]. split; [exact AD|]. split; [exact QV|]. split; [exact ST|].
      cbn [finish o_w]. intros k Hk. rewrite IN. exact (final_latent PRWM st k eq_refl VN Hk).
  Qed.

  Section Cn.
  Variables (C L Ci : list (list R)) (mu0 : list R) (nu : R) (g : geometry X) (gamma : nat -> nat -> R -> R -> R).
  Hypothesis Ecov : t_cov g = Some (fin_mat C).
  Hypothesis Emean : t_mean g = Some (map Fin mu0).
  Hypothesis Enu : t_nu g = Some (Fin nu).
  Hypothesis Lmu0 : length mu0 = d.
  Hypothesis Hnu : 0 < nu.
  Hypothesis ECi : la_inv (k_linalg env) (fin_mat C) = Ok (fin_mat Ci).
  Hypothesis EL : la_cholesky (k_linalg env) (fin_mat C) = Ok (fin_mat L).
  Hypothesis HCi : inverse_of d Ci C.
  Hypothesis HCh : cholesky_of d L C.
  Hypothesis HG : exact_gamma rand gamma.

  Lemma sigma0 : exists q, @nmin2 X (@numT_Num X XNumT) (Fin p) (@nfrac X (@numT_Num X XNumT) 99 100) = Fin q /\ q = Rmin p (99 / 100) /\ 0 <= q <= 99 / 100.
  Proof.
    assert (F2 : @nfrac X (@numT_Num X XNumT) 99 100 = Fin (99 / 100)) by (apply nfrac_fin; lra). rewrite F2.
    exists (Rmin p (99 / 100)). split; [exact (nmin2_fin p (99 / 100))|]. split; [reflexivity|]. unfold Rmin. destruct (Rle_dec p (99 / 100)); lra.
  Qed.
  Lemma gamma_row i us' mu : length mu = d -> (forall j, (j < n)%nat -> length (nth j us' []) = d) -> forall j, (j < n)%nat ->
    r_gamma (rand (Z.of_nat (S i))) j (Fin ((INR d + nu) / 2)) (Fin (2 / (nu + quadratic Ci (vminus (nth j us' []) mu)))) =
      Fin (gamma (S i) j ((INR d + nu) / 2) (2 / (nu + quadratic Ci (vminus (nth j us' []) mu)))) /\
    0 < gamma (S i) j ((INR d + nu) / 2) (2 / (nu + quadratic Ci (vminus (nth j us' []) mu))).
  Proof.
    intros Lm Lu j Hj. apply HG.
    - pose proof (pos_INR d). lra.
    - assert (Q : 0 <= quadratic Ci (vminus (nth j us' []) mu)) by (eapply quad_nonneg; eauto). apply Rdiv_lt_0_compat; lra.
  Qed.

  Lemma pcn_walk i st1 st2 stop : inv env d n lp ll bl beta PCN st1 -> pcn_step env (Fin nu) (fin_mat Ci) (fin_mat L) (Fin beta) (rand (Z.of_nat (S i))) (Z.of_nat (S i)) st1 = Ok (st2, stop) -> forall k, (k < n)%nat ->
    length (prop PCN (fun sg mu i k u => cn_proposal d nu L Ci mu sg (gamma i k) u (normal i k)) st1 (S i) k) = d /\
    walker_step (tgt env lp ll beta PCN) (posR PCN st1 k) (prop PCN (fun sg mu i k u => cn_proposal d nu L Ci mu sg (gamma i k) u (normal i k)) st1 (S i) k) (hstg PCN (fun sg mu i k u => cn_proposal d nu L Ci mu sg (gamma i k) u (normal i k)) (fun mu u u' => student_ratio d nu Ci mu u u') st1 (S i) k) (uniform (S i) k) (nth k (m_alpha st2) (Fin 0)) (nth k (pos PCN (m_w st2)) []) /\
    (latent PCN = true -> latent_coherent env (m_w st2) k).
  Proof.
    intros V E k Hk.
      destruct (inv_pos env d n lp ll bl beta PCN st1 V) as [E1 [E2 E3]]. destruct (inv_posR env d n lp ll bl beta PCN st1 k V Hk) as [_ [Lk Ht]].
      destruct (v_sigma _ _ _ _ _ _ _ _ _ V) as [sg [Es Hsg]]. destruct (v_mu _ _ _ _ _ _ _ _ _ V) as [mu [Em Lm]]. specialize (Lm eq_refl). cbn in Hsg.
      unfold prop, hstg, prop. rewrite Es, Em, map_unfin. cbn [unfin].
      destruct (er_uniform _ _ _ _ HR (S i) k) as [U1 U2].
      assert (Lj : forall j, (j < n)%nat -> length (nth j (map (map unfin) (pos PCN (m_w st1))) []) = d) by (intros j Hj; apply (inv_posR env d n lp ll bl beta PCN st1 j V Hj)).
      split; [|split; [|discriminate]].
    - unfold cn_proposal. eapply cn_length; eauto.
    - exact (pcn_walker env d rows HE lp ll bl HP HL beta beta_pos HI L C Ci mu nu sg HCh HCi Lm Hnu ltac:(lra) _ _ st1 st2 stop n _ (normal (S i)) _ k (uniform (S i) k) E (v_rect _ _ _ _ _ _ _ _ _ V) Es Em E1 E2
          (fun j Hj => er_normal _ _ _ _ HR (S i) j Hj) (gamma_row i _ mu Lm Lj) Hk (inv_coherent env d n lp ll bl beta PCN st1 k V Hk) Ht U1 (proj1 U2)).
  Qed.

  Theorem pcn_chain o : pcn env g (Fin p) s rand = Ok o ->
    exists c q, result_of o n c /\ (forall k, (k < n)%nat -> ch_pos c 0 k = nth k us []) /\ ch_scale c 0 = Rmin p (99 / 100) /\
      moves n (log_target env lp ll beta)
        (fun i k => cn_proposal d nu L Ci mu0 (ch_scale c (pred i)) (gamma i k) (ch_pos c (pred i) k) (normal i k))
        (fun i k => student_ratio d nu Ci mu0 (ch_pos c (pred i) k) (cn_proposal d nu L Ci mu0 (ch_scale c (pred i)) (gamma i k) (ch_pos c (pred i) k) (normal i k))) uniform c /\
      adapts n (adapted_cn d) c /\ mean_value n (log_posterior env lp ll) c q /\
      stops (k_n_max env) q (fun i => long_enough d (k_n_steps env) (ch_scale c i)) (ch_steps c) /\
      w_u (o_w o) = map (fun k => map Fin (ch_pos c (ch_steps c) k)) (seq 0 n).
  Proof.
    unfold pcn. rewrite Ecov, Emean, Enu. cbn [need_mat of_option bind]. rewrite ECi, EL. cbn [bind]. rewrite beta_eq.
    match goal with |- bind ?M _ = _ -> _ => destruct M as [[st N]|] eqn:EK end; cbn [bind]; [|discriminate]. intros Ho; injection Ho as <-.
    destruct sigma0 as [q0 [Eq0 [Eq1 Hq0]]]. rewrite Eq0 in EK.
    destruct (initial_plain PCN (Fin q0) (map Fin mu0) (nmean (sum2 (s_logl s) (s_logp s))) eq_refl) as [V0 P0]; [exists q0; auto|exists mu0; auto|].
    destruct (run env d n rows HE lp ll bl HP HL beta beta_pos (ei_n _ _ _ _ _ _ _ _ _ HX) (ei_dim _ _ _ _ _ _ _ _ _ HX) HN PCN (pcn_step env (Fin nu) (fin_mat Ci) (fin_mat L) (Fin beta))
      (ex_intro _ (Fin nu) (ex_intro _ (fin_mat Ci) (ex_intro _ (fin_mat L) eq_refl))) rand uniform (er_uniform _ _ _ _ HR)
      (fun sg mu i k u => cn_proposal d nu L Ci mu sg (gamma i k) u (normal i k)) (fun mu u u' => student_ratio d nu Ci mu u u')) with (3 := EK)
      as [c [q (RO & VN & I0 & IN & S0 & C0 & MV & AD & _ & CC & QV & ST)]]; auto.
    - intros i st1 st2 stop V E k Hk. exact (pcn_walk i st1 st2 stop V E k Hk).
    - intros r i st1 st2 stop _ _ _ H. discriminate H.
    - cbn [start m_mu] in C0. rewrite map_unfin in C0.
      assert (CE : forall i, (i <= ch_steps c)%nat -> ch_center c i = mu0) by (intros i Hi; rewrite CC by (auto; discriminate); exact C0).
      exists c, q. split; [exact RO|]. split; [intros k Hk; rewrite I0; now apply P0|]. split; [cbn in S0; injection S0 as <-; exact Eq1|].
      split; [|split; [exact AD|split; [exact QV|split; [exact ST|]]]].
      + intros i k Hi Hk. specialize (MV i k Hi Hk). cbn [pred] in *. rewrite (CE i) in MV by lia. exact MV.
      + cbn [finish o_w]. etransitivity; [exact (final_plain PCN st eq_refl VN)|]. apply map_ext_in. intros k _. now rewrite IN.
  Qed.

  Lemma ppcn_walk i st1 st2 stop : flow_bijection env d -> inv env d n lp ll bl beta PPCN st1 -> ppcn_step env (Fin nu) (fin_mat Ci) (fin_mat L) (Fin beta) (rand (Z.of_nat (S i))) (Z.of_nat (S i)) st1 = Ok (st2, stop) -> forall k, (k < n)%nat ->
    length (prop PPCN (fun sg mu i k u => cn_proposal d nu L Ci mu sg (gamma i k) u (normal i k)) st1 (S i) k) = d /\
    walker_step (tgt env lp ll beta PPCN) (posR PPCN st1 k) (prop PPCN (fun sg mu i k u => cn_proposal d nu L Ci mu sg (gamma i k) u (normal i k)) st1 (S i) k) (hstg PPCN (fun sg mu i k u => cn_proposal d nu L Ci mu sg (gamma i k) u (normal i k)) (fun mu u u' => student_ratio d nu Ci mu u u') st1 (S i) k) (uniform (S i) k) (nth k (m_alpha st2) (Fin 0)) (nth k (pos PPCN (m_w st2)) []) /\
    (latent PPCN = true -> latent_coherent env (m_w st2) k).
  Proof.
    intros HB V E k Hk.
      destruct (inv_pos env d n lp ll bl beta PPCN st1 V) as [E1 [E2 E3]]. destruct (inv_posR env d n lp ll bl beta PPCN st1 k V Hk) as [_ [Lk Ht]].
      destruct (v_sigma _ _ _ _ _ _ _ _ _ V) as [sg [Es Hsg]]. destruct (v_mu _ _ _ _ _ _ _ _ _ V) as [mu [Em Lm]]. specialize (Lm eq_refl). cbn in Hsg.
      destruct (v_lat _ _ _ _ _ _ _ _ _ V eq_refl) as [RL LC].
      unfold prop, hstg, prop. rewrite Es, Em, map_unfin. cbn [unfin].
      destruct (er_uniform _ _ _ _ HR (S i) k) as [U1 U2].
      assert (Lj : forall j, (j < n)%nat -> length (nth j (map (map unfin) (pos PPCN (m_w st1))) []) = d) by (intros j Hj; apply (inv_posR env d n lp ll bl beta PPCN st1 j V Hj)).
      destruct (ppcn_walker env d rows HE lp ll bl HP HL beta beta_pos HI (fb_inverse _ _ HB) L C Ci mu nu sg _ _ st1 st2 stop n _ (normal (S i)) _ k (uniform (S i) k) HCh HCi Lm Hnu ltac:(lra) E
          (v_rect _ _ _ _ _ _ _ _ _ V) RL Es Em E1 E2
          (fun j Hj => er_normal _ _ _ _ HR (S i) j Hj) (gamma_row i _ mu Lm Lj) Hk (inv_coherent env d n lp ll bl beta PPCN st1 k V Hk) (LC k Hk) Ht U1 (proj1 U2)) as [W1 W2].
      split; [|split; [exact W1|intros _; exact W2]]. unfold cn_proposal. eapply cn_length; eauto.
  Qed.

  Theorem ppcn_chain o : flow_bijection env d -> preconditioned_pcn env g (Fin p) s rand = Ok o ->
    exists c q, result_of o n c /\ (forall k, (k < n)%nat -> exists f, k_flow_forward env (map Fin (nth k us [])) = (map Fin (ch_pos c 0 k), Fin f)) /\
      ch_scale c 0 = Rmin p (99 / 100) /\ ch_center c 0%nat = mu0 /\
      moves n (log_target_latent env lp ll beta)
        (fun i k => cn_proposal d nu L Ci (ch_center c (pred i)) (ch_scale c (pred i)) (gamma i k) (ch_pos c (pred i) k) (normal i k))
        (fun i k => student_ratio d nu Ci (ch_center c (pred i)) (ch_pos c (pred i) k)
           (cn_proposal d nu L Ci (ch_center c (pred i)) (ch_scale c (pred i)) (gamma i k) (ch_pos c (pred i) k) (normal i k))) uniform c /\
      adapts n (adapted_cn d) c /\ follows d n c /\ mean_value n (through_flow env (log_posterior env lp ll)) c q /\
      stops (k_n_max env) q (fun i => long_enough d (k_n_steps env) (ch_scale c i)) (ch_steps c) /\
      (forall k, (k < n)%nat -> exists f, k_flow_inverse env (map Fin (ch_pos c (ch_steps c) k)) = (nth k (w_u (o_w o)) [], Fin f)).
  Proof.
    intros HB. unfold preconditioned_pcn. rewrite (surjective_pairing (flow_forward env (s_u s))). rewrite Ecov, Emean, Enu. cbn [need_mat of_option bind]. rewrite ECi, EL. cbn [bind]. rewrite beta_eq.
    match goal with |- bind ?M _ = _ -> _ => destruct M as [[st N]|] eqn:EK end; cbn [bind]; [|discriminate]. intros Ho; injection Ho as <-.
    destruct sigma0 as [q0 [Eq0 [Eq1 Hq0]]]. rewrite Eq0 in EK.
    destruct (initial_latent PPCN (Fin q0) (map Fin mu0) (nmean (sum2 (s_logl s) (s_logp s))) eq_refl HB) as [V0 P0]; [exists q0; auto|exists mu0; auto|].
    destruct (run env d n rows HE lp ll bl HP HL beta beta_pos (ei_n _ _ _ _ _ _ _ _ _ HX) (ei_dim _ _ _ _ _ _ _ _ _ HX) HN PPCN (ppcn_step env (Fin nu) (fin_mat Ci) (fin_mat L) (Fin beta))
      (ex_intro _ (Fin nu) (ex_intro _ (fin_mat Ci) (ex_intro _ (fin_mat L) eq_refl))) rand uniform (er_uniform _ _ _ _ HR)
      (fun sg mu i k u => cn_proposal d nu L Ci mu sg (gamma i k) u (normal i k)) (fun mu u u' => student_ratio d nu Ci mu u u')) with (3 := EK)
      as [c [q (RO & VN & I0 & IN & S0 & C0 & MV & AD & FO & _ & QV & ST)]]; auto.
    - intros i st1 st2 stop V E k Hk. exact (ppcn_walk i st1 st2 stop HB V E k Hk).
    - intros r i st1 st2 stop R RL E El. eapply (latent_rect_step PPCN); eauto. cbn [step_of]. eauto.
    - cbn [start m_mu] in C0. rewrite map_unfin in C0.
      exists c, q. split; [exact RO|]. split; [intros k Hk; rewrite I0; now apply P0|]. split; [cbn in S0; injection S0 as <-; exact Eq1|]. split; [exact C0|].
      split; [exact MV|]. split; [exact AD|]. split; [now apply FO|]. split; [exact QV|]. split; [exact ST|].
      cbn [finish o_w]. intros k Hk. rewrite IN. exact (final_latent PPCN st k eq_refl VN Hk).
  Qed.
  End Cn.
End Main.

(** * The run of a kernel is a chain of SpecChain.v *)
From Coq Require Import Reals ZArith Bool Lia Lra.
From Coquelicot Require Import Coquelicot.
From Coq Require Import List.
From Verif Require Import Num PyBase PyBaseFacts XReal RList Scaler ScalerStruct SpecScaler ScalerFacts ScalerFitFacts ScalerSpecFacts Geometry SpecGeometry GeometryFacts
  Mcmc SpecMcmc McmcFacts McmcInv McmcCoherent McmcNum McmcSigma SpecBalance BalanceFacts McmcBalance SpecChain ChainFacts ChainSim ChainLaws.
Import ListNotations.
Set Bullet Behavior "Strict Subproofs".
Local Open Scope R_scope.

Definition latent (k : kernel) : bool := match k with PPCN | PRWM => true | _ => false end.
Definition cn (k : kernel) : bool := match k with PPCN | PCN => true | _ => false end.

Lemma step_of_core {T B} {NT : NumT T} (env : kernel_env T B) k beta step r i st st' stop : step_of k env beta step -> step r i st = Ok (st', stop) -> step_core env r beta st st'.
Proof.
  destruct k; intros H E; [destruct H as [nu [ic [ch ->]]]|destruct H as [ch ->]|destruct H as [nu [ic [ch ->]]]|destruct H as [ch ->]];
  [eapply ppcn_core|eapply prwm_core|eapply pcn_core|eapply rwm_core]; exact E.
Qed.

Section Run.
  Context {B : Type}.
  Variable env : kernel_env X B.
  Variables (d n : nat) (rows : list (X * X)).
  Hypothesis HE : exact_env env d rows.
  Variables (lp ll : vec X -> X) (bl : vec X -> B).
  Hypothesis HP : prior_rows env lp.
  Hypothesis HL : like_rows env ll bl.
  Variable beta : R.
  Hypothesis Hbeta : 0 <= beta.
  Hypothesis Hn : (0 < n)%nat.
  Hypothesis Hd : (0 < d)%nat.
  Hypothesis HN : (0 <= k_n_steps env)%Z.
  Variable kd : kernel.
  Variable step : step_rand X B -> Z -> mstate X B -> res (mstate X B * bool).
  Hypothesis HS : step_of kd env (Fin beta) step.
  Variables (rand : Z -> step_rand X B) (uniform : nat -> nat -> R).
  Hypothesis HU : forall i k, r_unif (rand (Z.of_nat i)) k = Fin (uniform i k) /\ 0 <= uniform i k < 1.

  Definition pos (w : walkers X B) : mat X := if latent kd then w_theta w else w_u w.
  Definition posR (st : mstate X B) (k : nat) : list R := nth k (map (map unfin) (pos (m_w st))) [].
  Definition tgt : list R -> R -> Prop := if latent kd then log_target_latent env lp ll beta else log_target env lp ll beta.
  Definition value0 : list R -> R -> Prop := if cn kd then log_posterior env lp ll else log_target env lp ll 1.
  Definition value : list R -> R -> Prop := if latent kd then through_flow env value0 else value0.
  Definition stat (w : walkers X B) : X :=
    nmean (if cn kd then sum2 (w_logl w) (w_logp w) else sum3 (w_logl w) (w_logp w) (w_logdetj w)).
  Definition limit (s : X) : X := match kd with PRWM => limit_prwm env s | _ => limit_std env s end.
  Definition enough (s c : R) : Prop := match kd with PRWM => long_enough_latent_walk d (k_n_steps env) s c | _ => long_enough d (k_n_steps env) s c end.
  Definition law (i : nat) (s a : R) : R := match kd with PPCN | PCN => adapted_cn d i s a | PRWM => adapted_latent_walk i s a | RWM => adapted_walk i s a end.

  Record inv (st : mstate X B) : Prop := {
    v_rect : rectangular (m_w st) n;
    v_coh : all_coherent env lp ll bl (m_w st);
    v_blobs : w_blobs (m_w st) <> None -> like_has_blobs env;
    v_len : length (pos (m_w st)) = n;
    v_pos : forall k, (k < n)%nat -> exists p t, nth k (pos (m_w st)) [] = map Fin p /\ length p = d /\ tgt p t;
    v_sigma : exists s, m_sigma st = Fin s /\ in_range kd s;
    v_mu : exists mu, m_mu st = map Fin mu /\ (cn kd = true -> length mu = d);
    v_lat : latent kd = true -> latent_rectangular (m_w st) n /\ forall k, (k < n)%nat -> latent_coherent env (m_w st) k }.

  Lemma inv_pos st : inv st -> pos (m_w st) = map (map Fin) (map (map unfin) (pos (m_w st))) /\ Forall (fun u => length u = d) (map (map unfin) (pos (m_w st))) /\
    length (map (map unfin) (pos (m_w st))) = n.
  Proof.
    intros V. destruct (finite_mat (pos (m_w st)) n d (v_len _ V)) as [E F]; [intros k Hk; destruct (v_pos _ V k Hk) as [p [t [E [Lp _]]]]; now exists p|].
    split; [exact E|]. split; [exact F|]. rewrite map_length. apply V.
  Qed.
  Lemma inv_posR st k : inv st -> (k < n)%nat -> nth k (pos (m_w st)) [] = map Fin (posR st k) /\ length (posR st k) = d /\ exists t, tgt (posR st k) t.
  Proof.
    intros V Hk. destruct (v_pos _ V k Hk) as [p [t [E [Lp Ht]]]].
    assert (Ep : posR st k = p).
    { unfold posR. etransitivity; [exact (nth_map_f (map unfin) (pos (m_w st)) k [] [] (eq_ind_r (fun z => (k < z)%nat) Hk (v_len _ V)))|].
      exact (eq_trans (f_equal (map unfin) E) (map_unfin p)). }
    rewrite Ep. split; [exact E|]. split; [exact Lp|]. now exists t.
  Qed.
  Lemma inv_coherent st k : inv st -> (k < n)%nat -> exists hb, coherent (k_scaler env) (k_junk env) lp ll bl hb (particle_at (m_w st) k).
  Proof. intros V Hk. eexists. apply (v_coh _ V). rewrite (re_x _ _ (v_rect _ V)). exact Hk. Qed.

  (** the stored values of a walker *)
  Lemma inv_values st k : inv st -> (k < n)%nat -> exists a b c,
    nth k (w_logl (m_w st)) (Fin 0) = Fin a /\ nth k (w_logp (m_w st)) (Fin 0) = Fin b /\ nth k (w_logdetj (m_w st)) (Fin 0) = Fin c /\
    value (posR st k) (if cn kd then a + b else a + b + c).
  Proof.
    intros V Hk. destruct (inv_posR st k V Hk) as [Ep [Lp [t Ht]]]. destruct (inv_coherent st k V Hk) as [hb HC].
    assert (G : exists u t', nth k (w_u (m_w st)) [] = map Fin u /\ log_target env lp ll beta u t' /\
      forall v, value0 u v -> value (posR st k) v).
    { unfold tgt, value in *. destruct (latent kd) eqn:El.
      - destruct (v_lat _ V El) as [_ LC]. specialize (LC k Hk). unfold latent_coherent in LC.
        destruct Ht as [u [f [t' [E1 [E2 _]]]]]. unfold pos in Ep. rewrite El in Ep. rewrite Ep, E1 in LC. injection LC as E3 _.
        exists u, t'. split; [exact (eq_sym E3)|]. split; [exact E2|]. intros v Hv. now exists u, f.
      - unfold pos in Ep. rewrite El in Ep. exists (posR st k), t. split; [exact Ep|]. split; [exact Ht|auto]. }
    destruct G as [u [t' [Eu [[x [a [b [c [E1 [E2 [E3 _]]]]]]] HV]]]].
    destruct HC. unfold particle_at in *. cbn [pt_u pt_x pt_logdetj pt_logl pt_logp] in *.
    assert (Linv' : inverse_row (k_scaler env) (k_junk env) (map Fin u) = Ok (nth k (w_x (m_w st)) [], nth k (w_logdetj (m_w st)) (nofZ 0))) by (rewrite <- Eu; exact co_inverse).
    rewrite E1 in Linv'. injection Linv' as Ex El.
    exists a, b, c. split; [exact (eq_trans co_logl (eq_trans (f_equal ll (eq_sym Ex)) E2))|].
    split; [exact (eq_trans co_logp (eq_trans (f_equal lp (eq_sym Ex)) E3))|]. split; [exact (eq_sym El)|].
    apply HV. unfold value0. destruct (cn kd).
    - exists x, a, b, c. auto.
    - exists x, a, b, c. split; [exact E1|]. split; [exact E2|]. split; [exact E3|]. ring.
  Qed.
  Lemma inv_stat st : inv st -> exists v, (forall k, (k < n)%nat -> value (posR st k) (v k)) /\ stat (m_w st) = Fin (average n v).
  Proof.
    intros V. destruct (v_rect _ V) as [Ru Rx Rd Rl Rp Rb].
    assert (F : forall l : list X, length l = n -> (forall k, (k < n)%nat -> exists a, nth k l (Fin 0) = Fin a) ->
      exists r, l = map Fin r /\ length r = n /\ forall k, (k < n)%nat -> nth k l (Fin 0) = Fin (nth k r 0)).
    { intros l Ll Hl. exists (map unfin l). pose proof (finite_vec l n Ll Hl) as E. split; [exact E|]. split; [now rewrite map_length|].
      intros k Hk. rewrite E at 1. apply (nth_map_f Fin). rewrite map_length. lia. }
    destruct (F _ Rl) as [la [El [Lla Nl]]]; [intros k Hk; destruct (inv_values st k V Hk) as [a [b [c [A1 [A2 [A3 A4]]]]]]; now exists a|].
    destruct (F _ Rp) as [lb [Eb [Llb Nb]]]; [intros k Hk; destruct (inv_values st k V Hk) as [a [b [c [A1 [A2 [A3 A4]]]]]]; now exists b|].
    destruct (F _ Rd) as [lc [Ec [Llc Nc]]]; [intros k Hk; destruct (inv_values st k V Hk) as [a [b [c [A1 [A2 [A3 A4]]]]]]; now exists c|].
    exists (fun k => if cn kd then nth k la 0 + nth k lb 0 else nth k la 0 + nth k lb 0 + nth k lc 0). split.
    - intros k Hk. destruct (inv_values st k V Hk) as [a [b [c [A1 [A2 [A3 A4]]]]]].
      assert (H1 : nth k la 0 = a) by (assert (Q : Fin (nth k la 0) = Fin a) by (rewrite <- A1; symmetry; exact (Nl k Hk)); now injection Q).
      assert (H2 : nth k lb 0 = b) by (assert (Q : Fin (nth k lb 0) = Fin b) by (rewrite <- A2; symmetry; exact (Nb k Hk)); now injection Q).
      assert (H3 : nth k lc 0 = c) by (assert (Q : Fin (nth k lc 0) = Fin c) by (rewrite <- A3; symmetry; exact (Nc k Hk)); now injection Q).
      rewrite H1, H2, H3. exact A4.
    - unfold stat. change (vec X) with (list X) in *. rewrite El, Eb, Ec. rewrite sum2_fin, sum3_fin.
      destruct (cn kd).
      + etransitivity; [exact (nmean_average (map2 Rplus la lb) n (map2_length_eq _ _ _ n Lla Llb) Hn)|]. f_equal. apply average_ext. intros k Hk. now apply (nth_map2 Rplus la lb 0 0 0 k n).
      + assert (L2 : length (map2 Rplus la lb) = n) by now apply map2_length_eq.
        etransitivity; [exact (nmean_average (map2 Rplus (map2 Rplus la lb) lc) n (map2_length_eq _ _ _ n L2 Llc) Hn)|]. f_equal. apply average_ext. intros k Hk.
        rewrite (nth_map2 Rplus _ lc 0 0 0 k n L2 Llc Hk). f_equal. now apply (nth_map2 Rplus la lb 0 0 0 k n).
  Qed.

  (** the end of a step *)
  Lemma step_tail r i st st' stop : step r i st = Ok (st', stop) ->
    (m_best st', m_cnt st', stop) = plateau (m_best st) (m_cnt st) (stat (m_w st')) (limit (m_sigma st')) /\
    m_mu st' = match kd with PPCN => adapt_mu env i (m_mu st) (w_theta (m_w st')) | _ => m_mu st end.
  Proof.
    clear - HS. revert HS. unfold stat, limit.
    destruct kd; [intros [nu [ic [ch ->]]]|intros [ch ->]|intros [nu [ic [ch ->]]]|intros [ch ->]];
    [unfold ppcn_step, flow_inverse|unfold prwm_step, flow_inverse|unfold pcn_step|unfold rwm_step];
    (match goal with |- bind ?M _ = _ -> _ => destruct M as [[[? ?] ?]|]; cbn [bind]; [|discriminate] end;
     match goal with |- bind ?M _ = _ -> _ => destruct M as [?|]; cbn [bind]; [|discriminate] end;
     match goal with |- context [plateau ?q1 ?q2 ?q3 ?q4] => destruct (plateau q1 q2 q3 q4) as [[? ?] ?] eqn:EP end;
     intros H; injection H as <- <-; cbn [m_best m_cnt m_w m_sigma m_mu cn w_logl w_logp w_logdetj w_theta] in *; split; [exact (eq_sym EP)|reflexivity]).
  Qed.

  (** ** The loop *)
  Variables (propose : R -> list R -> nat -> nat -> list R -> list R) (hastings : list R -> list R -> list R -> R).
  Definition prop (st : mstate X B) (i k : nat) : list R := propose (unfin (m_sigma st)) (map unfin (m_mu st)) i k (posR st k).
  Definition hstg (st : mstate X B) (i k : nat) : R := hastings (map unfin (m_mu st)) (posR st k) (prop st i k).
  Hypothesis Walk : forall i st st' stop, inv st -> step (rand (Z.of_nat (S i))) (Z.of_nat (S i)) st = Ok (st', stop) -> forall k, (k < n)%nat ->
    length (prop st (S i) k) = d /\
    walker_step tgt (posR st k) (prop st (S i) k) (hstg st (S i) k) (uniform (S i) k) (nth k (m_alpha st') (Fin 0)) (nth k (pos (m_w st')) []) /\
    (latent kd = true -> latent_coherent env (m_w st') k).
  Hypothesis Rect : forall r i st st' stop, rectangular (m_w st) n -> (latent kd = true -> latent_rectangular (m_w st) n) -> step r i st = Ok (st', stop) ->
    latent kd = true -> latent_rectangular (m_w st') n.

  Definition probR (st : mstate X B) (k : nat) : R := unfin (nth k (m_alpha st) (Fin 0)).

  Lemma step_next i st st' stop : inv st -> step (rand (Z.of_nat (S i))) (Z.of_nat (S i)) st = Ok (st', stop) ->
    inv st' /\
    (forall k, (k < n)%nat -> nth k (m_alpha st') (Fin 0) = Fin (probR st' k) /\
       acceptance tgt (posR st k) (prop st (S i) k) (hstg st (S i) k) (probR st' k) /\
       posR st' k = if Rlt_dec (uniform (S i) k) (probR st' k) then prop st (S i) k else posR st k) /\
    m_alpha st' = map Fin (map (probR st') (seq 0 n)) /\
    m_sigma st' = Fin (law (S i) (unfin (m_sigma st)) (average n (probR st'))) /\
    (kd = PPCN -> map unfin (m_mu st') =
       map (fun j => nth j (map unfin (m_mu st)) 0 + 1 / (INR (S i) + 1) * (average n (fun k => nth j (posR st' k) 0) - nth j (map unfin (m_mu st)) 0)) (seq 0 d)) /\
    (kd <> PPCN -> m_mu st' = m_mu st).
  Proof.
    intros V E. pose proof (step_of_core _ _ _ _ _ _ _ _ _ HS E) as C. pose proof (core_rect _ _ _ _ _ _ C (v_rect _ V)) as R'.
    pose proof (Walk i st st' stop V E) as W.
    destruct (v_sigma _ V) as [s [Es Hs]]. destruct (v_mu _ V) as [mu [Emu Lmu]].
    destruct (step_tail _ _ _ _ _ E) as [_ Tmu].
    assert (RL : latent kd = true -> latent_rectangular (m_w st') n) by (eapply Rect; [apply V|intros Hl; apply (v_lat _ V Hl)|exact E]).
    assert (Lpos : length (pos (m_w st')) = n).
    { unfold pos. destruct (latent kd); [apply RL; reflexivity|apply R']. }
    assert (Q : forall k, (k < n)%nat -> nth k (m_alpha st') (Fin 0) = Fin (probR st' k) /\
       acceptance tgt (posR st k) (prop st (S i) k) (hstg st (S i) k) (probR st' k) /\
       nth k (pos (m_w st')) [] = map Fin (if Rlt_dec (uniform (S i) k) (probR st' k) then prop st (S i) k else posR st k)).
    { intros k Hk. destruct (W k Hk) as [_ [[a [A1 [A2 A3]]] _]]. unfold probR. rewrite A1. cbn [unfin]. auto. }
    assert (Q' : forall k, (k < n)%nat -> posR st' k = if Rlt_dec (uniform (S i) k) (probR st' k) then prop st (S i) k else posR st k).
    { intros k Hk. unfold posR at 1. etransitivity; [exact (nth_map_f (map unfin) (pos (m_w st')) k [] [] (eq_ind_r (fun z => (k < z)%nat) Hk Lpos))|].
      exact (eq_trans (f_equal (map unfin) (proj2 (proj2 (Q k Hk)))) (map_unfin _)). }
    assert (La : length (m_alpha st') = n).
    { destruct (step_alpha_accept env (Fin beta) step _ _ st st' stop (step_of_is _ _ _ _ HS) E) as [La _]. rewrite La. apply (v_rect _ V). }
    assert (Ea : m_alpha st' = map Fin (map (probR st') (seq 0 n))).
    { apply (nth_ext _ _ (Fin 0) (Fin 0)); [now rewrite !map_length, seq_length|]. intros k Hk. rewrite La in Hk. rewrite (proj1 (Q k Hk)). symmetry.
      rewrite (nth_map_f Fin _ k 0) by (now rewrite map_length, seq_length). now rewrite nth_map_seq_R. }
    assert (Lp : length (map (probR st') (seq 0 n)) = n) by (now rewrite map_length, seq_length).
    assert (Av : average n (fun k => nth k (map (probR st') (seq 0 n)) 0) = average n (probR st')) by (apply average_ext; intros k Hk; now apply nth_map_seq_R).
    assert (Sg : m_sigma st' = Fin (law (S i) (unfin (m_sigma st)) (average n (probR st')))).
    { rewrite (step_sigma env kd step (Fin beta) _ _ st st' stop HS E). rewrite Ea, Es. cbn [unfin]. unfold law. rewrite <- Av.
      destruct kd; [apply adapt_tpcn_law|apply adapt_prwm_law|apply adapt_tpcn_law|apply adapt_rwm_law]; auto; exact (ex_n_dim _ _ _ HE). }
    assert (IP : forall k, (k < n)%nat -> exists p t, nth k (pos (m_w st')) [] = map Fin p /\ length p = d /\ tgt p t).
    { intros k Hk. destruct (Q k Hk) as [_ [[t [T1 T2]] T3]]. destruct (inv_posR st k V Hk) as [_ [Lk _]]. rewrite T3.
      destruct (Rlt_dec (uniform (S i) k) (probR st' k)) as [Hlt|Hge]; [|exists (posR st k), t; auto].
      destruct T2 as [[t' [T2 _]]|[_ T2]]; [|destruct (HU (S i) k) as [_ HU']; lra].
      exists (prop st (S i) k), t'. split; [reflexivity|]. split; [apply (W k Hk)|exact T2]. }
    assert (Mu1 : kd = PPCN -> m_mu st' = map Fin (map (fun j => nth j mu 0 + 1 / (INR (S i) + 1) * (average n (fun k => nth j (posR st' k) 0) - nth j mu 0)) (seq 0 d))).
    { intros Ek.
      assert (Epos : pos (m_w st') = w_theta (m_w st')) by (unfold pos; now rewrite Ek).
      assert (Tmu' : m_mu st' = adapt_mu env (Z.of_nat (S i)) (map Fin mu) (pos (m_w st'))) by (rewrite Epos, <- Emu, Tmu; now rewrite Ek).
      destruct (finite_mat (pos (m_w st')) n d Lpos) as [E1 E2]; [intros k Hk; destruct (IP k Hk) as [p [t [I1 [I2 _]]]]; now exists p|].
      rewrite Tmu'. etransitivity; [apply (f_equal (adapt_mu env (Z.of_nat (S i)) (map Fin mu)) E1)|].
      apply (adapt_mu_law env d Hd (ex_n_dim _ _ _ HE) (S i) mu _ n); auto; [apply Lmu; now rewrite Ek|rewrite map_length; exact Lpos]. }
    split.
    - constructor; auto.
      + eapply (core_coherent x_undefined x_random X_ieee env (Fin beta)); eauto; try apply V.
        * cbn. unfold Rleb. destruct (Rle_dec 0 beta); [reflexivity|contradiction].
        * intros k. destruct (HU (S i) k) as [-> ?]. cbn. eexists. split; [reflexivity|lra].
      + intros Hb. apply (v_blobs _ V). pose proof (core_blobs _ _ _ _ _ C) as Eb. rewrite (re_x _ _ (v_rect _ V)) in Eb. specialize (Eb (v_rect _ V)).
        destruct (w_blobs (m_w st')), (w_blobs (m_w st)); congruence.
      + destruct (step_sigma_range env ltac:(rewrite (ex_n_dim _ _ _ HE); exact Hd) kd step (Fin beta) _ _ st st' stop s HS E) as [s' Hs']; auto; [lia| |now exists s'].
        intros Ex. pose proof (re_x _ _ (v_rect _ V)) as Lx. rewrite Ex in Lx. cbn in Lx. lia.
      + destruct kd eqn:Ek; [exists (map (fun j => nth j mu 0 + 1 / (INR (S i) + 1) * (average n (fun k => nth j (posR st' k) 0) - nth j mu 0)) (seq 0 d)); split; [now apply Mu1|intros; now rewrite map_length, seq_length]| | |];
          exists mu; rewrite Tmu; auto.
      + intros Hl. split; [now apply RL|]. intros k Hk. now apply (W k Hk).
    - split; [intros k Hk; destruct (Q k Hk) as [A1 [A2 _]]; auto|]. split; [exact Ea|]. split; [exact Sg|]. split.
      + intros Ek. rewrite (Mu1 Ek), Emu, map_unfin, map_unfin. reflexivity.
      + intros Ek. rewrite Tmu. destruct kd; congruence.
  Qed.

  Lemma limit_enough s c : nleb (limit (Fin s)) (@nofZ X XNum c) = true <-> enough s (IZR c).
  Proof. unfold limit, enough. destruct kd; first [apply limit_prwm_law|apply limit_std_law]; auto; exact (ex_n_dim _ _ _ HE). Qed.

  Theorem run fuel st0 st N : kernel_loop env step rand fuel 0 st0 = Ok (st, N) -> inv st0 -> m_best st0 = stat (m_w st0) -> m_cnt st0 = 0%Z ->
    exists c q, result_of (finish st N) n c /\ inv st /\
      (forall k, ch_pos c 0 k = posR st0 k) /\ (forall k, ch_pos c (ch_steps c) k = posR st k) /\
      m_sigma st0 = Fin (ch_scale c 0) /\ ch_center c 0%nat = map unfin (m_mu st0) /\
      moves n tgt (fun i k => propose (ch_scale c (pred i)) (ch_center c (pred i)) i k (ch_pos c (pred i) k))
        (fun i k => hastings (ch_center c (pred i)) (ch_pos c (pred i) k) (propose (ch_scale c (pred i)) (ch_center c (pred i)) i k (ch_pos c (pred i) k))) uniform c /\
      adapts n law c /\
      (kd = PPCN -> follows d n c) /\ (kd <> PPCN -> forall i, (i <= ch_steps c)%nat -> ch_center c i = ch_center c 0%nat) /\
      mean_value n value c q /\ stops (k_n_max env) q (fun i => enough (ch_scale c i)) (ch_steps c).
  Proof.
    intros HK V0 Eb Ec. destruct (kernel_loop_path env step rand fuel 0%Z st0 st N HK) as (M & states & brk & M1 & -> & S0 & SM & HT & HB & HF).
    assert (HT' : forall m, (m < M)%nat -> step (rand (Z.of_nat (S m))) (Z.of_nat (S m)) (states m) = Ok (states (S m), brk (S m))) by exact HT.
    assert (V : forall m, (m <= M)%nat -> inv (states m)).
    { intros m. induction m as [|m IH]; intros Hm; [now rewrite S0|]. eapply step_next; [apply IH; lia|apply HT'; lia]. }
    set (c := {| ch_steps := M; ch_pos := fun i k => posR (states i) k; ch_prob := fun i k => probR (states i) k;
                 ch_scale := fun i => unfin (m_sigma (states i)); ch_center := fun i => map unfin (m_mu (states i)) |}).
    set (q := fun i => unfin (stat (m_w (states i)))).
    assert (Sq : forall m, (m <= M)%nat -> stat (m_w (states m)) = Fin (q m)).
    { intros m Hm. unfold q. destruct (inv_stat _ (V m Hm)) as [v [_ ->]]. reflexivity. }
    assert (Ss : forall m, (m <= M)%nat -> m_sigma (states m) = Fin (unfin (m_sigma (states m)))).
    { intros m Hm. destruct (v_sigma _ (V m Hm)) as [s [-> _]]. reflexivity. }
    assert (TR : forall m, (m <= M)%nat -> tracks q m (m_best (states m)) (m_cnt (states m)) /\
       forall j, (1 <= j <= m)%nat -> (brk j = true <-> plateaued q (enough (unfin (m_sigma (states j)))) j)).
    { intros m. induction m as [|m IH]; intros Hm.
      - split; [|intros; lia]. rewrite S0, Eb, Ec. pose proof (Sq 0%nat ltac:(lia)) as Q0. rewrite S0 in Q0. rewrite Q0. apply tracks_0.
      - destruct (IH ltac:(lia)) as [T1 T2]. destruct (step_tail _ _ _ _ _ (HT' m ltac:(lia))) as [EP _].
        rewrite (Sq (S m) Hm), (Ss (S m) Hm) in EP.
        destruct (plateau_step q m _ _ _ _ _ _ (enough (unfin (m_sigma (states (S m))))) T1 (limit_enough _) (eq_sym EP)) as [P1 P2].
        split; [exact P1|]. intros j Hj. destruct (Nat.eq_dec j (S m)) as [->|]; [exact P2|apply T2; lia]. }
    exists c, q. split; [|split; [|split; [|split; [|split; [|split; [|split; [|split; [|split; [|split; [|split]]]]]]]]]].
    - constructor; [reflexivity| |].
      + cbn [finish o_sigma c ch_scale ch_steps]. rewrite <- SM. apply Ss. lia.
      + cbn [finish o_accept c ch_prob ch_steps]. rewrite <- SM. destruct M as [|M]; [lia|].
        destruct (step_next _ _ _ _ (V M ltac:(lia)) (HT' M ltac:(lia))) as [_ [_ [Ea _]]]. rewrite Ea.
        etransitivity; [apply (nmean_average _ n); [now rewrite map_length, seq_length|exact Hn]|]. f_equal. apply average_ext. intros k Hk. now apply nth_map_seq_R.
    - rewrite <- SM. apply V. lia.
    - intros k. cbn [c ch_pos]. now rewrite S0.
    - intros k. cbn [c ch_pos ch_steps]. now rewrite SM.
    - rewrite <- S0. cbn [c ch_scale]. apply Ss. lia.
    - cbn [c ch_center]. now rewrite S0.
    - intros i k Hi Hk. cbn [c ch_pos ch_prob ch_scale ch_center ch_steps pred] in *.
      destruct (step_next _ _ _ _ (V i ltac:(lia)) (HT' i Hi)) as [_ [H1 _]]. destruct (H1 k Hk) as [_ [H2 H3]]. split; [exact H2|exact H3].
    - intros i Hi. cbn [c ch_pos ch_prob ch_scale ch_center ch_steps pred] in *.
      destruct (step_next _ _ _ _ (V i ltac:(lia)) (HT' i Hi)) as [_ [_ [_ [Sg _]]]]. rewrite Sg. reflexivity.
    - intros Ek i Hi. cbn [c ch_pos ch_prob ch_scale ch_center ch_steps pred] in *.
      destruct (step_next _ _ _ _ (V i ltac:(lia)) (HT' i Hi)) as [_ [_ [_ [_ [Hm _]]]]]. exact (Hm Ek).
    - intros Ek i Hi. cbn [c ch_center ch_steps] in *. f_equal. induction i as [|i IH]; [reflexivity|].
      destruct (step_next _ _ _ _ (V i ltac:(lia)) (HT' i Hi)) as [_ [_ [_ [_ [_ Hm]]]]]. rewrite (Hm Ek). apply IH. lia.
    - intros i Hi. cbn [c ch_steps ch_pos] in *. destruct (inv_stat _ (V i Hi)) as [v [Hv Es]]. exists v. split; [exact Hv|]. unfold q. now rewrite Es.
    - cbn [c ch_steps ch_scale]. destruct (TR M ltac:(lia)) as [_ TB]. split; [exact M1|]. split.
      + destruct HF as [HF|HF]; [right; apply TB; [lia|exact HF]|left; lia].
      + intros i Hi. destruct (HB i Hi) as [B1 B2]. split; [lia|]. intros PL. apply TB in PL; [congruence|lia].
  Qed.
End Run.

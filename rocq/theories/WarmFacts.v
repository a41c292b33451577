(** * The batches of the warm-up, and what happens when they are made again *)
From Coq Require Import ZArith List Bool Lia PeanoNat.
From Verif Require Import Num PyBase PyBaseFacts Tools Scaler Particles ParticlesFacts LogLike Geometry GeometryFacts Mcmc SpecMcmc McmcFacts Flow Sampler
  ConfigFacts SpecReach SamplerFacts Reach SpecRun RowFacts ParticleInv HistoryFacts SpecTrace PoolSwap LoopFacts TraceFacts ResumeFacts.
Import ListNotations.
Set Bullet Behavior "Strict Subproofs".

Lemma skipn_twice {A} a b (l : list A) : skipn a (skipn b l) = skipn (b + a) l.
Proof. revert l. induction b as [|b IH]; intros l; [reflexivity|]. destruct l; [now rewrite !skipn_nil|]. cbn [skipn Nat.add]. apply IH. Qed.
Lemma slice_set_same {A} i n (new l : list A) m : length l = m -> length new = n -> (i < m / n)%nat -> slice i n (set_slice i n new l) = new.
Proof.
  intros Hl Hn Hi. assert (Np : (n <> 0)%nat) by (intros ->; cbn in Hi; lia).
  assert (B : (i * n + n <= m)%nat). { pose proof (Nat.mul_div_le m n Np). nia. }
  unfold slice, set_slice. rewrite skipn_app. rewrite (skipn_all2 (firstn (i * n) l)) by (rewrite firstn_length; lia).
  rewrite firstn_length_le by lia. rewrite Nat.sub_diag. cbn [skipn app]. rewrite firstn_app, <- Hn, firstn_all, Nat.sub_diag. cbn [firstn]. now rewrite app_nil_r.
Qed.
Lemma slice_set_other {A} i j n (new l : list A) m : length l = m -> length new = n -> (i < m / n)%nat -> (j < m / n)%nat -> i <> j ->
  slice j n (set_slice i n new l) = slice j n l.
Proof.
  intros Hl Hn Hi Hj Hij. assert (Np : (n <> 0)%nat) by (intros ->; cbn in Hi; lia).
  assert (B : (i * n + n <= m)%nat). { pose proof (Nat.mul_div_le m n Np). nia. }
  assert (B' : (j * n + n <= m)%nat). { pose proof (Nat.mul_div_le m n Np). nia. }
  unfold slice, set_slice. destruct (Nat.lt_ge_cases j i) as [H|H].
  - rewrite skipn_app, firstn_app. rewrite skipn_length, firstn_length_le by lia.
    replace (n - (i * n - j * n))%nat with 0%nat by nia. cbn [firstn]. rewrite app_nil_r.
    replace (firstn (i * n) l) with (firstn (j * n + (i * n - j * n)) l) by (f_equal; nia). rewrite firstn_skipn_comm, firstn_firstn, skipn_firstn_comm.
    f_equal. nia.
  - assert (i < j)%nat by lia. rewrite app_assoc, skipn_app. rewrite (skipn_all2 (firstn (i * n) l ++ new)) by (rewrite app_length, firstn_length_le, Hn by lia; nia).
    cbn [app]. rewrite app_length, firstn_length_le, Hn by lia. rewrite skipn_twice. f_equal. f_equal. nia.
Qed.

Section Warm.
  Context {T C P Opt : Type} {NT : NumT T}.
  Variable W : world T C P Opt.
  Variable undefined random good : T -> Prop.
  Hypothesis L : ieee_like undefined random.
  Hypothesis U : unit_interval good.
  Variable lp ll : vec T -> T.
  Variable bl : option (vec T -> list C).
  Hypothesis RG : regular W lp ll bl.
  Variable drawn : vec T -> Prop.
  Variable interrupts : bool.
  Notation reachable := (reachable W (good_draws random drawn) interrupts).
  Implicit Types s : sampler T C P.

  (** [s] after the batches 0, ..., i-1 *)
  Inductive after_batches (R : rand T C P) s0 : nat -> sampler T C P -> Prop :=
  | ab_start : after_batches R s0 0 s0
  | ab_batch i s s' : after_batches R s0 i s -> warmup_batch W R i s = Ok s' -> after_batches R s0 (S i) s'.

  (** what is determined by x *)
  Definition image (sc : reparam T) b (p : particle T (list C)) : Prop :=
    belongs lp ll b p /\ forward_row sc (wd_junk W) (pt_x p) = Ok (pt_u p) /\ exists x, inverse_row sc (wd_junk W) (pt_u p) = Ok (x, pt_logdetj p).
  Lemma image_unique sc b p q : image sc b p -> image sc b q -> pt_x p = pt_x q -> p = q.
  Proof.
    intros [[A1 A2 A3] [A4 [x A5]]] [[B1 B2 B3] [B4 [y B5]]] E. destruct p as [pu px pd pl pp pb], q as [qu qx qd ql qp qb].
    cbn [pt_u pt_x pt_logdetj pt_logl pt_logp pt_blob] in *. subst qx. assert (E : pu = qu) by congruence. subst qu. congruence.
  Qed.

  Record batches_made s0 (ps0 : mat T) (i : nat) s : Prop := {
    bm_reachable : reachable s;
    bm_cfg : s_cfg s = s_cfg s0; bm_scaler : s_scaler s = s_scaler s0; bm_pool : s_pool s = s_pool s0; bm_warmup : s_warmup s = s_warmup s0;
    bm_t : s_t s = (s_t s0 + Z.of_nat i)%Z;
    bm_calls : s_calls s = (s_calls s0 + Z.of_nat i * Z.of_nat (c_n_active (s_cfg s0)))%Z;
    bm_iterations : iterations (history_of s) = (iterations (history_of s0) + i)%nat;
    bm_old : forall t, (t < iterations (history_of s0))%nat -> stored (history_of s) t = stored (history_of s0) t;
    bm_numbers : exists betas, h_beta (history_of s) = h_beta (history_of s0) ++ betas /\ betas = repeat (nofZ 0) i;
    bm_iter : h_iter (history_of s) = h_iter (history_of s0) ++ map (fun j => s_t s0 + Z.of_nat j)%Z (seq 0 i);
    bm_ncalls : h_calls (history_of s) = h_calls (history_of s0) ++ map (fun j => s_calls s0 + Z.of_nat (j + 1) * Z.of_nat (c_n_active (s_cfg s0)))%Z (seq 0 i);
    bm_prior : exists ps, s_prior_samples s = Some ps /\ length ps = length ps0 /\
      (forall j, (j < i)%nat -> slice j (c_n_active (s_cfg s0)) ps = w_x (stored (history_of s) (iterations (history_of s0) + j))) /\
      (forall j, (i <= j < n_batches (s_cfg s0))%nat -> slice j (c_n_active (s_cfg s0)) ps = slice j (c_n_active (s_cfg s0)) ps0);
    bm_rows : forall j k, (j < i)%nat -> (k < c_n_active (s_cfg s0))%nat ->
      image (s_scaler s0) (blobs_of (s_cfg s0) bl) (particle_at (stored (history_of s) (iterations (history_of s0) + j)) k) /\
      nisinf (pt_logl (particle_at (stored (history_of s) (iterations (history_of s0) + j)) k)) = false /\
      (nisinf (ll (nth k (slice j (c_n_active (s_cfg s0)) ps0) [])) = false ->
         pt_x (particle_at (stored (history_of s) (iterations (history_of s0) + j)) k) = nth k (slice j (c_n_active (s_cfg s0)) ps0) []) }.

  Lemma batches_facts R s0 ps0 : reachable s0 -> good_draws random drawn R -> s_warmup s0 = true -> s_prior_samples s0 = Some ps0 ->
    forall i s, after_batches R s0 i s -> (i <= n_batches (s_cfg s0))%nat -> batches_made s0 ps0 i s.
  Proof.
    intros H0 HR Hw Ep i s H. assert (L0 : length ps0 = c_n_prior (s_cfg s0)).
    { pose proof (reachable_pinv W undefined random L good U lp ll bl RG drawn interrupts s0 H0) as [_ Pr _ _ _]. rewrite Ep in Pr. tauto. }
    induction H as [|i s s' H IH E]; intros Hi.
    - constructor; auto; try lia.
      + exists []. split; [now rewrite app_nil_r|reflexivity].
      + cbn. now rewrite app_nil_r.
      + cbn. now rewrite app_nil_r.
      + exists ps0. repeat split; auto. lia.
    - destruct IH as [M1 M2 M3 M4 M5 M6 M7 M8 M9 M10 M11 M12 M13 M14]; [lia|]. set (n := c_n_active (s_cfg s0)) in *.
      destruct M13 as (ps & P1 & P2 & P3 & P4).
      pose proof (reachable_pinv W undefined random L good U lp ll bl RG drawn interrupts s M1) as [Pp _ [A _] _ _]. rewrite M2 in A. fold n in A.
      assert (Lps : length ps = c_n_prior (s_cfg s)) by (rewrite M2; lia).
      assert (Hi' : (i < n_batches (s_cfg s))%nat) by (rewrite M2; lia).
      destruct (batch_rows W lp ll bl RG R i s s' ps E Pp P1 Lps Hi') as (w0 & source & c & X1 & X2 & X3 & X4 & X5 & X6 & X7 & X8 & X9 & X10 & X11 & X12 & X13 & X14 & X15).
      rewrite M2 in X1, X2, X3, X4, X5, X6, X10. fold n in X1, X2, X3, X4, X5, X6, X10.
      destruct (gathered_rows w0 _ source (current_arrays c) X2 X7) as (Y1 & Y2 & Y3). rewrite X5 in Y1, Y3.
      assert (Hb : with_blobs bl s = has_blobs (current_arrays c)) by (unfold with_blobs; rewrite Y2, X3, M2; reflexivity).
      rewrite Hb in A. pose proof (aligned_update (history_of s) n _ c A Y1 eq_refl) as (A1 & A2 & A3 & A4).
      assert (EH : history_of s' = update (history_of s) (items c)) by (unfold history_of; rewrite X9; reflexivity).
      assert (Ec : cu_beta c = nofZ 0 /\ cu_iter c = s_t s /\ cu_calls c = (s_calls s + Z.of_nat (c_n_active (s_cfg s)))%Z /\ s_t s' = (s_t s + 1)%Z /\ s_calls s' = (s_calls s + Z.of_nat (c_n_active (s_cfg s)))%Z).
      { clear -E X8. apply warmup_facts in E as (ps & x0 & u0 & xi & ldj0 & logp0 & logl0 & b0 & x & u & ldj & logp & logl & b & c' & _ & _ & _ & _ & _ & _ & _ & -> & ->).
        cbn [s_current] in X8. injection X8 as <-. repeat split; reflexivity. }
      destruct Ec as (N1 & N2 & N3 & N4 & N5).
      assert (LC : length (w_x (current_arrays c)) = n) by exact (re_x _ _ Y1).
      assert (ND : (i < c_n_prior (s_cfg s0) / n)%nat) by exact (eq_ind _ (fun z => (i < z)%nat) Hi' _ (f_equal n_batches M2)).
      assert (SP : forall j, (j < n_batches (s_cfg s0))%nat -> j <> i -> slice j n (set_slice i n (cu_x c) ps) = slice j n ps).
      { intros j Hj Hji. apply slice_set_other with (m := c_n_prior (s_cfg s0)); auto; lia. }
      constructor.
      + eapply rc_batch; [exact M1|exact HR|congruence|exact Hi'|exact E].
      + congruence.
      + congruence.
      + congruence.
      + congruence.
      + rewrite N4, M6. lia.
      + rewrite N5, M7, M2. fold n. lia.
      + rewrite EH, A2, M8. lia.
      + intros t Ht. rewrite EH, A4 by lia. auto.
      + destruct M10 as (betas & B1 & B2). exists (betas ++ [cu_beta c]). rewrite EH, update_items. cbn [h_beta]. rewrite B1, <- app_assoc. split; [reflexivity|].
        rewrite B2, N1. clear. induction i as [|i IH]; [reflexivity|]. cbn [repeat app]. now rewrite IH.
      + rewrite EH, update_items. cbn [h_iter]. rewrite M11, <- app_assoc. f_equal. rewrite seq_S, map_app. cbn [map]. rewrite N2, M6. reflexivity.
      + rewrite EH, update_items. cbn [h_calls]. rewrite M12, <- app_assoc. f_equal. rewrite seq_S, map_app. cbn [map]. rewrite N3, M7, M2. f_equal. f_equal. fold n. lia.
      + fold n. exists (set_slice i n (cu_x c) ps). split; [exact X10|]. split; [rewrite (set_slice_length i n _ _ (c_n_prior (s_cfg s0))); auto; lia|].
        split; intros j Hj.
        * rewrite EH. destruct (Nat.eq_dec j i) as [->|Hji].
          -- rewrite <- M8, A3. apply slice_set_same with (m := c_n_prior (s_cfg s0)); auto; lia.
          -- rewrite A4 by lia. rewrite SP by lia. apply P3. lia.
        * rewrite SP by lia. apply P4. lia.
      + fold n. intros j k Hj Hk. rewrite EH. destruct (Nat.eq_dec j i) as [->|Hji].
        * rewrite <- M8, A3. destruct (Y3 k Hk) as [V1 V2]. destruct (X6 k Hk) as (V3 & V4 & V5). rewrite V2. split; [|split; [exact V4|]].
          -- rewrite <- M3. exact (X4 _ V3).
          -- intros V6. rewrite <- P4 in * by lia. rewrite <- X1 in *.
             destruct (X4 k Hk) as [[G1 _ _] _]. rewrite V5; [reflexivity|]. rewrite G1. exact V6.
        * rewrite A4 by lia. apply M14; [lia|exact Hk].
  Qed.

  (** Making batch j again, when it has been made before, stores the same particles *)
  Lemma batches_again R R' s0 ps0 k e e' i s : reachable s0 -> good_draws random drawn R -> good_draws random drawn R' -> s_warmup s0 = true -> s_prior_samples s0 = Some ps0 ->
    after_batches R s0 k e -> (k <= n_batches (s_cfg s0))%nat ->
    reachable e' -> s_cfg e' = s_cfg e -> s_scaler e' = s_scaler e -> s_warmup e' = s_warmup e -> s_prior_samples e' = s_prior_samples e -> history_of e' = history_of e ->
    after_batches R' e' i s -> (i <= n_batches (s_cfg s0))%nat ->
    forall j, (j < k)%nat -> (j < i)%nat ->
      particles_of (history_of s) (iterations (history_of e) + j) (c_n_active (s_cfg s0)) = particles_of (history_of s) (iterations (history_of s0) + j) (c_n_active (s_cfg s0)).
  Proof.
    intros H0 HR HR' Hw Ep Ha Hk He' Q1 Q2 Q3 Q4 Q5 Ha' Hi j Hj Hj'.
    pose proof (batches_facts R s0 ps0 H0 HR Hw Ep _ _ Ha Hk) as [M1 M2 M3 M4 M5 M6 M7 M8 M9 M10 M11 M12 (ps & P1 & P2 & P3 & P4) M14].
    assert (Hi' : (i <= n_batches (s_cfg e'))%nat) by (rewrite Q1, M2; exact Hi).
    pose proof (batches_facts R' e' ps He' HR' ltac:(congruence) ltac:(congruence) _ _ Ha' Hi') as [N1 N2 N3 N4 N5 N6 N7 N8 N9 N10 N11 N12 _ N14].
    rewrite Q1, Q2, Q5, M2, M3 in *. unfold particles_of. apply map_ext_in. intros r Hr. apply in_seq in Hr. destruct (N14 j r Hj' ltac:(lia)) as (G1 & G2 & G3).
    destruct (M14 j r Hj ltac:(lia)) as (F1 & F2 & _). rewrite (N9 (iterations (history_of s0) + j)%nat) by lia.
    apply (image_unique _ _ _ _ G1 F1). rewrite G3.
    - rewrite P3 by exact Hj. reflexivity.
    - rewrite P3 by exact Hj. destruct F1 as [[F1 _ _] _]. rewrite F1 in F2. exact F2.
  Qed.

  (** ** In a run *)
  Lemma warm_events R save t0 s0 : forall k i s e, after_batches R s0 i s -> In e (fst (warmup_loop W save t0 R i k s)) ->
    exists m, (i <= m < i + k)%nat /\ after_batches R s0 m (ev_state e) /\ s_t (ev_state e) <> t0.
  Proof.
    induction k as [|k IH]; intros i s e Ha H; cbn [warmup_loop] in H; [destruct H|]. apply in_tbind in H as [H|(s1 & H1 & H)].
    - apply checkpoint_in in H as [-> H]. exists i. split; [lia|]. split; [exact Ha|exact H].
    - apply checkpoint_ok in H1. subst s1. apply in_tbind in H as [[]|(s1 & H1 & H)]. cbn [lift snd] in H1.
      destruct (IH (S i) s1 e) as (m & Hm & Q); [eapply ab_batch; eauto|exact H|]. exists m. split; [lia|exact Q].
  Qed.
  Lemma warm_done R save t0 s0 : forall k i s s', after_batches R s0 i s -> snd (warmup_loop W save t0 R i k s) = Ok s' -> after_batches R s0 (i + k) s'.
  Proof.
    induction k as [|k IH]; intros i s s' Ha H; cbn [warmup_loop] in H; [injection H as <-; now rewrite Nat.add_0_r|].
    apply tbind_some in H as (s1 & H1 & H). apply checkpoint_ok in H1. subst s1. apply tbind_some in H as (s1 & H1 & H). cbn [lift snd] in H1.
    rewrite <- plus_n_Sm. apply (IH (S i) s1 s'); [eapply ab_batch; eauto|exact H].
  Qed.

  Definition grown (p q : past T (list C)) : Prop := exists cs : list (current T C), q = fold_left (fun p c => update p (items c)) cs p.
  Lemma grown_refl p : grown p p. Proof. now exists []. Qed.
  Lemma grown_trans p q r : grown p q -> grown q r -> grown p r.
  Proof. intros [a ->] [b ->]. exists (a ++ b). now rewrite fold_left_app. Qed.
  Lemma grown_fields p q : grown p q -> (exists l, h_beta q = h_beta p ++ l) /\ (exists l, h_iter q = h_iter p ++ l) /\ (exists l, h_calls q = h_calls p ++ l) /\
    (exists l, h_u q = h_u p ++ l) /\ (exists l, h_x q = h_x p ++ l) /\ (exists l, h_logdetj q = h_logdetj p ++ l) /\ (exists l, h_logl q = h_logl p ++ l) /\
    (exists l, h_logp q = h_logp p ++ l) /\ (exists l, h_blobs q = h_blobs p ++ l).
  Proof.
    intros [cs ->]. revert p. induction cs as [|c cs IH]; intros p; cbn [fold_left].
    - repeat split; exists []; now rewrite app_nil_r.
    - destruct (IH (update p (items c))) as ([l1 ->] & [l2 ->] & [l3 ->] & [l4 ->] & [l5 ->] & [l6 ->] & [l7 ->] & [l8 ->] & [l9 ->]). rewrite update_items.
      cbn [h_beta h_iter h_calls h_u h_x h_logdetj h_logl h_logp h_blobs]. repeat split; eexists; rewrite <- app_assoc; reflexivity.
  Qed.
  Lemma grown_stored p q : grown p q -> length (h_x p) = iterations p -> length (h_logdetj p) = iterations p -> length (h_logl p) = iterations p ->
    length (h_logp p) = iterations p -> length (h_blobs p) = iterations p -> forall t, (t < iterations p)%nat -> stored q t = stored p t.
  Proof.
    intros H E1 E2 E3 E4 E5 t Ht. apply grown_fields in H as (_ & _ & _ & [l4 H4] & [l5 H5] & [l6 H6] & [l7 H7] & [l8 H8] & [l9 H9]).
    unfold stored. rewrite H4, H5, H6, H7, H8, H9. unfold iterations in *. rewrite !app_nth1 by lia. reflexivity.
  Qed.
  Lemma iteration_grown fuel R s s' : iteration W fuel R s = Ok s' -> grown (history_of s) (history_of s').
  Proof.
    intros H. apply iteration_facts in H as (s1 & s2 & s3 & s4 & c4 & E1 & E2 & E3 & E4 & Ec & ->).
    apply reweight_facts in E1 as (c & beta & logz & ess & w0 & neff & w1 & idx & w2 & lf & u & x & ldj & logl & logp & b & c1 & _ & _ & _ & _ & _ & _ & _ & _ & _ & _ & _ & _ & ->).
    apply train_facts in E2 as (c2 & now & fl & un & ug & tg & _ & _ & _ & ->).
    apply resample_facts in E3 as (c3 & w3 & idx3 & u3 & x3 & ldj3 & logl3 & logp3 & b3 & _ & _ & _ & _ & _ & _ & _ & _ & _ & ->).
    apply mutate_facts in E4 as (c5 & b5 & ks & res & c' & _ & _ & _ & _ & _ & _ & ->). exists [c4]. reflexivity.
  Qed.
  Lemma loop_grown fuel bfuel save t0 R : forall s s', snd (smc_loop W fuel bfuel save t0 R s) = Ok s' -> grown (history_of s) (history_of s').
  Proof.
    induction fuel as [|fuel IH]; intros s s'; cbn [smc_loop]; (destruct (not_termination s) as [[|]|]; [|intros E; injection E as <-; apply grown_refl|discriminate]); [discriminate|].
    intros H. apply tbind_some in H as (s1 & H1 & H). apply checkpoint_ok in H1. subst s1. apply tbind_some in H as (s1 & H1 & H). cbn [lift snd] in H1.
    eapply grown_trans; [exact (iteration_grown _ _ _ _ H1)|exact (IH _ _ H)].
  Qed.
  (** the warm-up, from the start, of a run that ends *)
  Lemma run_batches a R s evs s' : run W a R s = (evs, Ok s') -> s_warmup s = true -> exists s0 w, draw_prior W R (set_targets (ra_n_total a) (ra_n_evidence a) s) = Ok s0 /\
    after_batches R s0 (n_batches (s_cfg s)) w /\ grown (history_of w) (history_of s').
  Proof.
    intros H Hw. assert (Q : snd (run W a R s) = Ok s') by now rewrite H. clear H evs. unfold run, run_from in Q.
    apply tbind_some in Q as (s0 & Q0 & Q). cbn [lift snd] in Q0. pose proof (draw_frame W R _ _ Q0) as [F1 F2].
    apply tbind_some in Q as (s1 & Q1 & Q). unfold warmup in Q1. rewrite F2 in Q1. cbn [set_targets s_warmup] in Q1. rewrite Hw in Q1. destruct (Nat.eqb _ _); [discriminate|].
    apply tbind_some in Q1 as (w & Q1 & Q2). cbn [snd] in Q2. injection Q2 as <-. exists s0, w. split; [exact Q0|].
    split; [rewrite F1 in Q1; exact (warm_done R _ _ s0 _ 0%nat s0 w (ab_start R s0) Q1)|].
    apply tbind_some in Q as (s2 & Q2 & Q). apply loop_grown in Q2. eapply grown_trans; [exact Q2|].
    apply tbind_some in Q as (s3 & Q3 & Q). cbn [lift snd] in Q3. apply evidence_facts in Q3 as (n & logz & err & calls & evals & hb & _ & -> & _).
    destruct (ra_save_every a); cbn [snd] in Q; injection Q as <-; apply grown_refl.
  Qed.
  Lemma loop_events fuel bfuel save t0 R : forall s e, s_warmup s = false -> In e (fst (smc_loop W fuel bfuel save t0 R s)) -> s_warmup (ev_state e) = false.
  Proof.
    induction fuel as [|fuel IH]; intros s e Hw; cbn [smc_loop]; (destruct (not_termination s) as [[|]|]; [|easy|easy]); [easy|].
    intros H. apply in_tbind in H as [H|(s1 & H1 & H)]; [apply checkpoint_in in H as [-> _]; exact Hw|]. apply checkpoint_ok in H1. subst s1.
    apply in_tbind in H as [[]|(s1 & H1 & H)]. cbn [lift snd] in H1. apply (IH s1 e); [|exact H]. apply iteration_count in H1 as (_ & -> & _). exact Hw.
  Qed.
  (** a checkpoint of a run, written during warm-up *)
  Lemma run_warm_event a R s evs r e : run W a R s = (evs, r) -> In e evs -> s_warmup (ev_state e) = true -> exists s0 k,
    s_warmup s = true /\ draw_prior W R (set_targets (ra_n_total a) (ra_n_evidence a) s) = Ok s0 /\ after_batches R s0 k (ev_state e) /\
    (1 <= k < n_batches (s_cfg s))%nat /\ recorded_once (ev_state e).
  Proof.
    intros H He Hw. assert (He' : In e (fst (run W a R s))) by (rewrite H; exact He). clear H He. unfold run, run_from in He'.
    apply in_tbind in He' as [[]|(s0 & H0 & He)]. cbn [lift snd] in H0. pose proof (draw_frame W R _ _ H0) as [F1 F2]. cbn [set_targets s_cfg s_warmup] in F1, F2.
    assert (Et : s_t s0 = s_t s) by (apply draw_facts in H0 as [[N ->]|[_ (ps & sc & _ & _ & ->)]]; reflexivity).
    apply in_tbind in He as [He|(s1 & H1 & He)].
    - unfold warmup in He. destruct (s_warmup s0) eqn:Ew; [|destruct He]. destruct (Nat.eqb _ _); [destruct He|]. apply in_tbind in He as [He|(s1 & _ & [])].
      apply (warm_events R _ _ s0 _ 0%nat s0 e (ab_start R s0)) in He as (k & Hk & Ha & Hne). exists s0, k. split; [congruence|]. split; [exact H0|]. split; [exact Ha|].
      rewrite F1 in Hk. destruct Ha as [|i s1 s2 Ha Hb]; [now elim Hne|]. split; [lia|]. intros key Hkey.
      apply warmup_facts in Hb as (ps & x0 & u0 & xi & ldj0 & logp0 & logl0 & b0 & x & u & ldj & logp & logl & b & c & _ & _ & _ & _ & _ & _ & _ & _ & ->).
      unfold history_of. cbn [s_particles particles_update p_past]. now apply update_recorded.
    - exfalso. assert (W1 : s_warmup s1 = false).
      { unfold warmup in H1. destruct (s_warmup s0) eqn:Ew; [|injection H1 as <-; exact Ew]. destruct (Nat.eqb _ _); [discriminate|].
        apply tbind_some in H1 as (s2 & _ & H1). injection H1 as <-. reflexivity. }
      apply in_tbind in He as [He|(s2 & H2 & He)]; [apply loop_events in He; [congruence|exact W1]|].
      assert (W2 : s_warmup s2 = false).
      { clear -H2 W1. revert s1 H2 W1. induction (ra_fuel a) as [|fuel IH]; intros s1; cbn [smc_loop]; (destruct (not_termination s1) as [[|]|]; [|intros E; injection E as <-; auto|discriminate]); [discriminate|].
        intros H Hw. apply tbind_some in H as (s3 & H1 & H). apply checkpoint_ok in H1. subst s3. apply tbind_some in H as (s3 & H1 & H). cbn [lift snd] in H1.
        apply (IH s3 H). apply iteration_count in H1 as (_ & -> & _). exact Hw. }
      apply in_tbind in He as [[]|(s3 & H3 & He)]. cbn [lift snd] in H3. apply evidence_facts in H3 as (n & logz & err & calls & evals & hb & _ & -> & _).
      destruct (ra_save_every a); cbn [fst] in He; [|destruct He]. destruct He as [<-|[]]. cbn in Hw. congruence.
  Qed.

  Theorem resumed_in_warmup a R s evs r e a' R' self evs' s' : reachable s -> reachable self -> good_draws random drawn R -> good_draws random drawn R' ->
    run W a R s = (evs, r) -> In e evs -> s_warmup (ev_state e) = true -> run_resumed W a' R' (ev_state e) self = (evs', Ok s') ->
    let n := n_batches (s_cfg s) in let h := iterations (history_of s) in let n_active := c_n_active (s_cfg s) in
    exists k, (1 <= k < n)%nat /\ iterations (history_of (ev_state e)) = (h + k)%nat /\
      warmed_up s s' n_active (k + n) /\ (forall s1, r = Ok s1 -> warmed_up s s1 n_active n) /\
      (forall j, (j < k)%nat -> particles_of (history_of s') (h + k + j) n_active = particles_of (history_of s') (h + j) n_active).
  Proof.
    intros Hs Hself HR HR' Hrun He Hw Hres n h n_active. destruct (run_warm_event a R s evs r e Hrun He Hw) as (s0 & k & W0 & H0 & Ha & Hk & Hrec).
    set (se := ev_state e) in *. assert (Q0 : reachable s0) by (eapply rc_prior; [apply rc_targets; exact Hs|exact HR|exact H0]).
    assert (FR : s_cfg s0 = s_cfg s /\ s_warmup s0 = s_warmup s /\ s_t s0 = s_t s /\ s_calls s0 = s_calls s /\ history_of s0 = history_of s /\ s_prior_samples s0 <> None).
    { clear -H0. apply draw_facts in H0 as [[N ->]|[_ (ps & sc & _ & _ & ->)]]; repeat split; auto. discriminate. }
    destruct FR as (F1 & F2 & F3 & F4 & F5 & F6). destruct (s_prior_samples s0) as [ps0|] eqn:Ep; [clear F6|now elim F6].
    pose proof (batches_facts R s0 ps0 Q0 HR ltac:(congruence) Ep k se Ha ltac:(rewrite F1; lia)) as BM.
    assert (G : forall q (w : sampler T C P), grown (history_of w) (history_of q) -> forall ks, h_beta (history_of w) = h_beta (history_of s) ++ repeat (nofZ 0) ks ->
       h_iter (history_of w) = h_iter (history_of s) ++ map (fun j => s_t s + Z.of_nat j)%Z (seq 0 ks) ->
       h_calls (history_of w) = h_calls (history_of s) ++ map (fun j => s_calls s + Z.of_nat (j + 1) * Z.of_nat n_active)%Z (seq 0 ks) -> warmed_up s q n_active ks).
    { clear. intros q w Hg ks E1 E2 E3. apply grown_fields in Hg as ([l1 G1] & [l2 G2] & [l3 G3] & _).
      constructor; [exists l1|exists l2|exists l3]; rewrite ?G1, ?G2, ?G3, ?E1, ?E2, ?E3, <- app_assoc; reflexivity. }
    (* the resumed run *)
    rewrite resumed_run in Hres by exact Hrec. assert (Qe : reachable (load se self)) by (apply rc_load; [exact (bm_reachable _ _ _ _ BM)|exact Hself]).
    destruct (run_batches a' R' (load se self) evs' s' Hres Hw) as (e0 & w & D0 & Aw & Gw).
    assert (E0 : e0 = set_targets (ra_n_total a') (ra_n_evidence a') (load se self)).
    { destruct (bm_prior _ _ _ _ BM) as (ps & P1 & _). apply draw_facts in D0 as [[_ D0]|[N _]]; [exact D0|]. exfalso. clear -N P1. unfold set_targets, load, with_pool in N. cbn [s_prior_samples] in N. congruence. }
    assert (Re0 : reachable e0) by (rewrite E0; apply rc_targets; exact Qe).
    assert (Pe0 : s_prior_samples e0 = s_prior_samples se) by (rewrite E0; reflexivity).
    destruct (bm_prior _ _ _ _ BM) as (ps & P1 & P2 & _).
    assert (Ce0 : s_cfg e0 = s_cfg s) by (rewrite E0; rewrite <- F1; exact (bm_cfg _ _ _ _ BM)).
    replace (s_cfg (load se self)) with (s_cfg s) in Aw by (rewrite <- F1; symmetry; exact (bm_cfg _ _ _ _ BM)). fold n in Aw.
    pose proof (batches_facts R' e0 ps Re0 HR' ltac:(rewrite E0; exact Hw) ltac:(congruence) n w Aw ltac:(rewrite Ce0; fold n; lia)) as BW.
    assert (He0 : history_of e0 = history_of se) by (rewrite E0; reflexivity).
    exists k. split; [exact Hk|]. pose proof (bm_iterations _ _ _ _ BM) as It. rewrite F5 in It. fold h in It. split; [exact It|]. split.
    { apply (G s' w Gw).
      - destruct (bm_numbers _ _ _ _ BW) as (b & -> & ->). rewrite He0. destruct (bm_numbers _ _ _ _ BM) as (b & -> & ->). rewrite F5, <- app_assoc. f_equal. symmetry. apply repeat_app.
      - rewrite (bm_iter _ _ _ _ BW), He0, (bm_iter _ _ _ _ BM), F5, F3, <- app_assoc. f_equal. rewrite seq_app, map_app. f_equal.
        replace (s_t e0) with (s_t s + Z.of_nat k)%Z by (rewrite E0, <- F3; symmetry; exact (bm_t _ _ _ _ BM)). cbn [Nat.add]. clear. generalize n as m. intros m.
        assert (X : forall a, map (fun j => (s_t s + Z.of_nat k + Z.of_nat j)%Z) (seq a m) = map (fun j => (s_t s + Z.of_nat j)%Z) (seq (k + a) m)).
        { induction m as [|m IH]; intros b; [reflexivity|]. cbn [seq map]. f_equal; [lia|]. rewrite IH. now rewrite <- plus_n_Sm. }
        rewrite X. now rewrite Nat.add_0_r.
      - rewrite (bm_ncalls _ _ _ _ BW), He0, (bm_ncalls _ _ _ _ BM), F5, F4, F1, Ce0, <- app_assoc. fold n_active. f_equal. rewrite seq_app, map_app. f_equal.
        replace (s_calls e0) with (s_calls s + Z.of_nat k * Z.of_nat n_active)%Z by (rewrite E0, <- F4; unfold n_active; rewrite <- F1; symmetry; exact (bm_calls _ _ _ _ BM)). cbn [Nat.add].
        clear. generalize n as m. generalize n_active as na. intros na m.
        assert (X : forall a, map (fun j => (s_calls s + Z.of_nat k * Z.of_nat na + Z.of_nat (j + 1) * Z.of_nat na)%Z) (seq a m) = map (fun j => (s_calls s + Z.of_nat (j + 1) * Z.of_nat na)%Z) (seq (k + a) m)).
        { induction m as [|m IH]; intros b; [reflexivity|]. cbn [seq map]. f_equal; [lia|]. rewrite IH. now rewrite <- plus_n_Sm. }
        rewrite X. now rewrite Nat.add_0_r. }
    split.
    { intros s1 ->. destruct (run_batches a R s evs s1 Hrun W0) as (s0' & w1 & D1 & Aw1 & Gw1). rewrite H0 in D1. injection D1 as <-. fold n in Aw1.
      pose proof (batches_facts R s0 ps0 Q0 HR ltac:(congruence) Ep n w1 Aw1 ltac:(rewrite F1; fold n; lia)) as BN. apply (G s1 w1 Gw1).
      - destruct (bm_numbers _ _ _ _ BN) as (b & -> & ->). now rewrite F5.
      - now rewrite (bm_iter _ _ _ _ BN), F5, F3.
      - rewrite (bm_ncalls _ _ _ _ BN), F5, F4, F1. reflexivity. }
    intros j Hj. assert (Iw : iterations (history_of w) = (h + k + n)%nat).
    { rewrite (bm_iterations _ _ _ _ BW), He0. fold se in It. rewrite It. reflexivity. }
    pose proof (reachable_pinv W undefined random L good U lp ll bl RG drawn interrupts w (bm_reachable _ _ _ _ BW)) as [_ _ [[A1 A2 A3 A4 A5 _] _] _ _].
    pose proof (grown_stored _ _ Gw A1 A2 A3 A4 A5) as GS.
    pose proof (batches_again R R' s0 ps0 k se e0 n w Q0 HR HR' ltac:(congruence) Ep Ha ltac:(rewrite F1; lia) Re0 ltac:(rewrite E0; reflexivity) ltac:(rewrite E0; reflexivity)
      ltac:(rewrite E0; reflexivity) Pe0 He0 Aw ltac:(rewrite F1; fold n; lia) j Hj ltac:(lia)) as BA.
    rewrite F1, F5 in BA. fold n_active h in BA. rewrite It in BA. unfold particles_of in *. rewrite !GS by lia. exact BA.
  Qed.
End Warm.

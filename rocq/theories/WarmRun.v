(** * The warm-up of a run: proofs for C93 *)
From Coq Require Import ZArith List Bool Lia PeanoNat.
From Verif Require Import Num PyBase PyBaseFacts Scaler Particles ParticlesFacts Mcmc SpecMcmc Sampler
  ConfigFacts SpecReach SamplerFacts Reach SpecRun RowFacts ParticleInv LoopFacts McmcFacts WarmFacts SpecWarmup.
Import ListNotations.
Set Bullet Behavior "Strict Subproofs".

(** ** Which rows are replaced, and by which *)
Lemma filter_map_S (f : nat -> bool) l : filter f (map S l) = map S (filter (fun j => f (S j)) l).
Proof. induction l as [|a l IH]; [reflexivity|]. cbn [map filter]. destruct (f (S a)); cbn [map]; now rewrite IH. Qed.
Lemma filter_seq_S (f : nat -> bool) n : filter f (seq 0 (S n)) = (if f 0%nat then [0%nat] else []) ++ map S (filter (fun j => f (S j)) (seq 0 n)).
Proof. cbn [seq filter]. rewrite <- seq_shift, filter_map_S. now destruct (f 0%nat). Qed.
Lemma filter_same {A} (f g : A -> bool) l : (forall a, In a l -> f a = g a) -> filter f l = filter g l.
Proof.
  induction l as [|a l IH]; intros H; [reflexivity|]. cbn [filter]. rewrite (H a) by now left. rewrite IH; [reflexivity|]. intros b Hb. apply H. now right.
Qed.
Lemma true_positions_filter m i : true_positions i m = map (Nat.add i) (filter (fun j => nth j m false) (seq 0 (length m))).
Proof.
  revert i. induction m as [|b m IH]; intros i; [reflexivity|]. cbn [length]. rewrite filter_seq_S, map_app, map_map. cbn [nth true_positions].
  rewrite IH. assert (E : map (Nat.add (S i)) (filter (fun j => nth j m false) (seq 0 (length m))) = map (fun x => (i + S x)%nat) (filter (fun j => nth j m false) (seq 0 (length m)))).
  { apply map_ext. intros a. lia. }
  destruct b; cbn [map app]; [|exact E]. f_equal; [lia|exact E].
Qed.
Lemma put_true {A} (d : A) m : forall i vals a k, length vals = length (true_positions i m) -> nth k m false = true -> (i + length m <= length a)%nat ->
  nth (i + k) (put (true_positions i m) vals a) d = nth (length (filter (fun j => nth j m false) (seq 0 k))) vals d.
Proof.
  induction m as [|b m IH]; intros i vals a k Hl Hk Ha; [destruct k; discriminate|]. cbn [length] in Ha.
  destruct k as [|k]; cbn [nth] in Hk.
  - subst b. cbn [true_positions] in *. destruct vals as [|v vals]; [discriminate|]. cbn [put seq filter length nth]. rewrite Nat.add_0_r.
    rewrite put_other; [apply nth_set_nth_eq; lia|]. intros H. apply in_true_positions in H. lia.
  - rewrite filter_seq_S, app_length, map_length. cbn [nth]. replace (i + S k)%nat with (S i + k)%nat by lia.
    destruct b; cbn [true_positions] in *.
    + destruct vals as [|v vals]; [discriminate|]. cbn [put length Nat.add nth]. cbn [length] in Hl. apply (IH (S i) vals (set_nth i v a) k); [lia|exact Hk|]. rewrite set_nth_length. lia.
    + cbn [length Nat.add]. apply (IH (S i) vals a k); [exact Hl|exact Hk|lia].
Qed.

Section Batch.
  Context {T : Type} {NT : NumT T}.
  Lemma replaced_rows (ll : vec T -> T) pick (x0 x : mat T) :
    (if existsb (fun b => b) (map nisinf (map ll x0)) then
       exists idx, let inf := true_positions 0 (map nisinf (map ll x0)) in
         choose_finite pick (true_positions 0 (map negb (map nisinf (map ll x0)))) (length inf) = Ok idx /\ replace_rows inf idx x0 = Ok x
     else x = x0) ->
    forall k, (k < length x0)%nat -> nth k x [] = nth (replacement ll pick x0 k) x0 [] /\ (replacement ll pick x0 k < length x0)%nat.
  Proof.
    set (m := map nisinf (map ll x0)). assert (Lm : length m = length x0) by (unfold m; now rewrite !map_length).
    assert (Hm : forall j, (j < length x0)%nat -> nth j m false = nisinf (ll (nth j x0 []))).
    { intros j Hj. unfold m. rewrite map_map. apply (nth_map_f (fun v => nisinf (ll v)) x0 j []). exact Hj. }
    intros H k Hk. unfold replacement. cbv zeta. rewrite <- Hm by exact Hk. destruct (existsb (fun b => b) m) eqn:Ex.
    - destruct H as (idx & H). cbv zeta in H. destruct H as (Hc & Hr). set (inf := true_positions 0 m) in *.
      assert (Ef : true_positions 0 (map negb m) = filter (fun j => negb (nisinf (ll (nth j x0 [])))) (seq 0 (length x0))).
      { rewrite true_positions_filter. rewrite (map_ext _ (fun j => j)) by reflexivity. rewrite map_id, map_length, Lm. apply filter_same.
        intros j Hj. apply in_seq in Hj. rewrite (nth_map_f negb m j false) by lia. now rewrite Hm by lia. }
      rewrite Ef in Hc. set (fine := filter (fun j => negb (nisinf (ll (nth j x0 [])))) (seq 0 (length x0))) in *.
      assert (Ff : forall j, In j fine -> (j < length x0)%nat) by (intros j Hj; apply filter_In in Hj as [Hj _]; apply in_seq in Hj; lia).
      destruct (choose_in _ _ _ _ Hc) as [Li Hi]. unfold choose_finite in Hc. destruct fine as [|f0 fine'] eqn:Fe; [discriminate|]. rewrite <- Fe in *.
      apply Ok_inj in Hc. unfold replace_rows in Hr. apply bind_ok in Hr as [v [Hv Hr]]. apply Ok_inj in Hr. subst x.
      rewrite (gather_all x0 idx []) in Hv by (intros j Hj; apply Ff, Hi, Hj). apply Ok_inj in Hv. subst v.
      destruct (nth k m false) eqn:Ek.
      + rewrite (filter_same (fun j => nisinf (ll (nth j x0 []))) (fun j => nth j m false) (seq 0 k)) by (intros j Hj; apply in_seq in Hj; now rewrite Hm by lia).
        set (c := length (filter (fun j => nth j m false) (seq 0 k))).
        assert (Hcl : (c < length inf)%nat).
        { unfold c, inf. rewrite true_positions_filter, map_length, Lm.
          assert (E : seq 0 (length x0) = seq 0 k ++ k :: seq (S k) (length x0 - S k)).
          { replace (length x0) with (k + S (length x0 - S k))%nat at 1 by lia. rewrite seq_app. reflexivity. }
          rewrite E, filter_app, app_length. cbn [filter]. rewrite Ek. cbn [length]. lia. }
        assert (E : nth c idx 0%nat = nth (pick c mod length fine) fine 0%nat).
        { rewrite <- Hc. rewrite (nth_map_f (fun j => nth (pick j mod length fine) fine 0%nat) (seq 0 (length inf)) c 0%nat) by now rewrite seq_length.
          now rewrite seq_nth by exact Hcl. }
        rewrite <- E. split.
        * pose proof (put_true ([] : vec T) m 0 (map (fun i => nth i x0 []) idx) x0 k) as Q. cbn [Nat.add] in Q. fold inf c in Q. rewrite Q; [|rewrite map_length; exact Li|exact Ek|lia].
          apply (nth_map_f (fun i => nth i x0 []) idx c 0%nat). lia.
        * apply Ff, Hi. apply nth_In. lia.
      + split; [|exact Hk]. apply put_other. intros Hin. apply in_true_positions in Hin as [_ Hin]. rewrite Nat.sub_0_r in Hin. congruence.
    - subst x. destruct (nth k m false) eqn:Ek; [|auto]. exfalso. assert (Q : existsb (fun b => b) m = true).
      { apply existsb_exists. exists true. split; [|reflexivity]. rewrite <- Ek. apply nth_In. lia. }
      congruence.
  Qed.
End Batch.

(** ** The history only grows *)
Section Grow.
  Context {T C P Opt : Type} {NT : NumT T}.
  Notation B := (list C).
  Definition counts (h : past T B) : list nat :=
    [length (h_u h); length (h_x h); length (h_logdetj h); length (h_logl h); length (h_logp h); length (h_logw h); length (h_blobs h);
     length (h_iter h); length (h_logz h); length (h_calls h); length (h_steps h); length (h_efficiency h); length (h_ess h);
     length (h_accept h); length (h_beta h)].
  Lemma counts_update (h : past T B) (c : current T C) k : counts h = repeat k 15 -> counts (update h (items c)) = repeat (S k) 15.
  Proof.
    intros H. rewrite update_items. unfold counts in *. cbn [h_u h_x h_logdetj h_logl h_logp h_logw h_blobs h_iter h_logz h_calls h_steps h_efficiency h_ess h_accept h_beta].
    rewrite !app_length. cbn [length]. cbn [repeat] in H |- *. injection H as -> -> -> -> -> -> -> -> -> -> -> -> -> -> ->. rewrite Nat.add_1_r. reflexivity.
  Qed.
  Lemma stored_grow (h : past T B) (c : current T C) k t : counts h = repeat k 15 ->
    ((t < k)%nat -> stored (update h (items c)) t = stored h t) /\ stored (update h (items c)) k = current_arrays c.
  Proof.
    intros H. unfold counts in H. cbn [repeat] in H. injection H as Hu Hx Hd Hl Hp _ Hb _ _ _ _ _ _ _ _.
    split; [intros Ht|]; rewrite stored_update by (unfold iterations; lia); unfold iterations; rewrite Hu.
    - apply Nat.ltb_lt in Ht. now rewrite Ht.
    - rewrite Nat.ltb_irrefl, Nat.eqb_refl. reflexivity.
  Qed.
  Lemma nth_error_grow {A} (l : list A) a t v : nth_error l t = Some v -> nth_error (l ++ [a]) t = Some v.
  Proof. intros H. rewrite nth_error_app1; [exact H|]. apply nth_error_Some. congruence. Qed.
  Lemma nth_error_new {A} (l : list A) a k : length l = k -> nth_error (l ++ [a]) k = Some a.
  Proof. intros <-. rewrite nth_error_app2, Nat.sub_diag by lia. reflexivity. Qed.

  Variable W : world T C P Opt.
  Lemma entry_grow lp ll bl sc n ne pick xs (h : past T B) (c : current T C) k t : counts h = repeat k 15 -> (t < k)%nat ->
    warm_up_entry W lp ll bl sc n ne pick xs h t -> warm_up_entry W lp ll bl sc n ne pick xs (update h (items c)) t.
  Proof.
    intros Hc Ht [E1 E2 E3 E4 E5 E6 E7 E8 E9 E10 E11]. destruct (stored_grow h c k t Hc) as [S1 _]. specialize (S1 Ht).
    constructor; try (rewrite update_items; cbn [h_beta h_logz h_steps h_accept h_efficiency h_ess h_logw h_iter h_calls]; apply nth_error_grow; assumption).
    - rewrite S1. exact E10.
    - rewrite S1. exact E11.
  Qed.
  Lemma iteration_grows fuel R s s' : iteration W fuel R s = Ok s' -> exists c, history_of s' = update (history_of s) (items c).
  Proof.
    intros H. apply iteration_facts in H as (s1 & s2 & s3 & s4 & c4 & H1 & H2 & H3 & H4 & _ & ->). exists c4.
    apply reweight_facts in H1 as (c & beta & logz & ess & w0 & neff & w1 & idx & w2 & lf & u & x & ldj & logl & logp & b & c1 & _ & _ & _ & _ & _ & _ & _ & _ & _ & _ & _ & _ & ->).
    apply train_facts in H2 as (c2 & now & fl & un & ug & tg & _ & _ & _ & ->).
    apply resample_facts in H3 as (c3 & w3 & idx3 & u3 & x3 & ldj3 & logl3 & logp3 & b3 & _ & _ & _ & _ & _ & _ & _ & _ & _ & ->).
    apply mutate_facts in H4 as (c5 & b5 & ks & res & c' & _ & _ & _ & _ & _ & _ & ->). reflexivity.
  Qed.
End Grow.

(** ** The batches of a run *)
Section Run.
  Context {T C P Opt : Type} {NT : NumT T}.
  Notation B := (list C).
  Variable W : world T C P Opt.
  Variable lp ll : vec T -> T.
  Variable bl : option (vec T -> list C).
  Hypothesis RG : regular W lp ll bl.
  Implicit Types s : sampler T C P.
  Implicit Types R : rand T C P.

  Notation entry cfg sc ne R draws := (fun h t => warm_up_entry W lp ll (blobs_of cfg bl) sc (c_n_active cfg) ne (rn_pick R (Z.of_nat t))
      (firstn (c_n_active cfg) (skipn (t * c_n_active cfg) draws)) h t).

  Record warmed (cfg : config T) (sc : reparam T) (ne : Z) (R : rand T C P) (draws : mat T) (i : nat) s : Prop := {
    wm_cfg : s_cfg s = cfg; wm_scaler : s_scaler s = sc; wm_pool : maps (s_pool s); wm_ne : s_n_effective s = ne;
    wm_t : s_t s = Z.of_nat i; wm_calls : s_calls s = Z.of_nat (i * c_n_active cfg);
    wm_prior : exists ps, s_prior_samples s = Some ps /\ length ps = c_n_prior cfg /\ skipn (i * c_n_active cfg) ps = skipn (i * c_n_active cfg) draws;
    wm_counts : counts (history_of s) = repeat i 15;
    wm_entries : forall t, (t < i)%nat -> entry cfg sc ne R draws (history_of s) t }.

  Lemma batch_warmed cfg sc ne R draws i s s' : warmed cfg sc ne R draws i s -> (i < n_batches cfg)%nat -> warmup_batch W R i s = Ok s' ->
    warmed cfg sc ne R draws (S i) s'.
  Proof.
    intros [M1 M2 M3 M4 M5 M6 (ps & P1 & P2 & P3) M8 M9] Hi H. set (n := c_n_active cfg) in *.
    assert (Np : (n <> 0)%nat). { unfold n_batches in Hi. fold n in Hi. destruct n; [cbn in Hi; lia|lia]. }
    assert (Bd : (i * n + n <= c_n_prior cfg)%nat). { unfold n_batches in Hi. fold n in Hi. pose proof (Nat.mul_div_le (c_n_prior cfg) n Np). nia. }
    destruct (batch_rows W lp ll bl RG R i s s' ps H M3 P1) as (w0 & source & c & X1 & X2 & X3 & X4 & X5 & X6 & X7 & X8 & X9 & X10 & X11 & X12 & X13 & X14 & X15).
    { now rewrite M1. }
    { rewrite M1. exact Hi. }
    rewrite M1 in X1, X2, X3, X4, X5, X6, X10. fold n in X1, X2, X3, X4, X5, X6, X10.
    destruct (gathered_rows w0 _ source (current_arrays c) X2 X7) as (Y1 & _ & Y3). rewrite X5 in Y1, Y3.
    assert (F : s_t s' = (s_t s + 1)%Z /\ s_calls s' = (s_calls s + Z.of_nat n)%Z /\ s_n_effective s' = ne /\
       cu_beta c = nofZ 0 /\ cu_logz c = nofZ 0 /\ cu_steps c = 1%Z /\ cu_accept c = nofZ 1 /\ cu_efficiency c = nofZ 1 /\ cu_ess c = nofZ ne /\
       cu_logw c = repeat (nopp (nofZ (10 ^ 300))) n /\ cu_iter c = s_t s /\ cu_calls c = (s_calls s + Z.of_nat n)%Z /\
       forall k, (k < n)%nat -> nth k (cu_x c) [] = nth (replacement ll (rn_pick R (s_t s)) (slice i n ps) k) (slice i n ps) [] /\
         (replacement ll (rn_pick R (s_t s)) (slice i n ps) k < n)%nat).
    { clear X1 X4 X6 X7 X9 X10 X12 X13 X14 X15 Y1 Y3.
      apply warmup_facts in H as (ps' & x0 & u0 & xi & ldj0 & logp0 & logl0 & b0 & x & u & ldj & logp & logl & b & c' & Eps & Ex0 & _ & _ & _ & Hl & Hr & -> & ->).
      rewrite P1 in Eps. injection Eps as <-. rewrite M1 in Ex0. fold n in Ex0. subst x0. cbn [s_current] in X8. injection X8 as <-.
      cbn [s_t s_calls s_n_effective cu_beta cu_logz cu_steps cu_accept cu_efficiency cu_ess cu_logw cu_iter cu_calls cu_x].
      rewrite M1, M4. fold n. repeat (split; [reflexivity|]).
      apply (like_facts W lp ll bl RG _ _ _ _ M3) in Hl as [Hl _]. subst logl0.
      assert (Lx : length (slice i n ps) = n) by (apply slice_length with (m := c_n_prior cfg); [exact P2|exact Hi]).
      intros k Hk. rewrite <- Lx in Hk |- * at 4. apply replaced_rows; [|exact Hk]. destruct (existsb _ _).
      - destruct Hr as (idx & Hr). cbv zeta in Hr. exists idx. cbv zeta. tauto.
      - tauto. }
    destruct F as (N1 & N2 & N3 & N4 & N5 & N6 & N7 & N8 & N9 & N10 & N11 & N12 & N13).
    assert (EH : history_of s' = update (history_of s) (items c)) by (unfold history_of; rewrite X9; reflexivity).
    assert (Es : slice i n ps = firstn n (skipn (i * n) draws)) by (unfold slice; now rewrite P3).
    constructor.
    - congruence.
    - congruence.
    - now rewrite X14.
    - exact N3.
    - rewrite N1, M5. lia.
    - rewrite N2, M6. fold n. lia.
    - exists (set_slice i n (cu_x c) ps). split; [exact X10|].
      assert (LC : length (cu_x c) = n) by exact (re_x _ _ Y1).
      split; [rewrite (set_slice_length i n _ _ (c_n_prior cfg)); auto|]. fold n.
      unfold set_slice. rewrite app_assoc, skipn_app. rewrite skipn_all2 by (rewrite app_length, firstn_length_le, LC by lia; nia).
      rewrite app_length, firstn_length_le, LC by lia. replace (S i * n - (i * n + n))%nat with 0%nat by nia. cbn [skipn app].
      replace ((i + 1) * n)%nat with (i * n + n)%nat by nia. replace (S i * n)%nat with (i * n + n)%nat by nia. now rewrite <- !skipn_twice, P3.
    - rewrite EH. apply counts_update. exact M8.
    - intros t Ht. fold n. rewrite EH. destruct (Nat.eq_dec t i) as [->|Hti].
      + destruct (stored_grow (history_of s) c i i M8) as [_ S2].
        pose proof M8 as M8'. unfold counts in M8'. cbn [repeat] in M8'. injection M8' as C1 C2 C3 C4 C5 C6 C7 C8 C9 C10 C11 C12 C13 C14 C15.
        constructor; try (rewrite update_items; cbn [h_beta h_logz h_steps h_accept h_efficiency h_ess h_logw h_iter h_calls]; rewrite nth_error_new by assumption).
        * now rewrite N4.
        * now rewrite N5.
        * now rewrite N6.
        * now rewrite N7.
        * now rewrite N8.
        * now rewrite N9.
        * now rewrite N10.
        * now rewrite N11, M5.
        * rewrite N12, M6. f_equal. fold n. lia.
        * rewrite S2. exact Y1.
        * intros k Hk. rewrite S2. cbv zeta. destruct (N13 k Hk) as [V1 V2]. rewrite M5, Es in V1, V2. split; [exact V1|]. split; [exact V2|].
          destruct (Y3 k Hk) as [_ V3]. destruct (X6 k Hk) as (V4 & V5 & _). rewrite V3. split; [exact V5|]. destruct (X4 _ V4) as (V6 & V7 & V8). rewrite M2 in V7, V8. auto.
      + apply entry_grow with (k := i); [exact M8|lia|]. apply M9. lia.
  Qed.

  Lemma loop_warmed cfg sc ne R draws save t0 k : forall i s s', warmed cfg sc ne R draws i s -> (i + k <= n_batches cfg)%nat ->
    snd (warmup_loop W save t0 R i k s) = Ok s' -> warmed cfg sc ne R draws (i + k) s'.
  Proof.
    induction k as [|k IH]; intros i s s' Hw Hi H; cbn [warmup_loop] in H.
    - cbn in H. injection H as <-. now rewrite Nat.add_0_r.
    - apply tbind_ok in H as (s1 & H1 & H). apply checkpoint_same in H1. subst s1. apply tbind_ok in H as (s2 & H2 & H). cbn [lift snd] in H2.
      replace (i + S k)%nat with (S i + k)%nat by lia. eapply IH; [|lia|exact H]. eapply batch_warmed; [exact Hw|lia|exact H2].
  Qed.

  Lemma smc_keeps cfg sc ne R draws m fuel bfuel save t0 R' : forall s s' k,
    s_scaler s = sc -> counts (history_of s) = repeat k 15 -> (m <= k)%nat -> (forall t, (t < m)%nat -> entry cfg sc ne R draws (history_of s) t) ->
    snd (smc_loop W fuel bfuel save t0 R' s) = Ok s' ->
    s_scaler s' = sc /\ exists k, counts (history_of s') = repeat k 15 /\ (m <= k)%nat /\ forall t, (t < m)%nat -> entry cfg sc ne R draws (history_of s') t.
  Proof.
    induction fuel as [|fuel IH]; intros s s' k Hs Hc Hm He H; cbn [smc_loop] in H; (destruct (not_termination s) as [[|]|]; [|cbn in H; injection H as <-; eauto|discriminate]); [discriminate|].
    apply tbind_ok in H as (s1 & H1 & H). apply checkpoint_same in H1. subst s1. apply tbind_ok in H as (s2 & H2 & H). cbn [lift snd] in H2.
    pose proof (iteration_frame W _ _ _ _ H2) as (_ & _ & F). apply iteration_grows in H2 as (c & E).
    eapply (IH s2 s' (S k)); [congruence| | | |exact H].
    - rewrite E. apply counts_update, Hc.
    - lia.
    - intros t Ht. rewrite E. apply entry_grow with (k := k); [exact Hc|lia|auto].
  Qed.

  Lemma run_warm_up o s0 a R s' : new_sampler W o = Ok s0 -> maps (s_pool s0) -> (forall n ps, rn_prior R n = Ok ps -> length ps = n) ->
    snd (run W a R s0) = Ok s' ->
    exists draws, rn_prior R (c_n_prior (s_cfg s0)) = Ok draws /\
      fit (wd_linalg W) (s_scaler s0) (wd_junk W) draws = Ok (s_scaler s') /\
      (n_batches (s_cfg s0) <= iterations (history_of s'))%nat /\
      forall t, (t < n_batches (s_cfg s0))%nat -> entry (s_cfg s0) (s_scaler s') (s_n_effective s0) R draws (history_of s') t.
  Proof.
    intros H0 HM HR H.
    assert (F0 : s_prior_samples s0 = None /\ s_t s0 = 0%Z /\ s_calls s0 = 0%Z /\ s_warmup s0 = true /\ history_of s0 = empty_past).
    { clear -H0. unfold new_sampler in H0. repeat (apply bind_ok in H0 as [? [_ H0]]). apply Ok_inj in H0. subst s0. auto. }
    destruct F0 as (F1 & F2 & F3 & F4 & F5). unfold run, run_from in H.
    apply tbind_ok in H as (s1 & H1 & H). cbn [lift snd] in H1. apply draw_facts in H1 as [[N _]|[_ (draws & sc & D1 & D2 & ->)]]; [now elim N|].
    cbn [set_targets s_cfg s_scaler] in D1, D2. exists draws. split; [exact D1|].
    apply tbind_ok in H as (s2 & H2 & H). unfold warmup in H2. cbn [s_warmup set_targets s_cfg] in H2. rewrite F4 in H2.
    destruct (Nat.eqb _ _); [discriminate|]. apply tbind_ok in H2 as (s3 & H2 & E2). cbn in E2. injection E2 as <-.
    eapply (loop_warmed (s_cfg s0) sc (s_n_effective s0) R draws) in H2; [| |cbn [Nat.add]; apply le_n].
    2:{ constructor; cbn [set_targets s_cfg s_scaler s_pool s_n_effective s_t s_calls s_prior_samples]; auto.
        - exists draws. split; [reflexivity|]. split; [exact (HR _ _ D1)|reflexivity].
        - change (counts (history_of s0) = repeat 0%nat 15). now rewrite F5.
        - lia. }
    cbn [Nat.add] in H2. destruct H2 as [M1 M2 _ _ _ _ _ M8 M9].
    apply tbind_ok in H as (s4 & H4 & H). apply tbind_ok in H as (s5 & H5 & H). cbn [lift snd] in H5.
    assert (s' = s5) by (destruct (ra_save_every a); cbn in H; congruence). subst s5.
    apply (smc_keeps (s_cfg s0) sc (s_n_effective s0) R draws (n_batches (s_cfg s0)) _ _ _ _ _ (end_warmup s3) s4 _ M2 M8 (le_n _) M9) in H4 as (Q1 & k & Q2 & Q3 & Q4).
    apply evidence_facts in H5 as (? & ? & ? & ? & ? & ? & _ & -> & _). cbn [with_evidence s_scaler]. 
    split; [rewrite Q1; exact D2|]. change (history_of (with_evidence s4 (Some x0) x1 x2 x3 x4)) with (history_of s4). rewrite Q1. split; [|exact Q4].
    unfold counts in Q2. cbn [repeat] in Q2. injection Q2 as Q2. unfold iterations. lia.
  Qed.
End Run.

From Verif Require Import FloatNum RunCase RunCaseFacts LoopCase.
Lemma warm_case : regular world64 prior64 like64 (Some blob64) /\ new_sampler world64 (options64 true) = Ok start64 /\ maps (s_pool start64) /\
  (forall n ps, rn_prior rand64 n = Ok ps -> length ps = n) /\ snd (run world64 args64 rand64 start64) = Ok final64 /\
  c_n_prior (s_cfg start64) = 8%nat /\ c_n_active (s_cfg start64) = 4%nat /\
  map (fun t => map (replacement like64 (rn_pick rand64 (Z.of_nat t)) (firstn 4 (skipn (t * 4) draws64))) (seq 0 4)) [0; 1]%nat = [[0; 1; 2; 3]; [0; 2; 2; 3]]%nat.
Proof.
  split; [exact regular64|]. split; [exact start64_ok|]. split; [exact Logic.I|]. split; [exact (gd_size _ _ _ rand64_good)|].
  split; [rewrite run64_ok; reflexivity|]. split; [reflexivity|]. split; [reflexivity|]. vm_compute. reflexivity.
Qed.

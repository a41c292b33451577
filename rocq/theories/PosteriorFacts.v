(** * What posterior() returns *)
From Coq Require Import ZArith Reals Lra Sorted.
From Coq Require Import List Bool Lia.
From Verif Require Import Num PyBase PyBaseFacts XReal Tools SpecTools TrimFacts ChoiceFacts ResampleFacts Scaler Particles SpecParticles ParticlesFacts LogLike Geometry GeometryFacts
  Mcmc SpecMcmc McmcNum McmcFacts Flow Sampler ConfigFacts SpecReach SamplerFacts SpecRun XUnit RowFacts ParticleInv HistoryFacts HistoryMain SpecTrace SpecPosterior FiniteHistory.
Import ListNotations.
Set Bullet Behavior "Strict Subproofs".

(** ** Lists *)
Lemma gather_Forall2 {A} (l : list A) idx v : gather l idx = Ok v <-> at_positions l idx v.
Proof.
  unfold gather, at_positions. revert v. induction idx as [|i idx IH]; intros v; cbn [mapM].
  - split; [intros H; apply Ok_inj in H; subst; constructor|intros H; inversion H; reflexivity].
  - destruct (nth_error l i) as [a|] eqn:E; cbn [of_option bind].
    + split.
      * intros H. apply bind_ok in H as (r & H1 & H2). apply Ok_inj in H2. subst v. constructor; [exact E|now apply IH].
      * intros H. inversion H as [|? b ? r H1 H2]; subst. apply IH in H2. rewrite H2. cbn [bind]. congruence.
    + split; [discriminate|]. intros H. inversion H; subst. congruence.
Qed.
Lemma at_positions_map {A B} (f : A -> B) l idx v : at_positions (map f l) idx v -> exists rows, at_positions l idx rows /\ v = map f rows.
Proof.
  unfold at_positions. intros H. induction H as [|i b idx v H1 H IH]; [exists []; split; [constructor|reflexivity]|].
  destruct IH as (rows & R1 & ->). rewrite nth_error_map in H1. destruct (nth_error l i) as [a|] eqn:E; [|discriminate]. injection H1 as <-.
  exists (a :: rows). split; [constructor; auto|reflexivity].
Qed.
Lemma at_positions_fun {A} (l : list A) idx v v' : at_positions l idx v -> at_positions l idx v' -> v = v'.
Proof. intros H1 H2. apply gather_Forall2 in H1, H2. congruence. Qed.
Lemma at_positions_trans {A} (l : list A) idx v idx2 v2 : at_positions l idx v -> at_positions v idx2 v2 ->
  exists idx3, at_positions l idx3 v2 /\ at_positions idx idx2 idx3.
Proof.
  intros H H2. unfold at_positions in *. induction H2 as [|i b idx2 v2 H1 H2 IH]; [exists []; split; constructor|]. destruct IH as (idx3 & A1 & A2).
  assert (Q : exists j, nth_error idx i = Some j /\ nth_error l j = Some b).
  { clear -H H1. revert i H1. induction H as [|j a idx v E H IH]; intros [|i] H1; try discriminate; cbn in H1; [injection H1 as <-; now exists j|]. exact (IH i H1). }
  destruct Q as (j & Q1 & Q2). exists (j :: idx3). split; constructor; auto.
Qed.
Lemma at_positions_all {A} (l : list A) : at_positions l (seq 0 (length l)) l.
Proof.
  assert (G : forall p q : list A, Forall2 (fun i a => nth_error (p ++ q) i = Some a) (seq (length p) (length q)) q).
  { intros p q. revert p. induction q as [|a q IH]; intros p; [constructor|]. cbn [length seq]. constructor; [now rewrite nth_error_app2, Nat.sub_diag by lia|].
    specialize (IH (p ++ [a])). rewrite <- app_assoc, app_length in IH. cbn [length app] in IH. now rewrite Nat.add_1_r in IH. }
  exact (G [] l).
Qed.
Lemma seq_product {A} (f : nat -> A) m n : map f (seq 0 (m * n)) = flat_map (fun t => map (fun k => f (t * n + k)%nat) (seq 0 n)) (seq 0 m).
Proof.
  assert (G : forall a, map f (seq (a * n) (m * n)) = flat_map (fun t => map (fun k => f (t * n + k)%nat) (seq 0 n)) (seq a m)).
  { induction m as [|m IH]; intros a; [reflexivity|]. cbn [Nat.mul seq flat_map]. rewrite seq_app, map_app. f_equal.
    - clear. assert (G : forall b, map f (seq (a * n + b) n) = map (fun k => f (a * n + k)%nat) (seq b n)); [|specialize (G 0%nat); now rewrite Nat.add_0_r in G].
      induction n as [|n' IH] at 2 4; intros b; [reflexivity|]. cbn [seq map]. f_equal. rewrite <- IH. now rewrite <- plus_n_Sm.
    - rewrite <- IH. f_equal. f_equal. lia. }
  exact (G 0%nat).
Qed.
Lemma list_of_nth {A} (l : list A) d : l = map (fun k => nth k l d) (seq 0 (length l)).
Proof.
  apply nth_ext with (d := d) (d' := d); [now rewrite map_length, seq_length|]. intros k Hk. rewrite (nth_indep (map _ _) d (nth (length l) l d)) by (rewrite map_length, seq_length; exact Hk).
  rewrite (map_nth (fun k => nth k l d)). now rewrite seq_nth.
Qed.
Lemma compress_increasing mask : forall a n, StronglySorted lt (compress mask (seq a n)) /\ Forall (fun i => (a <= i < a + n)%nat) (compress mask (seq a n)).
Proof.
  induction mask as [|b mask IH]; intros a [|n]; cbn [seq compress]; try (split; constructor).
  destruct (IH (S a) n) as [I1 I2].   assert (I3 : Forall (fun i => (a <= i < a + S n)%nat) (compress mask (seq (S a) n))) by (eapply Forall_impl; [|exact I2]; cbn; lia).
    destruct b; [|auto]. split; [constructor; [exact I1|]|constructor; [lia|exact I3]]. eapply Forall_impl; [|exact I2]. cbn. lia.
Qed.
Lemma increasing_seq n : StronglySorted lt (seq 0 n).
Proof.
  assert (G : forall a, StronglySorted lt (seq a n) /\ Forall (fun i => (a <= i)%nat) (seq a n)); [|apply G].
  induction n as [|n IH]; intros a; cbn [seq]; [split; constructor|]. destruct (IH (S a)) as [I1 I2]. split; (constructor; [|try lia]).
  - exact I1.
  - eapply Forall_impl; [|exact I2]. cbn. lia.
  - lia.
  - eapply Forall_impl; [|exact I2]. cbn. lia.
Qed.

Section Generic.
  Context {T C P Opt : Type} {NT : NumT T}.
  Variable W : world T C P Opt.
  Variable undefined random good : T -> Prop.
  Hypothesis L : ieee_like undefined random.
  Hypothesis U : unit_interval good.
  Variable lp ll : vec T -> T.
  Variable bl : option (vec T -> list C).
  Hypothesis RG : regular W lp ll bl.
  Variable drawn : vec T -> Prop.
  Variable interrupts : bool.
  Notation reachable := (reachable W (good_draws random drawn) interrupts).
  Implicit Types s : sampler T C P.

  Lemma all_flat s hb : aligned (history_of s) (c_n_active (s_cfg s)) hb ->
    concat (h_x (history_of s)) = map pt_x (all_particles s) /\ concat (h_logl (history_of s)) = map pt_logl (all_particles s) /\
    concat (h_logp (history_of s)) = map pt_logp (all_particles s) /\ (hb = true -> map Some (concat (all_blobs (history_of s))) = map pt_blob (all_particles s)) /\
    length (all_particles s) = (iterations (history_of s) * c_n_active (s_cfg s))%nat.
  Proof.
    intros A. set (n := c_n_active (s_cfg s)). set (p := history_of s) in *.
    destruct (flat_rows p n hb A) as (R & Hb & F).
    assert (E : all_particles s = map (particle_at (flat_arrays p hb)) (seq 0 (iterations p * n))).
    { rewrite seq_product. unfold all_particles, particles_of. fold p n. rewrite !flat_map_concat_map. f_equal. apply map_ext_in. intros t Ht. apply in_seq in Ht.
      apply map_ext_in. intros k Hk. apply in_seq in Hk. symmetry. apply F; lia. }
    rewrite E, !map_map, map_length, seq_length. destruct R as [_ R2 _ R4 R5 R6]. cbn [flat_arrays w_x w_logl w_logp w_blobs] in R2, R4, R5, R6.
    split; [|split; [|split; [|split; [|reflexivity]]]].
    - rewrite <- R2. exact (list_of_nth _ []).
    - rewrite <- R4. exact (list_of_nth _ (nofZ 0)).
    - rewrite <- R5. exact (list_of_nth _ (nofZ 0)).
    - intros ->. rewrite <- R6. unfold particle_at. cbn [flat_arrays w_blobs pt_blob].
      generalize (concat (all_blobs p)) as l. intros l. clear. apply nth_ext with (d := None) (d' := None); [now rewrite !map_length, seq_length|].
      intros k Hk. rewrite map_length in Hk. rewrite nth_indep with (l := map (fun x => nth_error l x) _) (d' := nth_error l 0) by (rewrite map_length, seq_length; exact Hk).
      rewrite (map_nth (fun x => nth_error l x)), seq_nth by exact Hk. cbn [Nat.add]. destruct l as [|a l]; [cbn in Hk; lia|].
      rewrite nth_indep with (d' := Some a) by (rewrite map_length; exact Hk). rewrite (map_nth Some). symmetry. now apply nth_error_nth'.
  Qed.

  (** positions kept by the trimming, and the weights then *)
  Definition selected (a : posterior_args T) s (idx : list nat) (logw w : vec T) : Prop :=
    exists logw0 z, compute_logw_and_logz (history_of s) (nofZ 1) true = Ok (logw0, z) /\
      if pa_trim a then exists left, trim_weights (seq 0 (length (all_particles s))) (map nexp logw0) (pa_ess a) (pa_bins a) = Ok (idx, w, left) /\ at_positions logw0 idx logw
      else idx = seq 0 (length (all_particles s)) /\ logw = logw0 /\ w = map nexp logw0.

  Theorem posterior_rows a us offset s o : reachable s -> posterior a us offset s = Ok o ->
    exists idx rows logw w, selected a s idx logw w /\ at_positions (all_particles s) idx rows /\ StronglySorted lt idx /\
      if pa_resample a then exists again rows', at_positions rows again rows' /\ rows_are o (pa_return_blobs a) rows' /\ po_w o = None /\
           match c_resample (s_cfg s) with
           | MULT => random_choice (map us (seq 0 (length rows))) w = Ok again
           | SYST => systematic_resample offset (length w) w = Ok again
           end
      else rows_are o (pa_return_blobs a) rows /\ po_w o = Some (if pa_return_logw a then logw else w).
  Proof.
    intros H HP. pose proof (reachable_pinv W undefined random L good U lp ll bl RG drawn interrupts s H) as [_ _ [A _] _ _].
    destruct (all_flat s _ A) as (F1 & F2 & F3 & F4 & F5). set (all := all_particles s) in *.
    unfold posterior in HP. fold (history_of s) in HP.
    apply bind_ok in HP as (tt0 & _ & HP).
    assert (NE : iterations (history_of s) <> 0%nat).
    { apply bind_ok in HP as (x0 & G & _). unfold get_flat in G. change (lookup (history_of s) Kx) with (h_x (history_of s)) in G. intros E.
      pose proof (al_x _ _ _ A) as Q. rewrite E in Q. destruct (h_x (history_of s)); [discriminate G|discriminate Q]. }
    destruct (flat_gets _ _ _ A NE) as (_ & G1 & _ & G2 & G3 & G4). rewrite G1, G2, G3 in HP. cbn [bind] in HP. rewrite F1, F2, F3 in HP.
    apply bind_ok in HP as (blobs & EB & HP).
    assert (QB : exists bs, blobs = bs /\ match bs with Some b => pa_return_blobs a = true /\ map Some b = map pt_blob all | None => pa_return_blobs a = false end).
    { exists blobs. split; [reflexivity|]. destruct (pa_return_blobs a); [|apply Ok_inj in EB; now subst blobs]. rewrite G4 in EB. destruct (with_blobs bl s); [|discriminate EB].
      cbn [bind] in EB. apply Ok_inj in EB. subst blobs. auto. }
    destruct QB as (bs & -> & QB). clear EB.
    apply bind_ok in HP as ([logw0 z] & EW & HP). apply bind_ok in HP as ([[[[[xs ls] ps] logw] w] bs'] & ES & HP).
    assert (K : exists idx rows, selected a s idx logw w /\ at_positions all idx rows /\ StronglySorted lt idx /\ xs = map pt_x rows /\ ls = map pt_logl rows /\ ps = map pt_logp rows /\
       match bs' with Some b => pa_return_blobs a = true /\ map Some b = map pt_blob rows | None => pa_return_blobs a = false end).
    { unfold selected. destruct (pa_trim a) eqn:Et.
      - apply bind_ok in ES as ([[idx w'] left] & TW & ES). rewrite map_length in TW. fold all in TW.
        apply bind_ok in ES as (x1 & S1 & ES). apply bind_ok in ES as (l1 & S2 & ES). apply bind_ok in ES as (p1 & S3 & ES). apply bind_ok in ES as (w1 & S4 & ES). apply bind_ok in ES as (b1 & S5 & ES).
        apply Ok_inj in ES. injection ES as <- <- <- <- <- <-. apply gather_Forall2 in S1, S2, S3, S4.
        apply at_positions_map in S1 as (rows & Q1 & ->). apply at_positions_map in S2 as (rows2 & Q2 & ->). apply at_positions_map in S3 as (rows3 & Q3 & ->).
        rewrite <- (at_positions_fun _ _ _ _ Q1 Q2), <- (at_positions_fun _ _ _ _ Q1 Q3).
        exists idx, rows. split; [exists logw0, z; split; [exact EW|]; exists left; auto|]. split; [exact Q1|]. split.
        { unfold trim_weights in TW. apply bind_ok in TW as ([mask wt] & _ & TW). apply Ok_inj in TW. injection TW as <- _ _. apply compress_increasing. }
        repeat (split; [reflexivity|]). destruct bs as [b|]; [|apply Ok_inj in S5; subst b1; exact QB]. apply bind_ok in S5 as (b2 & S5 & S6). apply Ok_inj in S6. subst b1.
        destruct QB as [QB1 QB2]. split; [exact QB1|]. apply gather_Forall2 in S5.
        assert (Q4 : at_positions (map Some b) idx (map Some b2)).
        { clear -S5. unfold at_positions in *. induction S5 as [|i c idx v E S5 IH]; cbn [map]; constructor; [rewrite nth_error_map, E; reflexivity|exact IH]. }
        rewrite QB2 in Q4. apply at_positions_map in Q4 as (rows4 & Q4 & E4). now rewrite <- (at_positions_fun _ _ _ _ Q1 Q4) in E4.
      - apply Ok_inj in ES. injection ES as <- <- <- <- <- <-. exists (seq 0 (length all)), all. split; [exists logw0, z; auto|]. split; [apply at_positions_all|].
        split; [apply increasing_seq|]. repeat (split; [reflexivity|]). exact QB. }
    destruct K as (idx & rows & K1 & K2 & K3 & -> & -> & -> & K4). exists idx, rows, logw, w. split; [exact K1|]. split; [exact K2|]. split; [exact K3|].
    destruct (pa_resample a).
    - apply bind_ok in HP as (again & EA & HP). apply bind_ok in HP as (x1 & S1 & HP). apply bind_ok in HP as (l1 & S2 & HP). apply bind_ok in HP as (p1 & S3 & HP). apply bind_ok in HP as (b1 & S5 & HP).
      apply Ok_inj in HP. subst o. apply gather_Forall2 in S1, S2, S3.
      apply at_positions_map in S1 as (rows1 & Q1 & ->). apply at_positions_map in S2 as (rows2 & Q2 & ->). apply at_positions_map in S3 as (rows3 & Q3 & ->).
      rewrite <- (at_positions_fun _ _ _ _ Q1 Q2), <- (at_positions_fun _ _ _ _ Q1 Q3).
      exists again, rows1. split; [exact Q1|]. split; [|split; [reflexivity|]].
      + constructor; cbn [po_x po_logl po_logp po_blobs]; try reflexivity. destruct bs' as [b|]; [|apply Ok_inj in S5; subst b1; exact K4].
        apply bind_ok in S5 as (b2 & S5 & S6). apply Ok_inj in S6. subst b1. destruct K4 as [QB1 QB2]. split; [exact QB1|]. apply gather_Forall2 in S5.
        assert (Q4 : at_positions (map Some b) again (map Some b2)).
        { clear -S5. unfold at_positions in *. induction S5 as [|i c idx v E S5 IH]; cbn [map]; constructor; [rewrite nth_error_map, E; reflexivity|exact IH]. }
        rewrite QB2 in Q4. apply at_positions_map in Q4 as (rows4 & Q4 & E4). now rewrite <- (at_positions_fun _ _ _ _ Q1 Q4) in E4.
      + rewrite map_length in EA. destruct (c_resample (s_cfg s)); exact EA.
    - apply Ok_inj in HP. subst o. split; [constructor; auto|reflexivity].
  Qed.

  Lemma compress_same {A B} mask (l : list A) (m : list B) : length l = length m -> length (compress mask l) = length (compress mask m).
  Proof. revert l m. induction mask as [|b mask IH]; intros [|x l] [|y m] E; try discriminate; [reflexivity..|]. cbn [compress]. injection E as E. destruct b; cbn [length]; [f_equal|]; now apply IH. Qed.
  Lemma concat_maps {A B} (f : A -> B) l : concat (map (map f) l) = map f (concat l).
  Proof. symmetry. apply concat_map. Qed.
  Lemma logw_length (p : past T (list C)) b z logw lz : compute_logw_and_logz p b z = Ok (logw, lz) -> length logw = length (concat (h_logl p)).
  Proof.
    unfold compute_logw_and_logz. destruct (Nat.ltb _ _); [discriminate|]. cbv zeta.
    match goal with |- context [map (map ?f) (h_logl p)] => assert (Q : length (concat (map (map f) (h_logl p))) = length (concat (h_logl p))) by (rewrite concat_maps; apply map_length); revert Q; generalize (map (map f) (h_logl p)) end.
    intros m Q. destruct m as [|v m]; [discriminate|]. intros H. apply Ok_inj in H. apply (f_equal fst) in H. cbn [fst] in H. subst logw. rewrite <- Q. destruct z; [apply map_length|reflexivity].
  Qed.
  Lemma trim_loop_length fuel : forall i (pc w : list T) et e mask wt, trim_loop fuel i pc w et e = Ok (mask, wt) -> length wt = length (compress mask w).
  Proof.
    induction fuel as [|fuel IH]; intros i pc w et e mask wt H; cbn [trim_loop] in H; [discriminate|]. apply bind_ok in H as (p & _ & H). apply bind_ok in H as (th & _ & H).
    destruct (nleb e _); [|exact (IH _ _ _ _ _ _ _ H)]. apply Ok_inj in H. injection H as <- <-. unfold normalise. apply map_length.
  Qed.
  Lemma selected_length a s hb idx logw w : aligned (history_of s) (c_n_active (s_cfg s)) hb -> selected a s idx logw w -> length logw = length idx /\ length w = length idx.
  Proof.
    intros A (logw0 & z & E & H). destruct (all_flat s hb A) as (_ & F2 & _). apply logw_length in E. rewrite F2, map_length in E. destruct (pa_trim a).
    - destruct H as (left & H1 & H2). split; [now apply gather_Forall2, mapM_length in H2|].
      unfold trim_weights in H1. apply bind_ok in H1 as ([mask wt] & H1 & H3). apply Ok_inj in H3. injection H3 as <- <- _. apply trim_loop_length in H1. refine (eq_trans H1 _).
      apply compress_same. rewrite seq_length. unfold normalise. rewrite !map_length. exact E.
    - destruct H as (-> & -> & ->). rewrite map_length, seq_length. auto.
  Qed.

  Theorem posterior_particles a us offset s o : reachable s -> posterior a us offset s = Ok o ->
    exists idx rows, at_positions (all_particles s) idx rows /\ StronglySorted lt idx /\ (pa_trim a = false -> rows = all_particles s) /\
      if pa_resample a then exists again rows', at_positions rows again rows' /\ rows_are o (pa_return_blobs a) rows' /\ po_w o = None
      else rows_are o (pa_return_blobs a) rows /\ exists w, po_w o = Some w /\ length w = length rows.
  Proof.
    intros H HP. pose proof (reachable_pinv W undefined random L good U lp ll bl RG drawn interrupts s H) as [_ _ [A _] _ _].
    destruct (posterior_rows a us offset s o H HP) as (idx & rows & logw & w & S & R & SS & Q). exists idx, rows. split; [exact R|]. split; [exact SS|].
    destruct (selected_length _ _ _ _ _ _ A S) as [L1 L2]. split.
    - intros E. destruct S as (? & ? & _ & S). rewrite E in S. destruct S as (-> & _). exact (at_positions_fun _ _ _ _ R (at_positions_all _)).
    - destruct (pa_resample a).
      + destruct Q as (again & rows' & Q1 & Q2 & Q3 & _). exists again, rows'. auto.
      + destruct Q as [Q1 Q2]. split; [exact Q1|]. eexists. split; [exact Q2|]. apply gather_Forall2, mapM_length in R. destruct (pa_return_logw a); congruence.
  Qed.
End Generic.
Lemma no_blobs {T C P} {NT : NumT T} a us offset (s : sampler T C P) : pa_return_blobs a = true -> s_have_blobs s = false -> posterior a us offset s = Err ValueError.
Proof. intros H1 H2. unfold posterior. now rewrite H1, H2. Qed.

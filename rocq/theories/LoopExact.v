(** * Iterations in exact arithmetic *)
From Coq Require Import ZArith Reals Lra Lia.
From Coq Require Import String List Bool.
From Verif Require Import Num PyBase PyBaseFacts XReal RList Tools SpecTools ToolsFacts TrimFacts ToolsSpecFacts Scaler Particles SpecParticles ParticlesFacts LogLike Geometry Mcmc SpecMcmc McmcNum Flow FlowCases Sampler
  ConfigFacts SpecReach SamplerFacts Reach SpecRun BetaFacts XUnit RowFacts ParticleInv HistoryFacts SpecEss BisectFacts FiniteHistory SpecLoop LoopFacts.
Import ListNotations.
Set Bullet Behavior "Strict Subproofs".
Local Open Scope R_scope.

(** ** The dynamic adjustment *)
Lemma quotient_nonneg a b : 0 <= a -> 0 < b -> 0 <= a / b.
Proof. intros H1 H2. apply Rmult_le_pos; [exact H1|]. left. now apply Rinv_0_lt_compat. Qed.
Lemma distinct_scaled k w c : 0 < c -> Forall (fun x => 0 < x) w -> 0 < Rsum w ->
  unique_sample_size (map Fin (map (fun x => c * x) w)) (Some k) = (Fin (expected_distinct k w), map Fin (map (fun x => x / total w) w)).
Proof.
  intros Hc Hw Hs. assert (Hn : Forall (fun x => 0 <= x) w) by (eapply Forall_impl; [|exact Hw]; cbn; intros; lra).
  assert (HS : Rsum (map (fun x => c * x) w) = c * Rsum w) by (rewrite (Rsum_map_scal c (fun x => x)), map_id_R; reflexivity).
  assert (Hn' : Forall (fun x => 0 <= x) (map (fun x => c * x) w)) by (apply Forall_map; eapply Forall_impl; [|exact Hn]; cbn; intros; nra).
  destruct (C15_lemma (map (fun x => c * x) w) (Some k) Hn') as (e & E & _ & _); [rewrite total_Rsum, HS; nra|].
  destruct (C15_lemma w (Some k) Hn) as (e' & _ & E2 & _ & _ & _ & S); [now rewrite total_Rsum|].
  specialize (S c Hc). rewrite E in S. cbn [fst] in S. injection S as ->. rewrite E. unfold expected_distinct. rewrite <- E2. f_equal. f_equal.
  rewrite map_map. apply map_ext. intros x. rewrite !total_Rsum, HS. field. lra.
Qed.
Lemma distinct_bounds k w : Forall (fun x => 0 < x) w -> 0 < Rsum w -> expected_distinct k w <= INR k /\ ((1 <= k)%nat -> 1 <= expected_distinct k w).
Proof.
  intros Hw Hs. assert (Hn : Forall (fun x => 0 <= x) w) by (eapply Forall_impl; [|exact Hw]; cbn; intros; lra).
  destruct (C15_lemma w (Some k) Hn) as (e & _ & E & _ & B1 & B2 & _); [now rewrite total_Rsum|]. unfold expected_distinct. rewrite <- E. auto.
Qed.
Lemma distinct_nonneg k w : Forall (fun x => 0 <= x) w -> 0 <= expected_distinct k w.
Proof.
  intros Hw. unfold expected_distinct, expected_distinct_draws. rewrite total_Rsum.
  assert (Hq : forall i, 0 <= nth i w 0 / total w).
  { intros i. assert (A : 0 <= nth i w 0). { destruct (nth_in_or_default i w 0) as [Hi|Hi]; [|lra]. rewrite Forall_forall in Hw. now apply Hw. }
    assert (B : 0 <= total w). { rewrite total_Rsum. clear A. induction Hw; cbn [Rsum fold_right]; [apply Rle_refl|]. change (0 <= x + Rsum l). lra. }
    destruct (Req_dec (total w) 0) as [E|E]; [rewrite E; unfold Rdiv; rewrite Rinv_0, Rmult_0_r; lra|]. destruct B as [B|B]; [now apply quotient_nonneg|congruence]. }
  assert (HP : forall s, 0 <= sequence_probability (fun i => nth i w 0 / total w) s).
  { induction s as [|a s IH]; cbn [sequence_probability fold_right]; [lra|]. apply Rmult_le_pos; [apply Hq|exact IH]. }
  induction (sequences _ _) as [|a l IH]; cbn [map]; [apply Rle_refl|]. change (0 <= sequence_probability (fun i => nth i w 0 / total w) a * INR (length (nodup Nat.eq_dec a)) + Rsum (map (fun s => sequence_probability (fun i => nth i w 0 / total w) s * INR (length (nodup Nat.eq_dec s))) l)).
  pose proof (Rmult_le_pos _ _ (HP a) (pos_INR (length (nodup Nat.eq_dec a)))). lra.
Qed.

Lemma nmin2_fin a b : @nmin2 X (@numT_Num X XNumT) (Fin a) (Fin b) = Fin (Rmin a b).
Proof.
  unfold nmin2. change (nltb (Fin b) (Fin a)) with (Rltb b a). unfold Rmin, Rltb. destruct (Rlt_dec b a), (Rle_dec a b); try reflexivity; lra.
Qed.
Lemma adjust_exact (cfg : config X) n w p : (0 <= n)%Z -> c_n_active cfg <> 0%nat -> Forall (fun x => 0 < x) w -> 0 < Rsum w ->
  p = map (fun x => x / Rsum w) w ->
  exists n', adjust cfg n (map Fin p) = Ok (n', map Fin p) /\ (0 <= n')%Z /\ (c_dynamic cfg = false -> n' = n) /\
    (c_dynamic cfg = true -> forall target, 0 <= target -> c_dynamic_ratio cfg = Fin (target / INR (c_n_active cfg)) ->
      adjusted (c_n_active cfg) target (expected_distinct (c_n_active cfg) w) n n').
Proof.
  intros Hn Hk Hw Hs Ep. unfold adjust. set (k := c_n_active cfg) in *. destruct (c_dynamic cfg); [|exists n; repeat split; auto; discriminate].
  assert (Ep' : p = map (fun x => / Rsum w * x) w) by (subst p; apply map_ext; intros; unfold Rdiv; ring).
  assert (EU : unique_sample_size (map Fin p) (Some k) = (Fin (expected_distinct k w), map Fin p)).
  { rewrite Ep' at 1. rewrite distinct_scaled; [|now apply Rinv_0_lt_compat|assumption|assumption]. rewrite total_Rsum, <- Ep. reflexivity. }
  match goal with |- context [@unique_sample_size ?A ?I ?x ?y] => replace (@unique_sample_size A I x y) with (Fin (expected_distinct k w), map Fin p) by (symmetry; exact EU) end. destruct (distinct_bounds k w Hw Hs) as [B1 B2]. specialize (B2 ltac:(lia)). set (u := expected_distinct k w) in *. clearbody u.
  assert (K1 : 0 < INR k) by (apply lt_0_INR; lia).
  assert (Nn : 0 <= IZR n) by now apply IZR_le.
  change (nofZ (Z.of_nat k)) with (Fin (IZR (Z.of_nat k))). rewrite <- (INR_IZR_INZ k). change (@nofZ X _ n) with (Fin (IZR n)). change (@nofZ X _ 1) with (Fin 1).
  change (@ndiv X (@numT_Num X XNumT)) with xdiv. rewrite !xdiv_fin by lra. change (nmul (Fin (INR k / u)) (Fin (IZR n))) with (Fin (INR k / u * IZR n)). change (nmul (Fin (u / INR k)) (Fin (IZR n))) with (Fin (u / INR k * IZR n)).
  change (@nfrac X (@numT_Num X XNumT)) with (@nfrac X XNum). rewrite !frac_fin by lra.
  assert (P1 : 0 <= INR k / u * IZR n) by (apply Rmult_le_pos; [apply quotient_nonneg; lra|lra]).
  assert (P2 : 0 <= u / INR k * IZR n) by (apply Rmult_le_pos; [apply quotient_nonneg; lra|lra]).
  destruct (ntrunc_nonneg _ P1) as (a & Ea & Ba1 & Ba2). destruct (ntrunc_nonneg _ P2) as (b & Eb & Bb1 & Bb2).
  change (ntrunc (Fin (INR k / u * IZR n))) with (xtrunc (Fin (INR k / u * IZR n))). change (ntrunc (Fin (u / INR k * IZR n))) with (xtrunc (Fin (u / INR k * IZR n))).
  rewrite Ea, Eb. cbn [of_option bind].
  assert (Q1 : IZR n <= INR k / u * IZR n). { rewrite <- (Rmult_1_l (IZR n)) at 1. apply Rmult_le_compat_r; [lra|]. apply Rmult_le_reg_r with u; [lra|]. unfold Rdiv. rewrite Rmult_assoc, Rinv_l by lra. lra. }
  assert (Q2 : INR k / u * IZR n <= INR k * IZR n). { apply Rmult_le_compat_r; [lra|]. apply Rmult_le_reg_r with u; [lra|]. unfold Rdiv. rewrite Rmult_assoc, Rinv_l by lra. nra. }
  assert (Q3 : u / INR k * IZR n <= IZR n). { rewrite <- (Rmult_1_l (IZR n)) at 2. apply Rmult_le_compat_r; [lra|]. apply Rmult_le_reg_r with (INR k); [lra|]. unfold Rdiv. rewrite Rmult_assoc, Rinv_l by lra. lra. }
  rewrite (INR_IZR_INZ a) in Ba1, Ba2. rewrite (INR_IZR_INZ b) in Bb1, Bb2.
  assert (Z1 : (n <= Z.of_nat a <= Z.of_nat k * n)%Z).
  { split; [|apply le_IZR; rewrite mult_IZR, <- (INR_IZR_INZ k); lra]. apply Z.lt_succ_r, lt_IZR. rewrite succ_IZR. lra. }
  assert (Z2 : (0 <= Z.of_nat b <= n)%Z) by (split; [lia|apply le_IZR; lra]).
  assert (MM : forall target, INR k * Rmin (105 / 100 * (target / INR k)) 1 = Rmin (105 / 100 * target) (INR k)).
  { intros target. replace (105 / 100 * (target / INR k)) with (105 / 100 * target / INR k) by (field; lra).
    unfold Rmin. destruct (Rle_dec (105 / 100 * target / INR k) 1) as [L|L], (Rle_dec (105 / 100 * target) (INR k)) as [L'|L'].
    - field; lra.
    - exfalso. apply L'. apply Rmult_le_compat_r with (r := INR k) in L; [|lra]. unfold Rdiv at 1 in L. rewrite Rmult_assoc, Rinv_l in L by lra. lra.
    - exfalso. apply L. apply Rmult_le_reg_r with (INR k); [lra|]. unfold Rdiv at 1. rewrite Rmult_assoc, Rinv_l by lra. lra.
    - ring. }
  destruct (nltb (Fin u) _) eqn:C1; [|destruct (nltb _ (Fin u)) eqn:C2].
  - exists (Z.of_nat a). split; [reflexivity|]. split; [lia|]. split; [discriminate|]. intros _ target Ht Er; rewrite Er in *.
    change (Rltb u (INR k * (95 / 100 * (target / INR k))) = true) in C1. apply Rltb_true in C1.
    replace (INR k * (95 / 100 * (target / INR k))) with (95 / 100 * target) in C1 by (field; lra).
    constructor; intros Q; [split; [exact Z1|lra]| |lra].
    exfalso. unfold Rmin in Q. destruct (Rle_dec _ _); nra.
  - exists (Z.of_nat b). split; [reflexivity|]. split; [lia|]. split; [discriminate|]. intros _ target Ht Er; rewrite Er in *.
    change (Rltb u (INR k * (95 / 100 * (target / INR k))) = false) in C1. apply Rltb_false in C1.
    replace (INR k * (95 / 100 * (target / INR k))) with (95 / 100 * target) in C1 by (field; lra).
    change (nmul (Fin (105 / 100)) (Fin (target / INR k))) with (Fin (105 / 100 * (target / INR k))) in C2. rewrite nmin2_fin in C2.
    change (Rltb (INR k * Rmin (105 / 100 * (target / INR k)) 1) u = true) in C2. apply Rltb_true in C2. rewrite MM in C2.
    constructor; intros Q; [lra|split; [exact Z2|lra]|exfalso; lra].
  - exists n. split; [reflexivity|]. split; [lia|]. split; [discriminate|]. intros _ target Ht Er; rewrite Er in *.
    change (Rltb u (INR k * (95 / 100 * (target / INR k))) = false) in C1. apply Rltb_false in C1.
    replace (INR k * (95 / 100 * (target / INR k))) with (95 / 100 * target) in C1 by (field; lra).
    change (nmul (Fin (105 / 100)) (Fin (target / INR k))) with (Fin (105 / 100 * (target / INR k))) in C2. rewrite nmin2_fin in C2.
    change (Rltb (INR k * Rmin (105 / 100 * (target / INR k)) 1) u = false) in C2. apply Rltb_false in C2. rewrite MM in C2.
    constructor; intros Q; [lra|exfalso; lra|reflexivity].
Qed.

(** ** Reachable states *)
Section Origin.
  Context {T C P Opt : Type} {NT : NumT T}.
  Variable W : world T C P Opt.
  Variable fair : rand T C P -> Prop.
  Variable interrupts : bool.
  Implicit Types s : sampler T C P.
  (** the options never change *)
  Lemma origin s : reachable W fair interrupts s -> exists o s0, new_sampler W o = Ok s0 /\ s_cfg s = s_cfg s0.
  Proof.
    revert s. apply (reach_phases W fair interrupts (fun s => exists o s0, new_sampler W o = Ok s0 /\ s_cfg s = s_cfg s0) (fun _ => True) (fun _ => True) (fun _ => True)).
    - intros o s H _. exists o, s. auto.
    - intros n m s I. exact I.
    - intros R s s' I _ H. apply draw_frame in H as [-> _]. exact I.
    - intros R i s s' I _ _ _ H. apply batch_frame in H as [-> _]. exact I.
    - intros s I _. exact I.
    - intros fuel s s1 I _ H. apply reweight_facts in H as (c & beta & logz & ess & w0 & neff & w1 & idx & w2 & lf & u & x & ldj & logl & logp & b & c1 & _ & _ & _ & _ & _ & _ & _ & _ & _ & _ & _ & _ & ->). auto.
    - intros R s s2 I _ _ H. apply train_facts in H as (c2 & now & fl & un & ug & tg & _ & _ & _ & ->). auto.
    - intros R s s3 I _ _ _ H. apply resample_facts in H as (c3 & w3 & idx3 & u3 & x3 & ldj3 & logl3 & logp3 & b3 & _ & _ & _ & _ & _ & _ & _ & _ & _ & ->). auto.
    - intros R s s4 I _ _ _ H. apply mutate_facts in H as (c5 & b5 & ks & res & c' & _ & _ & _ & _ & _ & _ & ->). auto.
    - intros s c I _ _ _. exact I.
    - intros R s s' I _ _ H. apply evidence_facts in H as (? & ? & ? & ? & ? & ? & _ & -> & _). exact I.
    - intros s I. unfold results_of. destruct (compute_results (s_particles s)). exact I.
    - intros saved self I _. exact I.
    - intros s p I _ _. exact I.
  Qed.
  (** particles are current once there is a history *)
  Lemma current_present s : reachable W fair interrupts s -> iterations (history_of s) <> 0%nat -> s_current s <> None.
  Proof.
    revert s. apply (reach_phases W fair interrupts (fun s => iterations (history_of s) <> 0%nat -> s_current s <> None) (fun _ => True) (fun _ => True) (fun _ => True)).
    - intros o s H _. unfold new_sampler in H. do 12 (apply bind_ok in H as [? [_ H]]). apply Ok_inj in H. subst s. intros Q. now cbn in Q.
    - intros n m s I. exact I.
    - intros R s s' I _ H. apply draw_facts in H as [[_ ->]|[_ (ps & sc & _ & _ & ->)]]; exact I.
    - intros R i s s' _ _ _ _ H _. apply warmup_facts in H as (ps & x0 & u0 & xi & ldj0 & logp0 & logl0 & b0 & x & u & ldj & logp & logl & b & c & _ & _ & _ & _ & _ & _ & _ & _ & ->). discriminate.
    - intros s I _. exact I.
    - intros fuel s s1 I _ H. apply reweight_facts in H as (c & beta & logz & ess & w0 & neff & w1 & idx & w2 & lf & u & x & ldj & logl & logp & b & c1 & _ & _ & _ & _ & _ & _ & _ & _ & _ & _ & _ & _ & ->). split; [discriminate|exact Logic.I].
    - intros R s s2 I _ _ H. apply train_facts in H as (c2 & now & fl & un & ug & tg & _ & _ & _ & ->). split; [discriminate|exact Logic.I].
    - intros R s s3 I _ _ _ H. apply resample_facts in H as (c3 & w3 & idx3 & u3 & x3 & ldj3 & logl3 & logp3 & b3 & _ & _ & _ & _ & _ & _ & _ & _ & _ & ->). split; [discriminate|exact Logic.I].
    - intros R s s4 I _ _ _ H. apply mutate_facts in H as (c5 & b5 & ks & res & c' & _ & _ & _ & _ & _ & _ & ->). split; [discriminate|exact Logic.I].
    - intros s c I _ _ Ec _. cbn [with_particles s_current]. congruence.
    - intros R s s' I _ _ H. apply evidence_facts in H as (? & ? & ? & ? & ? & ? & _ & -> & _). exact I.
    - intros s I. unfold results_of, history_of in *. unfold compute_results. destruct (p_results (s_particles s)); [exact I|].
      destruct (compute_logw_and_logz _ _ _) as [[? ?]|]; exact I.
    - intros saved self I _. exact I.
    - intros s p I _ _. exact I.
  Qed.
  (** a sampler that tempers has a history *)
  Lemma next_beta_history fuel m s n r : reachable W fair interrupts s -> next_beta fuel m (history_of s) n = Ok r -> iterations (history_of s) <> 0%nat.
  Proof.
    intros Hr Q. unfold next_beta in Q. apply bind_ok in Q as [b0 [Q _]]. apply get_last in Q as [rest Q].
    pose proof (reachable_even W _ interrupts s Hr) as EV. unfold even, counts in EV. cbn [repeat] in EV. injection EV as _ _ _ _ _ _ _ _ _ _ _ _ _ Vb.
    unfold iterations. rewrite <- Vb, Q, app_length. cbn. lia.
  Qed.
End Origin.

Section Exact.
  Context {C P Opt : Type}.
  Variable W : world X C P Opt.
  Variable lp ll : vec X -> X.
  Variable bl : option (vec X -> list C).
  Hypothesis RG : regular W lp ll bl.
  Variable drawn : vec X -> Prop.
  Hypothesis HN : forall x, drawn x -> ll x <> NaN.
  Hypothesis HI : forall x, ll x <> PInf.
  Variable interrupts : bool.
  Notation reachable := (reachable W (good_draws x_random drawn) interrupts).
  Implicit Types s : sampler X C P.
  Notation exact_past s H := (exact_past W lp ll bl RG drawn HN HI interrupts s H).

  (** C32 *)
  Theorem exact_step fuel R s s' : reachable s -> iteration W fuel R s = Ok s' ->
    exists ls bs zs rest previous beta,
      history (history_of s) ls bs zs /\ bs = rest ++ [previous] /\ previous <= beta <= 1 /\
      h_beta (history_of s') = map Fin (bs ++ [beta]) /\
      let size b := sample_size (c_metric (s_cfg s)) (weights_at ls bs zs b) in
      h_ess (history_of s') = h_ess (history_of s) ++ [Fin (size beta)] /\
      let n := IZR (s_n_effective s) in
      ((size previous <= n /\ beta = previous) \/ (n < size previous /\ n <= size 1 /\ beta = 1) \/
       (n < size previous /\ size 1 < n /\ beta < 1 /\ Rabs (size beta - n) < 1 / 100 * n)).
  Proof.
    intros Hr H. apply iteration_step in H as (beta & logz & ess & c & Hb & R1 & _ & R3 & _).
    pose proof (next_beta_history _ _ _ _ _ _ _ _ Hr Hb) as NE. destruct (exact_past s Hr NE) as (ls & bs & zs & HH & B01 & _).
    destruct (next_beta_sound _ ls bs zs HH fuel _ (IZR (s_n_effective s)) beta logz ess Hb) as (rest & b0 & b' & E1 & -> & -> & _ & Cs).
    exists ls, bs, zs, rest, b0, b'. assert (B0 : 0 <= b0 <= 1) by (apply B01; rewrite E1; apply in_or_app; right; now left).
    split; [exact HH|]. split; [exact E1|]. split; [destruct Cs as [[_ ->]|[(_ & _ & ->)|(_ & _ & Q)]]; [lra|lra|specialize (Q (proj2 B0)); lra]|].
    split; [rewrite R1, map_app; f_equal; apply HH|]. split; [exact R3|]. cbv zeta.
    destruct Cs as [Q|[Q|(Q1 & Q2 & Q)]]; [auto|auto|]. destruct (Q (proj2 B0)). right; right. tauto.
  Qed.

  (** C33 *)
  Theorem exact_search s : reachable s -> iterations (history_of s) <> 0%nat ->
    exists halvings, forall fuel, (halvings <= fuel)%nat -> exists r, next_beta fuel (c_metric (s_cfg s)) (history_of s) (nofZ (s_n_effective s)) = Ok r.
  Proof.
    intros Hr NE. destruct (exact_past s Hr NE) as (ls & bs & zs & HH & B01 & _). exact (next_beta_terminates _ ls bs zs HH _ _ B01).
  Qed.

  Lemma active_pos s : reachable s -> iterations (history_of s) <> 0%nat -> c_n_active (s_cfg s) <> 0%nat.
  Proof. intros H. apply (reachable_finite W lp ll bl RG drawn HN HI interrupts s H). Qed.
  Lemma weights_finite s beta : reachable s -> iterations (history_of s) <> 0%nat -> exists ls bs zs w, history (history_of s) ls bs zs /\
    w = weights_at ls bs zs beta /\ Forall (fun x => 0 < x) w /\ 0 < Rsum w /\ length w = (iterations (history_of s) * c_n_active (s_cfg s))%nat /\
    exists w0, relative_weights (history_of s) (Fin beta) = Ok w0 /\ normalise w0 = map Fin (map (fun x => x / Rsum w) w).
  Proof.
    intros Hr NE. destruct (exact_past s Hr NE) as (ls & bs & zs & HH & _ & L1 & L2). exists ls, bs, zs, (weights_at ls bs zs beta).
    pose proof HH as (_ & _ & _ & HL & Hb & Hl). destruct (weights_pos ls bs zs beta Hb HL Hl) as [HP HS].
    split; [exact HH|]. split; [reflexivity|]. split; [exact HP|]. split; [exact HS|]. split.
    { unfold weights_at. rewrite map_length, <- L1. clear -L2. induction ls as [|l ls IH]; [reflexivity|]. cbn [concat length]. rewrite app_length, IH by (intros; apply L2; now right). rewrite (L2 l (or_introl eq_refl)). lia. }
    destruct (relative_weights_fin (history_of s) ls bs zs HH beta) as (c & _ & E & _). eexists. split; [exact E|]. exact (normalised_fin _ ls bs zs HH beta _ E).
  Qed.

  (** C46 *)
  Lemma ratio_origin o s0 : new_sampler W o = Ok s0 -> c_n_active (s_cfg s0) <> 0%nat ->
    (0 <= s_n_effective s0)%Z /\
    c_dynamic_ratio (s_cfg s0) = Fin (expected_distinct (c_n_active (s_cfg s0)) (repeat 1 (Z.to_nat (s_n_effective s0))) / INR (c_n_active (s_cfg s0))).
  Proof.
    intros H. unfold new_sampler in H. do 12 (apply bind_ok in H as [? [_ H]]). apply Ok_inj in H. subst s0. cbn [s_cfg c_n_active c_dynamic_ratio s_n_effective].
    match goal with |- ?k <> _ -> _ => set (k0 := k); clearbody k0 end. intros Hk. split; [destruct (a_n_ess o), (a_n_effective o); lia|].
    match goal with |- context [repeat _ ?m] => set (m0 := m); clearbody m0 end.
    assert (K : INR k0 <> 0) by (apply not_0_INR; exact Hk).
    change (@nofZ X _ 1) with (Fin 1). change (@nofZ X _ (Z.of_nat k0)) with (Fin (IZR (Z.of_nat k0))). rewrite <- INR_IZR_INZ.
    destruct m0 as [|m0].
    - replace (expected_distinct k0 (repeat 1 0)) with 0 by (unfold expected_distinct, expected_distinct_draws; destruct k0; [easy|reflexivity]). exact (xdiv_fin 0 _ K).
    - assert (E : repeat (Fin 1) (S m0) = map Fin (map (fun x => 1 * x) (repeat 1 (S m0)))) by (generalize (S m0); induction n as [|n IH]; [reflexivity|]; cbn [repeat map]; rewrite IH; do 2 f_equal; ring).
      assert (HP : Forall (fun x => 0 < x) (repeat 1 (S m0))) by (apply Forall_forall; intros y Hy; apply repeat_spec in Hy; lra).
      assert (HS : 0 < Rsum (repeat 1 (S m0))) by (apply Rsum_pos; [exact HP|discriminate]).
      match goal with |- context [@unique_sample_size ?A ?I ?a ?b] => replace (@unique_sample_size A I a b) with (Fin (expected_distinct k0 (repeat 1 (S m0))), map Fin (map (fun x => x / total (repeat 1 (S m0))) (repeat 1 (S m0)))) end.
      + cbn [fst]. exact (xdiv_fin _ _ K).
      + symmetry. rewrite E. apply distinct_scaled; [lra|exact HP|exact HS].
  Qed.
  Lemma effective_nonneg s : reachable s -> (0 <= s_n_effective s)%Z.
  Proof.
    revert s. apply (reach_phases_from W _ interrupts (fun s => (0 <= s_n_effective s)%Z) (fun _ => True) (fun _ => True) (fun _ => True)).
    - intros o s H _. unfold new_sampler in H. do 12 (apply bind_ok in H as [? [_ H]]). apply Ok_inj in H. subst s. cbn [s_n_effective]. destruct (a_n_ess o), (a_n_effective o); lia.
    - intros n m s I. exact I.
    - intros R s s' _ I _ H. apply draw_facts in H as [[_ ->]|[_ (ps & sc & _ & _ & ->)]]; exact I.
    - intros R i s s' _ I _ _ _ H. apply warmup_facts in H as (ps & x0 & u0 & xi & ldj0 & logp0 & logl0 & b0 & x & u & ldj & logp & logl & b & c & _ & _ & _ & _ & _ & _ & _ & _ & ->). exact I.
    - intros s I _. exact I.
    - intros fuel s s1 Hr I _ H. split; [|exact Logic.I].
      apply reweight_facts in H as (c & beta & logz & ess & w0 & neff & w1 & idx & w2 & lf & u & x & ldj & logl & logp & b & c1 & _ & Hb & Hw & Ha & _ & _ & _ & _ & _ & _ & _ & _ & ->). cbn [s_n_effective].
      pose proof (next_beta_history _ _ _ _ _ _ _ _ Hr Hb) as NE. destruct (exact_past s Hr NE) as (ls0 & bs0 & zs0 & HH & _).
      destruct (next_beta_sound _ ls0 bs0 zs0 HH fuel _ (IZR (s_n_effective s)) beta logz ess Hb) as (_ & _ & b' & _ & -> & _).
      destruct (weights_finite s b' Hr NE) as (ls & bs & zs & w & _ & _ & P1 & P2 & _ & w0' & Ew & En). rewrite Ew in Hw. apply Ok_inj in Hw. subst w0'.
      destruct (adjust_exact (s_cfg s) (s_n_effective s) w _ I (active_pos s Hr NE) P1 P2 eq_refl) as (n' & Ea & Q & _). change (@normalise X (@numT_Num X XNumT) w0) with (@normalise X XNum w0) in Ha. rewrite En in Ha.
      assert (Q' : Ok (neff, w1) = Ok (n', map Fin (map (fun x => x / Rsum w) w))) by (rewrite <- Ha; exact Ea). apply Ok_inj in Q'. injection Q' as -> _. exact Q.
    - intros R s s2 _ I _ _ H. apply train_facts in H as (c2 & now & fl & un & ug & tg & _ & _ & _ & ->). auto.
    - intros R s s3 _ I _ _ _ H. apply resample_facts in H as (c3 & w3 & idx3 & u3 & x3 & ldj3 & logl3 & logp3 & b3 & _ & _ & _ & _ & _ & _ & _ & _ & _ & ->). auto.
    - intros R s s4 _ I _ _ _ H. apply mutate_facts in H as (c5 & b5 & ks & res & c' & _ & _ & _ & _ & _ & _ & ->). auto.
    - intros s c I _ _ _. exact I.
    - intros R s s' _ I _ _ H. apply evidence_facts in H as (? & ? & ? & ? & ? & ? & _ & -> & _). exact I.
    - intros s I. unfold results_of. destruct (compute_results (s_particles s)). exact I.
    - intros saved self I _. exact I.
    - intros s p I _ _. exact I.
  Qed.
  Lemma iteration_effective fuel R s s' : iteration W fuel R s = Ok s' -> exists beta logz ess w0 w1,
    next_beta fuel (c_metric (s_cfg s)) (history_of s) (nofZ (s_n_effective s)) = Ok (beta, logz, ess) /\
    relative_weights (history_of s) beta = Ok w0 /\ adjust (s_cfg s) (s_n_effective s) (normalise w0) = Ok (s_n_effective s', w1).
  Proof.
    intros H. apply iteration_facts in H as (s1 & s2 & s3 & s4 & c4 & H1 & H2 & H3 & H4 & _ & ->).
    apply reweight_facts in H1 as (c & beta & logz & ess & w0 & neff & w1 & idx & w2 & lf & u & x & ldj & logl & logp & b & c1 & _ & Hb & Hw & Ha & _ & _ & _ & _ & _ & _ & _ & _ & ->).
    apply train_facts in H2 as (c2 & now & fl & un & ug & tg & _ & _ & _ & ->).
    apply resample_facts in H3 as (c3 & w3 & idx3 & u3 & x3 & ldj3 & logl3 & logp3 & b3 & _ & _ & _ & _ & _ & _ & _ & _ & _ & ->).
    apply mutate_facts in H4 as (c5 & b5 & ks & res & c' & _ & _ & _ & _ & _ & _ & ->). exists beta, logz, ess, w0, w1. auto.
  Qed.
  Theorem exact_adjustment fuel R s s' : reachable s -> iteration W fuel R s = Ok s' ->
    let k := c_n_active (s_cfg s) in
    exists ls bs zs beta, history (history_of s) ls bs zs /\ h_beta (history_of s') = map Fin (bs ++ [beta]) /\
    (c_dynamic (s_cfg s) = false -> s_n_effective s' = s_n_effective s) /\
    (c_dynamic (s_cfg s) = true -> exists o s0, new_sampler W o = Ok s0 /\ s_cfg s = s_cfg s0 /\
       let target := expected_distinct k (repeat 1 (Z.to_nat (s_n_effective s0))) in
       adjusted k target (expected_distinct k (weights_at ls bs zs beta)) (s_n_effective s) (s_n_effective s')).
  Proof.
    intros Hr H k. destruct (iteration_step W fuel R s s' H) as (beta0 & logz0 & ess0 & c0 & Hb0 & R1 & _).
    apply iteration_effective in H as (beta & logz & ess & w0 & w1 & Hb & Hw & Ha). pose proof (eq_trans (eq_sym Hb) Hb0) as Q0. apply Ok_inj in Q0. injection Q0 as <- <- <-.
    pose proof (next_beta_history _ _ _ _ _ _ _ _ Hr Hb) as NE. destruct (exact_past s Hr NE) as (ls0 & bs0 & zs0 & HH & _).
    destruct (next_beta_sound _ ls0 bs0 zs0 HH fuel _ (IZR (s_n_effective s)) beta logz ess Hb) as (_ & _ & b' & _ & -> & _).
    destruct (weights_finite s b' Hr NE) as (ls & bs & zs & w & HH2 & Ew0 & P1 & P2 & _ & w0' & Ew & En). rewrite Ew in Hw. apply Ok_inj in Hw. subst w0'.
    destruct (adjust_exact (s_cfg s) (s_n_effective s) w _ (effective_nonneg s Hr) (active_pos s Hr NE) P1 P2 eq_refl) as (n' & Ea & Q & Q1 & Q2). change (@normalise X (@numT_Num X XNumT) w0) with (@normalise X XNum w0) in Ha. rewrite En in Ha.
    assert (Q' : Ok (s_n_effective s', w1) = Ok (n', map Fin (map (fun x => x / Rsum w) w))) by (rewrite <- Ha; exact Ea). apply Ok_inj in Q'. injection Q' as <- _.
    exists ls, bs, zs, b'. split; [exact HH2|]. split; [rewrite R1, map_app; f_equal; apply HH2|]. split; [exact Q1|].
    intros D. destruct (origin W _ interrupts s Hr) as (o & s0 & Ho & Ec). exists o, s0. split; [exact Ho|]. split; [exact Ec|]. cbv zeta. subst w. unfold k.
    apply (Q2 D); [apply distinct_nonneg; apply Forall_forall; intros y Hy; apply repeat_spec in Hy; lra|].
    rewrite Ec. apply (ratio_origin o s0 Ho). rewrite <- Ec. now apply active_pos.
  Qed.

  (** a tempering step never fails *)
  Ltac by_step H := match goal with |- exists _, bind ?m _ = _ => match type of H with _ = ?r => replace m with r by (symmetry; exact H) end end; cbn [bind].
  Lemma in_filter_combine (f : nat * R -> bool) n (p : list R) i : In i (map fst (filter f (combine (seq 0 n) p))) -> (i < n)%nat.
  Proof. intros H. apply in_map_iff in H as [[j q] [<- H]]. apply filter_In in H as [H _]. apply in_combine_l, in_seq in H. cbn. lia. Qed.
  Theorem exact_progress s : reachable s -> iterations (history_of s) <> 0%nat -> (s_have_blobs s = true -> blobs_of (s_cfg s) bl <> None) ->
    exists halvings, forall fuel, (halvings <= fuel)%nat -> exists s1, reweight fuel s = Ok s1.
  Proof.
    intros Hr NE HB. destruct (exact_search s Hr NE) as [k0 Hk]. exists k0. intros fuel Hf. destruct (Hk fuel Hf) as [[[beta logz] ess] Hb].
    pose proof (current_present W _ interrupts s Hr NE) as NC. unfold reweight. fold (history_of s). destruct (s_current s) as [c|]; [|easy]. cbn [of_option bind]. by_step Hb.
    destruct (exact_past s Hr NE) as (ls0 & bs0 & zs0 & HH & _).
    destruct (next_beta_sound _ ls0 bs0 zs0 HH fuel _ (IZR (s_n_effective s)) beta logz ess Hb) as (_ & _ & b' & _ & -> & _).
    destruct (weights_finite s b' Hr NE) as (ls & bs & zs & w & HH2 & Ew0 & P1 & P2 & LW & w0 & Ew & En). by_step Ew.
    destruct (adjust_exact (s_cfg s) (s_n_effective s) w _ (effective_nonneg s Hr) (active_pos s Hr NE) P1 P2 eq_refl) as (n' & Ea & _).
    rewrite <- En in Ea. by_step Ea. rewrite En in *.
    set (p := map (fun x => x / Rsum w) w) in *. assert (LP : length p = (iterations (history_of s) * c_n_active (s_cfg s))%nat) by (unfold p; now rewrite map_length).
    assert (NN : Forall (fun x => 0 <= x) p) by (apply Forall_map; eapply Forall_impl; [|exact P1]; cbv beta; intros y Hy; apply quotient_nonneg; lra).
    assert (TP : 0 < total p). { rewrite total_Rsum. apply Rsum_pos; [apply Forall_map; eapply Forall_impl; [|exact P1]; cbv beta; intros y Hy; apply Rdiv_lt_0_compat; lra|]. intros E. unfold p in E. apply map_eq_nil in E. subst w. rewrite E in P2. cbn in P2. lra. }
    destruct (trim_weights_ok (seq 0 (length (map Fin p))) p (99 / 100) 1000 NN TP) as (j & tau & _ & _ & Et & _); [rewrite seq_length; apply map_length|lia|lra|].
    change (@nfrac X (@numT_Num X XNumT) 99 100) with (@nfrac X XNum 99 100). rewrite frac_fin by lra.
    by_step Et. set (idx := map fst _).
    assert (IX : forall i, In i idx -> (i < iterations (history_of s) * c_n_active (s_cfg s))%nat) by (intros i Hi; apply in_filter_combine in Hi; rewrite map_length in Hi; lia).
    clearbody idx. pose proof (reachable_pinv W x_undefined x_random X_ieee _ x_unit_interval lp ll bl RG drawn interrupts s Hr) as [_ _ [A _] _ _].
    destruct (flat_gets _ _ _ A NE) as (G1 & G2 & G3 & G4 & G5 & G6). destruct (flat_rows _ _ _ A) as ([r1 r2 r3 r4 r5 r6] & _ & _).
    cbn [flat_arrays w_u w_x w_logdetj w_logl w_logp w_blobs] in *.
    by_step G1. pose proof (gather_all (concat (h_u (history_of s))) idx [] ltac:(intros i Hi; rewrite r1; auto)) as KG1. by_step KG1.
    by_step G2. pose proof (gather_all (concat (h_x (history_of s))) idx [] ltac:(intros i Hi; rewrite r2; auto)) as KG2. by_step KG2.
    by_step G3. pose proof (gather_all (concat (h_logdetj (history_of s))) idx (Fin 0) ltac:(intros i Hi; rewrite r3; auto)) as KG3. by_step KG3.
    by_step G4. pose proof (gather_all (concat (h_logl (history_of s))) idx (Fin 0) ltac:(intros i Hi; rewrite r4; auto)) as KG4. by_step KG4.
    by_step G5. pose proof (gather_all (concat (h_logp (history_of s))) idx (Fin 0) ltac:(intros i Hi; rewrite r5; auto)) as KG5. by_step KG5.
    destruct (s_have_blobs s); [|cbn [bind]; eauto]. specialize (HB eq_refl). unfold with_blobs in *. destruct (blobs_of (s_cfg s) bl); [|easy].
    pose proof (gather_all (concat (all_blobs (history_of s))) idx [] ltac:(intros i Hi; rewrite r6; auto)) as K6.
    assert (K7 : (let! b := get_flat (history_of s) Kblobs in let! b := gather b idx in Ok (Some b)) = Ok (Some (map (fun i => nth i (concat (all_blobs (history_of s))) []) idx)))
      by (rewrite G6; cbn [bind]; exact (f_equal (fun m => let! b := m in Ok (Some b)) K6)).
    by_step K7. eauto.
  Qed.

  (** C34 *)
  Lemma current_beta s : reachable s -> forall c, s_current s = Some c -> exists b, cu_beta c = Fin b /\ 0 <= b <= 1.
  Proof.
    revert s. apply (reach_phases_from W _ interrupts (fun s => forall c, s_current s = Some c -> exists b, cu_beta c = Fin b /\ 0 <= b <= 1) (fun _ => True) (fun _ => True) (fun _ => True)).
    - intros o s H _. unfold new_sampler in H. do 12 (apply bind_ok in H as [? [_ H]]). apply Ok_inj in H. subst s. discriminate.
    - intros n m s I. exact I.
    - intros R s s' _ I _ H. apply draw_facts in H as [[_ ->]|[_ (ps & sc & _ & _ & ->)]]; exact I.
    - intros R i s s' _ I _ _ _ H. apply warmup_facts in H as (ps & x0 & u0 & xi & ldj0 & logp0 & logl0 & b0 & x & u & ldj & logp & logl & b & c & _ & _ & _ & _ & _ & _ & _ & -> & ->).
      intros c E. cbn [s_current] in E. injection E as <-. exists 0. split; [reflexivity|lra].
    - intros s I _. exact I.
    - intros fuel s s1 Hr I _ H. split; [|exact Logic.I].
      apply reweight_facts in H as (c & beta & logz & ess & w0 & neff & w1 & idx & w2 & lf & u & x & ldj & logl & logp & b & c1 & _ & Hb & _ & _ & _ & _ & _ & _ & _ & _ & _ & -> & ->).
      intros c' E. cbn [s_current] in E. injection E as <-. cbn [cu_beta].
      pose proof (next_beta_history _ _ _ _ _ _ _ _ Hr Hb) as NE. destruct (exact_past s Hr NE) as (ls & bs & zs & HH & B01 & _).
      destruct (next_beta_sound _ ls bs zs HH fuel _ (IZR (s_n_effective s)) beta logz ess Hb) as (rest & b0 & b' & E1 & -> & _ & _ & Cs).
      assert (B0 : 0 <= b0 <= 1) by (apply B01; rewrite E1; apply in_or_app; right; now left).
      exists b'. split; [reflexivity|]. destruct Cs as [[_ ->]|[(_ & _ & ->)|(_ & _ & Q)]]; [lra|lra|specialize (Q (proj2 B0)); lra].
    - intros R s s2 _ I _ _ H. apply train_facts in H as (c2 & now & fl & un & ug & tg & Ec & _ & _ & ->). split; [|exact Logic.I]. intros c E. cbn [s_current] in E. injection E as <-. auto.
    - intros R s s3 _ I _ _ _ H. apply resample_facts in H as (c3 & w3 & idx3 & u3 & x3 & ldj3 & logl3 & logp3 & b3 & Ec & _ & _ & _ & _ & _ & _ & _ & _ & ->).
      split; [|exact Logic.I]. intros c E. cbn [with_current s_current] in E. injection E as <-. cbn [cu_beta]. auto.
    - intros R s s4 _ I _ _ _ H. apply mutate_facts in H as (c5 & b5 & ks & res & c' & Ec & _ & _ & _ & _ & -> & ->).
      split; [|exact Logic.I]. intros c E. cbn [s_current] in E. injection E as <-. cbn [cu_beta]. auto.
    - intros s c I _ _ _. exact I.
    - intros R s s' _ I _ _ H. apply evidence_facts in H as (? & ? & ? & ? & ? & ? & _ & -> & _). exact I.
    - intros s I. unfold results_of. destruct (compute_results (s_particles s)). exact I.
    - intros saved self I _. exact I.
    - intros s p I _ _. exact I.
  Qed.
  Lemma ess_history m s b e : reachable s -> ess_at m (history_of s) b = Ok e -> iterations (history_of s) <> 0%nat.
  Proof.
    intros Hr H E. pose proof (reachable_even W _ interrupts s Hr) as EV. unfold even, counts in EV. cbn [repeat] in EV. injection EV as _ _ E3 _ _ _ _ _ _ _ _ _ _ _.
    unfold iterations in E. rewrite E in E3. unfold ess_at, relative_weights, compute_logw_and_logz in H. apply bind_ok in H as [w [H _]]. apply bind_ok in H as [[lw lz] [H _]].
    destruct (Nat.ltb _ _); [discriminate|]. destruct (h_logl (history_of s)) eqn:EL; [|discriminate E3]. discriminate H.
  Qed.
  Theorem exact_converged s n : reachable s -> converged s n -> exists ls bs zs c b, history (history_of s) ls bs zs /\ s_current s = Some c /\ cu_beta c = Fin b /\
    b <= 1 /\ 1 - b < 1 / 10000 /\ IZR n <= sample_size (c_metric (s_cfg s)) (weights_at ls bs zs 1).
  Proof.
    intros Hr (c & e & Ec & Hb & He & Hn). pose proof (ess_history _ _ _ _ Hr He) as NE. destruct (exact_past s Hr NE) as (ls & bs & zs & HH & _).
    destruct (current_beta s Hr c Ec) as (b & Eb & B). exists ls, bs, zs, c, b. split; [exact HH|]. split; [exact Ec|]. split; [exact Eb|]. split; [lra|].
    assert (E : ess_at (c_metric (s_cfg s)) (history_of s) (Fin 1) = Ok e) by exact He. rewrite (ess_at_fin _ ls bs zs HH) in E. apply Ok_inj in E. subst e. split.
    - rewrite Eb in Hb. change (@nfrac X (@numT_Num X XNumT) 1 10000) with (@nfrac X XNum 1 10000) in Hb. rewrite frac_fin in Hb by lra. change (Rleb (1 / 10000) (1 - b) = false) in Hb. unfold Rleb in Hb. destruct (Rle_dec _ _); [discriminate|lra].
    - change (Rltb (sample_size (c_metric (s_cfg s)) (weights_at ls bs zs 1)) (IZR n) = false) in Hn. apply Rltb_false in Hn. lra.
  Qed.
  (** with exact arithmetic, a smaller target is reached as well *)
  Lemma exact_converged_less s n n' : reachable s -> (n' <= n)%Z -> converged s n -> converged s n'.
  Proof.
    intros Hr L Q. pose proof Q as (c & e & Ec & Hb & He & Hn). exists c, e. repeat (split; [assumption|]).
    destruct (exact_converged s n Hr Q) as (ls & bs & zs & _ & _ & HH & _). assert (E : ess_at (c_metric (s_cfg s)) (history_of s) (Fin 1) = Ok e) by exact He.
    rewrite (ess_at_fin _ ls bs zs HH) in E. apply Ok_inj in E. subst e. change (Rltb (sample_size (c_metric (s_cfg s)) (weights_at ls bs zs 1)) (IZR n) = false) in Hn.
    change (Rltb (sample_size (c_metric (s_cfg s)) (weights_at ls bs zs 1)) (IZR n') = false). apply Rltb_false in Hn. apply Rltb_false. apply IZR_le in L. lra.
  Qed.
End Exact.

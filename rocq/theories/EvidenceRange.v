(** * The recorded log-evidences, in exact arithmetic *)
From Coq Require Import ZArith Reals Lra Lia.
From Coq Require Import String List Bool.
From Verif Require Import Num PyBase XReal RList Tools TrimFacts Scaler Particles SpecTools SpecParticles ParticlesFacts LogLike Geometry Mcmc SpecMcmc McmcNum Flow Sampler ConfigFacts
  SpecReach SamplerFacts Reach SpecRun BetaFacts XUnit RowFacts ParticleInv HistoryFacts SpecEss BisectFacts FiniteHistory LoopFacts LoopExact.
Import ListNotations.
Set Bullet Behavior "Strict Subproofs".
Local Open Scope R_scope.

(** ** Mixtures of tempered likelihoods *)
Lemma mixture_le bs zs l m : bs <> [] -> Forall2 (fun b z => exp (b * l) / exp z <= m) bs zs -> mixture_density bs zs l <= m.
Proof.
  intros NE H. unfold mixture_density. rewrite total_Rsum.
  assert (Q : Rsum (map2 (fun b z => exp (b * l) / exp z) bs zs) <= INR (length bs) * m).
  { clear NE. induction H as [|b z bs zs H _ IH]; [cbn; lra|]. cbn [map2 Rsum length]. rewrite S_INR. lra. }
  assert (0 < INR (length bs)) by (apply lt_0_INR; destruct bs; [easy|cbn; lia]). apply Rmult_le_reg_r with (INR (length bs)); [assumption|]. unfold Rdiv. rewrite Rmult_assoc, Rinv_l by lra. lra.
Qed.
Lemma mixture_ge bs zs l m : bs <> [] -> Forall2 (fun b z => m <= exp (b * l) / exp z) bs zs -> m <= mixture_density bs zs l.
Proof.
  intros NE H. unfold mixture_density. rewrite total_Rsum.
  assert (Q : INR (length bs) * m <= Rsum (map2 (fun b z => exp (b * l) / exp z) bs zs)).
  { clear NE. induction H as [|b z bs zs H _ IH]; [cbn; lra|]. cbn [map2 Rsum length]. rewrite S_INR. lra. }
  assert (0 < INR (length bs)) by (apply lt_0_INR; destruct bs; [easy|cbn; lia]). apply Rmult_le_reg_r with (INR (length bs)); [assumption|]. unfold Rdiv. rewrite Rmult_assoc, Rinv_l by lra. lra.
Qed.
Lemma exp_le x y : x <= y -> exp x <= exp y.
Proof. intros [H| ->]; [left; now apply exp_increasing|right; reflexivity]. Qed.
Lemma exp_div x y : exp x / exp y = exp (x - y).
Proof. unfold Rdiv, Rminus. now rewrite exp_plus, exp_Ropp. Qed.
Lemma weight_range bs zs b l lo hi : bs <> [] -> lo <= l <= hi -> Forall2 (fun b' z => b' <= b /\ b' * lo <= z <= b' * hi) bs zs ->
  exp (b * lo) <= balance_weight bs zs b l <= exp (b * hi).
Proof.
  intros NE Hl H. unfold balance_weight.
  assert (LE : length bs = length zs) by (clear NE; induction H; cbn; congruence). pose proof (mixture_density_pos bs zs l NE LE) as MP.
  assert (M1 : mixture_density bs zs l <= exp (b * l - b * lo)).
  { apply mixture_le; [exact NE|]. clear NE LE MP. induction H as [|b' z bs zs [H1 H2] _ IH]; constructor; [|exact IH]. rewrite exp_div. apply exp_le. assert (0 <= (b - b') * (l - lo)) by (apply Rmult_le_pos; lra). lra. }
  assert (M2 : exp (b * l - b * hi) <= mixture_density bs zs l).
  { apply mixture_ge; [exact NE|]. clear NE LE MP M1. induction H as [|b' z bs zs [H1 H2] _ IH]; constructor; [|exact IH]. rewrite exp_div. apply exp_le. assert (0 <= (b - b') * (hi - l)) by (apply Rmult_le_pos; lra). lra. }
  split.
  - replace (exp (b * lo)) with (exp (b * l) / exp (b * l - b * lo)) by (rewrite exp_div; f_equal; ring).
    apply Rmult_le_compat_l; [left; apply exp_pos|]. apply Rinv_le_contravar; assumption.
  - replace (exp (b * hi)) with (exp (b * l) / exp (b * l - b * hi)) by (rewrite exp_div; f_equal; ring).
    apply Rmult_le_compat_l; [left; apply exp_pos|]. apply Rinv_le_contravar; [apply exp_pos|assumption].
Qed.
Lemma mean_range (w : list R) lo hi : w <> [] -> Forall (fun x => lo <= x <= hi) w -> lo <= total w / INR (length w) <= hi.
Proof.
  intros NE H. rewrite total_Rsum. assert (Q : INR (length w) * lo <= Rsum w <= INR (length w) * hi).
  { clear NE. induction H as [|x w H _ IH]; [cbn; lra|]. cbn [Rsum length]. rewrite S_INR. lra. }
  assert (0 < INR (length w)) by (apply lt_0_INR; destruct w; [easy|cbn; lia]).
  split; apply Rmult_le_reg_r with (INR (length w)); try assumption; unfold Rdiv; rewrite Rmult_assoc, Rinv_l by lra; lra.
Qed.
Lemma evidence_range ls bs zs b z lo hi : bs <> [] -> concat ls <> [] -> (forall l, In l (concat ls) -> lo <= l <= hi) ->
  Forall2 (fun b' z' => b' <= b /\ b' * lo <= z' <= b' * hi) bs zs ->
  exp z = total (weights_at ls bs zs b) / INR (length (weights_at ls bs zs b)) -> b * lo <= z <= b * hi.
Proof.
  intros NE NL HL HB Hz. assert (Q : exp (b * lo) <= exp z <= exp (b * hi)).
  { rewrite Hz. apply mean_range; [unfold weights_at; destruct (concat ls); [easy|discriminate]|].
    unfold weights_at. apply Forall_map, Forall_forall. intros l Hl. apply weight_range; auto. }
  destruct Q as [Q1 Q2]. split.
  - destruct (Rle_or_lt (b * lo) z) as [|Q]; [assumption|]. apply exp_increasing in Q. lra.
  - destruct (Rle_or_lt z (b * hi)) as [|Q]; [assumption|]. apply exp_increasing in Q. lra.
Qed.

Section Range.
  Context {C P Opt : Type}.
  Variable W : world X C P Opt.
  Variable lp ll : vec X -> X.
  Variable bl : option (vec X -> list C).
  Hypothesis RG : regular W lp ll bl.
  Variable drawn : vec X -> Prop.
  Hypothesis HN : forall x, drawn x -> ll x <> NaN.
  Hypothesis HI : forall x, ll x <> PInf.
  Variable interrupts : bool.
  Notation reachable := (reachable W (good_draws x_random drawn) interrupts).
  Implicit Types s : sampler X C P.

  (** what an iteration records *)
  Theorem recorded_evidence fuel R s s' : reachable s -> iteration W fuel R s = Ok s' ->
    exists ls bs zs rest previous rest' before beta z,
      history (history_of s) ls bs zs /\ bs = rest ++ [previous] /\ zs = rest' ++ [before] /\
      h_beta (history_of s') = map Fin (bs ++ [beta]) /\ h_logz (history_of s') = map Fin (zs ++ [z]) /\
      let w := weights_at ls bs zs beta in
      ((sample_size (c_metric (s_cfg s)) (weights_at ls bs zs previous) <= IZR (s_n_effective s) /\ beta = previous /\ z = before) \/
       (IZR (s_n_effective s) < sample_size (c_metric (s_cfg s)) (weights_at ls bs zs previous) /\ exp z = total w / INR (length w))).
  Proof.
    intros Hr H. apply iteration_step in H as (beta & logz & ess & c & Hb & R1 & R2 & _ & _).
    pose proof (next_beta_history W _ interrupts _ _ _ _ _ Hr Hb) as NE. destruct (exact_past W lp ll bl RG drawn HN HI interrupts s Hr NE) as (ls & bs & zs & HH & _).
    destruct (next_beta_sound _ ls bs zs HH fuel _ (IZR (s_n_effective s)) beta logz ess Hb) as (rest & b0 & b' & E1 & -> & -> & (z & -> & Cz) & Cs).
    pose proof HH as (_ & Q2 & Q3 & HL & Hb0 & _).
    assert (Hz : zs <> []) by (intros ->; destruct bs; [easy|discriminate]). destruct (exists_last Hz) as [rest' [z0 E2]].
    exists ls, bs, zs, rest, b0, rest', z0, b', z. split; [exact HH|]. split; [exact E1|]. split; [exact E2|]. rewrite R1, R2, !map_app, Q2, Q3. split; [reflexivity|]. split; [reflexivity|].
    cbv zeta. destruct Cz as [(D1 & r & Er)|(D1 & D2)]; [left|right; auto]. rewrite E2 in Er. apply app_inj_tail in Er as [_ ->].
    destruct Cs as [(_ & ->)|[(D2 & _)|(D2 & _)]]; [auto|lra|lra].
  Qed.

  Definition ranged s lo hi : Prop := forall l, In l (concat (h_logl (history_of s))) -> exists r, l = Fin r /\ lo <= r <= hi.
  Definition pair_range lo hi (b z : X) : Prop := exists b' z', b = Fin b' /\ z = Fin z' /\ b' * lo <= z' <= b' * hi.
  Lemma pairs_fin lo hi bs : forall zs, Forall2 (pair_range lo hi) (map Fin bs) (map Fin zs) -> Forall2 (fun b z => b * lo <= z <= b * hi) bs zs.
  Proof.
    induction bs as [|b bs IH]; intros [|z zs] I; inversion I as [|? ? ? ? A Ys]; constructor; [|exact (IH zs Ys)].
    destruct A as (b1 & z1 & A1 & A2 & A3). injection A1 as ->. injection A2 as ->. exact A3.
  Qed.
  Definition in_range s : Prop := forall lo hi, ranged s lo hi -> Forall2 (pair_range lo hi) (h_beta (history_of s)) (h_logz (history_of s)).
  Definition next_range s : Prop := exists c, s_current s = Some c /\ forall lo hi, ranged s lo hi -> pair_range lo hi (cu_beta c) (cu_logz c).
  Lemma ladder_below s bs rest b0 : reachable s -> h_beta (history_of s) = map Fin bs -> bs = rest ++ [b0] -> forall b, In b bs -> b <= b0.
  Proof.
    intros Hr Q2 E1 b Hb. destruct (exact_ladder W _ interrupts s Hr) as [[_ _ T3] _]. apply (In_nth _ _ 0) in Hb as [i [Hi <-]].
    assert (LT : length bs = S (length rest)) by (rewrite E1, app_length; cbn; lia).
    specialize (T3 i (length rest)). rewrite Q2, map_length in T3. specialize (T3 ltac:(lia)). change (@nofZ X _ 0) with (Fin 0) in T3. rewrite !map_nth in T3.
    change (Rleb (nth i bs 0) (nth (length rest) bs 0) = true) in T3. apply Rleb_true in T3.
    assert (EN : nth (length rest) bs 0 = b0) by (rewrite E1, (app_nth2 rest [b0] 0 (le_n _)), Nat.sub_diag; reflexivity). rewrite EN in T3. exact T3.
  Qed.
  Lemma step_range fuel s s1 : reachable s -> in_range s -> reweight fuel s = Ok s1 -> next_range s1.
  Proof.
    intros Hr I H. apply reweight_facts in H as (c & beta & logz & ess & w0 & neff & w1 & idx & w2 & lf & u & x & ldj & logl & logp & b & cn & _ & Hb & _ & _ & _ & _ & _ & _ & _ & _ & _ & -> & ->).
    eexists. split; [reflexivity|]. cbn [cu_beta cu_logz]. intros lo hi RA.
    pose proof (next_beta_history W _ interrupts _ _ _ _ _ Hr Hb) as NE. destruct (exact_past W lp ll bl RG drawn HN HI interrupts s Hr NE) as (ls & bs & zs & HH & B01 & _).
    destruct (next_beta_sound _ ls bs zs HH fuel _ (IZR (s_n_effective s)) beta logz ess Hb) as (rest & b0 & b' & E1 & -> & -> & (z & -> & Cz) & Cs).
    pose proof HH as (Q1 & Q2 & Q3 & HL & Hb0 & Hl). assert (LB := ladder_below s bs rest b0 Hr Q2 E1).
    assert (RA' : ranged s lo hi) by exact RA. specialize (I lo hi RA'). rewrite Q2, Q3 in I.
    assert (I' : Forall2 (fun b z => b * lo <= z <= b * hi) bs zs) by exact (pairs_fin lo hi bs zs I).
    exists b', z. split; [reflexivity|]. split; [reflexivity|]. destruct Cz as [(D1 & r & Er)|(D1 & D2)].
    - assert (b' = b0) as -> by (destruct Cs as [(_ & ->)|[(D2 & _)|(D2 & _)]]; [auto|lra|lra]).
      rewrite E1, Er in I'. apply Forall2_app_inv_l in I' as (z1 & z2 & _ & I2 & Ez).
      inversion I2 as [|? y ? ys I3 I4]; subst. inversion I4; subst. apply app_inj_tail in Ez as [_ ->]. exact I3.
    - refine (evidence_range ls bs zs b' z lo hi Hb0 Hl _ _ D2).
      + intros l Hin. destruct (RA' (Fin l)) as (r & E & Hlr); [rewrite Q1, <- concat_map; now apply in_map|]. injection E as <-. exact Hlr.
      + assert (B0 : b0 <= 1) by (apply B01; rewrite E1; apply in_or_app; right; now left).
        assert (BB : b0 <= b') by (destruct Cs as [(_ & ->)|[(_ & _ & ->)|(_ & _ & Q)]]; [lra|lra|specialize (Q B0); lra]).
        clear -I' LB BB. induction I' as [|b z bs zs H _ IH]; constructor; [split; [specialize (LB b (or_introl eq_refl)); lra|exact H]|].
        apply IH. intros b1 Hb1. apply LB. now right.
  Qed.
  Lemma reachable_range s : reachable s -> in_range s.
  Proof.
    revert s. apply (reach_phases_from W _ interrupts in_range next_range next_range next_range).
    - intros o s H _. unfold new_sampler in H. do 12 (apply bind_ok in H as [? [_ H]]). apply Ok_inj in H. subst s. intros lo hi _. constructor.
    - intros n m s I. exact I.
    - intros R s s' _ I HR H. apply draw_facts in H as [[_ ->]|[En (ps & sc & Hps & Hf & ->)]]; exact I.
    - intros R i s s' _ I _ _ Hi H.
      apply warmup_facts in H as (ps' & x0 & u0 & xi & ldj0 & logp0 & logl0 & b0 & x & u & ldj & logp & logl & b & c & Eps & _ & _ & _ & _ & _ & _ & -> & ->).
      unfold in_range, ranged, history_of in *. cbn [s_particles particles_update p_past s_cfg]. rewrite update_items. cbn [h_logz h_beta h_logl cu_logz cu_beta cu_logl]. intros lo hi RA. apply Forall2_app.
      + apply I. intros l Hl. apply RA. rewrite concat_app. apply in_or_app. now left.
      + constructor; [|constructor]. exists 0, 0. split; [reflexivity|]. split; [reflexivity|lra].
    - intros s I _. exact I.
    - intros fuel s s1 Hr I _ H. split; [|exact (step_range fuel s s1 Hr I H)].
      apply reweight_facts in H as (c & beta & logz & ess & w0 & neff & w1 & idx & w2 & lf & u & x & ldj & logl & logp & b & cn & _ & _ & _ & _ & _ & _ & _ & _ & _ & _ & _ & _ & ->). exact I.
    - intros R s s2 _ I J _ H. apply train_facts in H as (c2 & now & fl & un & ug & tg & Ec & _ & _ & ->). split; [exact I|].
      destruct J as (c & E1 & J). rewrite E1 in Ec. injection Ec as <-. exists c. auto.
    - intros R s s3 _ I J _ _ H.
      apply resample_facts in H as (c3 & w3 & idx3 & u3 & x3 & ldj3 & logl3 & logp3 & b3 & Ec & _ & _ & _ & _ & _ & _ & _ & _ & ->).
      split; [exact I|]. destruct J as (c & E1 & J). rewrite E1 in Ec. injection Ec as <-. eexists. cbn [with_current s_current]. split; [reflexivity|]. exact J.
    - intros R s s4 _ I J _ _ H. apply mutate_facts in H as (c5 & b5 & ks & res & c' & Ec & _ & _ & _ & _ & -> & ->).
      split; [exact I|]. destruct J as (c & E1 & J). rewrite E1 in Ec. injection Ec as <-. eexists. cbn [s_current]. split; [reflexivity|]. exact J.
    - intros s c I (c' & E1 & J) _ Ec. rewrite E1 in Ec. injection Ec as <-.
      unfold in_range, ranged, history_of in *. cbn [with_particles s_particles particles_update p_past s_cfg]. rewrite update_items. cbn [h_logz h_beta h_logl]. intros lo hi RA.
      assert (RB : forall l, In l (concat (h_logl (p_past (s_particles s)))) -> exists r, l = Fin r /\ lo <= r <= hi) by (intros l Hl; apply RA; rewrite concat_app; apply in_or_app; now left).
      apply Forall2_app; [now apply I|]. constructor; [|constructor]. now apply J.
    - intros R s s' _ I _ _ H. apply evidence_facts in H as (n & logz & err & calls & evals & hb & _ & -> & _). exact I.
    - intros s I. unfold results_of, in_range, ranged, history_of in *. unfold compute_results. destruct (p_results (s_particles s)); [exact I|].
      destruct (compute_logw_and_logz _ _ _) as [[? ?]|]; exact I.
    - intros saved self I _. exact I.
    - intros s p I _ _. exact I.
  Qed.
  (** the log-evidences of a ladder within the range of the log-likelihoods *)
  Theorem evidences_in_range s ls bs zs lo hi : reachable s -> history (history_of s) ls bs zs -> (forall l, In l (concat ls) -> lo <= l <= hi) ->
    Forall2 (fun b z => b * lo <= z <= b * hi) bs zs.
  Proof.
    intros Hr (Q1 & Q2 & Q3 & _) HL. assert (RA : ranged s lo hi).
    { intros l Hin. rewrite Q1, <- concat_map in Hin. apply in_map_iff in Hin as [r [<- Hin]]. exists r. auto. }
    pose proof (reachable_range s Hr lo hi RA) as I. rewrite Q2, Q3 in I.
    exact (pairs_fin lo hi bs zs I).
  Qed.
  Theorem final_in_range s ls bs zs z lo hi : reachable s -> history (history_of s) ls bs zs -> (forall l, In l (concat ls) -> lo <= l <= hi) ->
    exp z = total (weights_at ls bs zs 1) / INR (length (weights_at ls bs zs 1)) -> lo <= z <= hi.
  Proof.
    intros Hr HH HL Hz. pose proof (evidences_in_range s ls bs zs lo hi Hr HH HL) as I. pose proof HH as (_ & Q2 & _ & _ & Hb & Hl).
    destruct (betas_finite W drawn interrupts s Hr) as (bs' & E & B). rewrite Q2 in E. assert (bs' = bs) as ->. { clear -E. revert bs' E. induction bs as [|b bs IH]; intros [|b' bs'] E; try discriminate; [reflexivity|]. injection E as -> E. f_equal. now apply IH. }
    assert (Q : 1 * lo <= z <= 1 * hi); [|lra]. refine (evidence_range ls bs zs 1 z lo hi Hb Hl HL _ Hz).
    clear -I B. induction I as [|b z bs zs H _ IH]; constructor; [split; [apply B; now left|exact H]|]. apply IH. intros b1 Hb1. apply B. now right.
  Qed.
  (** the stored log-likelihoods are values of the likelihood *)
  Theorem stored_in_range s ls bs zs lo hi : reachable s -> history (history_of s) ls bs zs -> (forall x l, ll x = Fin l -> lo <= l <= hi) ->
    forall l, In l (concat ls) -> lo <= l <= hi.
  Proof.
    intros Hr (E & _) HL l Hin. apply in_concat in Hin as [r [Hr1 Hl]]. apply (In_nth _ _ []) in Hr1 as [t [Ht <-]]. apply (In_nth _ _ 0) in Hl as [k [Hk <-]].
    pose proof (reachable_pinv W x_undefined x_random X_ieee _ x_unit_interval lp ll bl RG drawn interrupts s Hr) as [_ _ [A LG] _ _]. destruct A as [_ _ A3 _ _ A6].
    assert (Ht' : (t < iterations (history_of s))%nat). { rewrite <- (map_length (map Fin)), <- E in Ht. exact (eq_ind _ (fun n => (t < n)%nat) Ht _ A3). }
    destruct (A6 t Ht') as [[_ _ _ R4 _ _] _]. cbn [stored w_logl] in R4. assert (En : nth t (h_logl (history_of s)) [] = map Fin (nth t ls [])) by (rewrite E; exact (map_nth (map Fin) ls [] t)).
    rewrite En, map_length in R4. pose proof (LG t k Ht' (eq_ind _ (fun n => (k < n)%nat) Hk _ R4)) as [[B1 _ _] _].
    unfold particle_at in B1. cbn [pt_logl stored w_logl pt_x] in B1. rewrite En in B1. apply (HL _ _ (eq_trans (eq_sym B1) (map_nth Fin (nth t ls []) 0 k))).
  Qed.
End Range.

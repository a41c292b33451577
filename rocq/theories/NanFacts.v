(** * NaN log-likelihoods *)
From Coq Require Import ZArith.
From Coq Require Import String List Bool Lia.
From Verif Require Import Num PyBase PyBaseFacts Tools Scaler Particles ParticlesFacts LogLike Geometry GeometryFacts Mcmc SpecMcmc McmcFacts Flow Sampler ConfigFacts
  SpecReach SamplerFacts Reach SpecRun BetaFacts RowFacts ParticleInv HistoryFacts LoopFacts SpecNan.
Import ListNotations.
Set Bullet Behavior "Strict Subproofs".

Section Nan.
  Context {T : Type} {NT : NumT T}.
  Hypothesis N : nan_like T.
  Notation nan l := (Forall (fun v : T => nisnan v = true) l).

  Lemma logaddexp_nan (a b : T) : nisnan a = true \/ nisnan b = true -> nisnan (nlogaddexp a b) = true.
  Proof.
    intros H. unfold nlogaddexp. rewrite (na_eqb N) by exact H. pose proof (na_sub N a b H) as Q. rewrite (na_ltb N) by now right. rewrite (na_leb N) by now left. exact Q.
  Qed.
  Lemma lse_nan (l : list T) : (exists v, In v l /\ nisnan v = true) -> nisnan (nlse l) = true.
  Proof.
    unfold nlse. generalize (nopp (@ninf T _)) as a. induction l as [|x l IH]; intros a [v [Hv Nv]]; [easy|]. cbn [fold_left]. destruct Hv as [->|Hv]; [|now apply IH; exists v].
    assert (G : forall (l : list T) b, nisnan b = true -> nisnan (fold_left nlogaddexp l b) = true).
    { clear -N. induction l as [|x l IH]; intros b Hb; [exact Hb|]. cbn [fold_left]. apply IH, logaddexp_nan. now left. }
    apply G, logaddexp_nan. now right.
  Qed.
  Lemma sum_nan (l : list T) : nan l -> l <> [] -> nisnan (nsum l) = true.
  Proof. intros H NE. destruct H as [|x l Hx H]; [easy|]. cbn [nsum fold_right]. apply (na_add N). now left. Qed.
  Lemma normalise_all_nan (l : list T) : nan l -> nan (normalise l).
  Proof. intros H. unfold normalise. apply Forall_map. eapply Forall_impl; [|exact H]. cbv beta. intros v Hv. apply (na_div N). now left. Qed.
  Lemma map_nan (f : T -> T) l : (forall v, nisnan v = true -> nisnan (f v) = true) -> nan l -> nan (map f l).
  Proof. intros Hf H. apply Forall_map. eapply Forall_impl; [|exact H]. exact Hf. Qed.
  Lemma maximum_nan (l : list T) m : nan l -> nmaximum l = Some m -> nisnan m = true.
  Proof.
    intros H E. destruct H as [|x l Hx H]; [discriminate|]. cbn [nmaximum] in E. injection E as <-. revert x Hx. induction H as [|y l Hy H IH]; intros x Hx; [exact Hx|].
    cbn [fold_left]. apply IH. unfold nmax2. now rewrite Hx.
  Qed.

  Section Past.
  Context {C : Type}.
  Variable p : past T (list C).
  Hypothesis HP : exists l, In l (concat (h_logl p)) /\ nisnan l = true.

  Theorem weights_nan b logw lz : compute_logw_and_logz p b true = Ok (logw, lz) -> nan logw /\ nisnan lz = true /\ logw <> [].
  Proof.
    destruct HP as (l & Hl & Nl). unfold compute_logw_and_logz. destruct (Nat.ltb _ _); [discriminate|]. cbv zeta.
    match goal with |- context [map (map ?g) (h_logl p)] => set (f := g) end.
    assert (Q : exists v, In v (concat (map (map f) (h_logl p))) /\ nisnan v = true).
    { exists (f l). split; [|unfold f; apply (na_sub N); left; apply (na_mul N); now left].
      apply in_concat in Hl as (r & Hr & Hl). apply in_concat. exists (map f r). split; [apply in_map; exact Hr|]. now apply in_map. }
    revert Q. generalize (map (map f) (h_logl p)).
    intros m Q. destruct m as [|v m]; [discriminate|]. intros H. apply Ok_inj in H. pose proof (f_equal fst H) as H1. pose proof (f_equal snd H) as H2. clear H. cbn [fst snd] in H1, H2.
    pose proof (lse_nan _ Q) as QL. subst logw lz. split; [|split].
    - apply Forall_map, Forall_forall. intros x _. apply (na_sub N). now right.
    - apply (na_sub N). now left.
    - destruct Q as (w & Hw & _). destruct (concat (v :: m)); [easy|discriminate].
  Qed.
  Lemma relative_nan b w : relative_weights p b = Ok w -> nan w /\ w <> [].
  Proof.
    unfold relative_weights. intros H. apply bind_ok in H as ([logw lz] & H1 & H). apply weights_nan in H1 as (H1 & _ & H2). apply bind_ok in H as (m & H3 & H). apply Ok_inj in H. subst w.
    split; [|destruct logw; [easy|discriminate]]. apply map_nan; [|exact H1]. intros v Hv. apply (na_exp N), (na_sub N). now left.
  Qed.
  Lemma ess_nan m b e : ess_at m p b = Ok e -> nisnan e = true.
  Proof.
    unfold ess_at. intros H. apply bind_ok in H as (w & H1 & H). apply relative_nan in H1 as [H1 H2]. apply Ok_inj in H. subst e.
    pose proof (normalise_all_nan w H1) as H3. assert (H4 : normalise w <> []) by (destruct w; [easy|discriminate]).
    unfold measure, effective_sample_size, unique_sample_size. cbv zeta. destruct m; cbn [fst].
    - apply (na_div N). right. apply sum_nan; [apply map_nan; [|exact H3]|destruct (normalise w); [easy|discriminate]]. intros v Hv. apply (na_mul N). now left.
    - apply sum_nan; [apply map_nan; [|exact H3]|destruct (normalise w); [easy|discriminate]]. intros v Hv. apply (na_sub N). right.
      assert (Q : nisnan (nsub (nofZ 1) v) = true) by (apply (na_sub N); now right). destruct w as [|w0 w]; [easy|]. cbn [length npown]. apply (na_mul N). now left.
  Qed.
  Lemma bisect_nan fuel m n : forall lo hi r, bisect fuel m p n lo hi <> Ok r.
  Proof.
    induction fuel as [|fuel IH]; intros lo hi r H; cbn [bisect] in H; [discriminate|]. apply bind_ok in H as (e & H1 & H). apply ess_nan in H1.
    rewrite (na_ltb N) in H by (left; apply (na_abs N), (na_sub N); now left). cbn [orb] in H. destruct (neqb _ _).
    - rewrite (na_trunc N) in H by exact H1. discriminate H.
    - destruct (nltb e n); exact (IH _ _ _ H).
  Qed.
  Lemma next_beta_nan fuel m n r : next_beta fuel m p n <> Ok r.
  Proof.
    unfold next_beta. intros H. apply bind_ok in H as (b & _ & H). apply bind_ok in H as (e0 & E0 & H). apply bind_ok in H as (e1 & E1 & H). apply ess_nan in E0, E1.
    rewrite (na_leb N) in H by now left. rewrite (na_leb N) in H by now right. apply bind_ok in H as (r' & H & _). exact (bisect_nan _ _ _ _ _ _ H).
  Qed.
  Lemma ess_defined m b : (length (h_beta p) <= length (h_logz p))%nat -> exists e, ess_at m p b = Ok e.
  Proof.
    intros HL. destruct HP as (l & Hl & _). destruct (compute_logw_and_logz p b true) as [[logw lz]|e] eqn:E.
    - pose proof (weights_nan _ _ _ E) as (_ & _ & NE). unfold ess_at, relative_weights. rewrite E. destruct logw as [|v logw]; [easy|]. cbn [bind nmaximum of_option]. eauto.
    - exfalso. unfold compute_logw_and_logz in E. apply Nat.ltb_ge in HL. rewrite HL in E. cbv zeta in E. destruct (h_logl p); [easy|discriminate].
  Qed.
  (** the first of the midpoints (lo+hi)/2, lo := midpoint, that equals 1 is the k-th *)
  Fixpoint climbs (k : nat) (lo hi : T) : bool :=
    let mid := nmul (nadd hi lo) (nfrac 1 2) in
    match k with O => neqb mid (nofZ 1) | S k => negb (neqb mid (nofZ 1)) && climbs k mid hi end.
  Lemma climb_raises m n : (length (h_beta p) <= length (h_logz p))%nat -> forall k lo hi fuel, climbs k lo hi = true -> (k < fuel)%nat -> bisect fuel m p n lo hi = Err ValueError.
  Proof.
    intros HL. induction k as [|k IH]; intros lo hi fuel HC HF; (destruct fuel as [|fuel]; [lia|]); cbn [climbs] in HC; cbv zeta in HC; cbn [bisect];
      destruct (ess_defined m (nmul (nadd hi lo) (nfrac 1 2)) HL) as [e He]; rewrite He; cbn [bind]; apply ess_nan in He;
      rewrite (na_ltb N (nabs (nsub e n))) by (left; apply (na_abs N), (na_sub N); now left); cbn [orb].
    - rewrite HC, (na_trunc N) by exact He. reflexivity.
    - apply andb_prop in HC as [H1 H2]. apply negb_true_iff in H1. rewrite H1, (na_ltb N) by now left. apply IH; [exact H2|lia].
  Qed.
  Lemma next_beta_raises fuel m n k b0 : (length (h_beta p) <= length (h_logz p))%nat -> get_index p Kbeta (-1) = Ok b0 -> climbs k b0 (nofZ 1) = true -> (k < fuel)%nat ->
    next_beta fuel m p n = Err ValueError.
  Proof.
    intros HL Hb HC HF. unfold next_beta. rewrite Hb. cbn [bind]. destruct (ess_defined m b0 HL) as [e0 E0], (ess_defined m (nofZ 1) HL) as [e1 E1]. rewrite E0, E1. cbn [bind]. apply ess_nan in E0, E1.
    rewrite (na_leb N) by now left. rewrite (na_leb N) by now right. now rewrite (climb_raises _ _ HL _ _ _ _ HC HF).
  Qed.
  (** trimming such weights *)
  Lemma trim_loop_all_nan fuel i pc w et e r : nan w -> trim_loop fuel i pc w et e = Ok r -> nisnan et = true -> False.
  Proof.
    intros Hw H He. revert i H. induction fuel as [|fuel IH]; intros i H; cbn [trim_loop] in H; [discriminate|]. apply bind_ok in H as (q & _ & H). apply bind_ok in H as (th & _ & H).
    rewrite (na_leb N) in H; [exact (IH _ H)|]. right. apply (na_div N). now right.
  Qed.
  Lemma trim_nan {A} (l : list A) w ess bins r : nan w -> w <> [] -> trim_weights l w ess bins <> Ok r.
  Proof.
    intros Hw NE H. unfold trim_weights in H. apply bind_ok in H as ([mask wt] & H & _). apply trim_loop_all_nan in H; [exact H|now apply normalise_all_nan|].
    apply (na_div N). right. apply sum_nan; [apply map_nan; [intros v Hv; apply (na_mul N); now left|now apply normalise_all_nan]|]. destruct w; [easy|discriminate].
  Qed.
  End Past.
End Nan.

Section Runs.
  Context {T C P Opt : Type} {NT : NumT T}.
  Variable W : world T C P Opt.
  Hypothesis N : nan_like T.
  Implicit Types s : sampler T C P.

  Lemma reweight_nan fuel s s1 : stores_nan s -> reweight fuel s <> Ok s1.
  Proof.
    intros H E. apply reweight_facts in E as (c & beta & logz & ess & w0 & neff & w1 & idx & w2 & lf & u & x & ldj & logl & logp & b & c1 & _ & Hb & _).
    exact (next_beta_nan N (history_of s) H _ _ _ _ Hb).
  Qed.
  Theorem iteration_nan fuel R s : stores_nan s -> exists e, iteration W fuel R s = Err e.
  Proof.
    intros H. destruct (iteration W fuel R s) as [s'|e] eqn:E; [|eauto]. apply iteration_facts in E as (s1 & s2 & s3 & s4 & c4 & H1 & _). now apply reweight_nan in H1.
  Qed.
  Theorem posterior_nan a us offset s o : stores_nan s -> posterior a us offset s = Ok o ->
    pa_trim a = false /\ forall w, po_w o = Some w -> Forall (fun v => nisnan v = true) w.
  Proof.
    intros H E. unfold posterior in E. fold (history_of s) in E. apply bind_ok in E as (? & _ & E). do 4 (apply bind_ok in E as (? & _ & E)). apply bind_ok in E as ([logw lz] & EW & E).
    apply (weights_nan N _ H) in EW as (W1 & _ & W2). pose proof (map_nan nexp _ (na_exp N) W1) as W3.
    apply bind_ok in E as ([[[[[xs ls] ps] lw] w] bs] & ES & E). destruct (pa_trim a).
    - exfalso. apply bind_ok in ES as ([[idx w'] left] & TW & _). apply (trim_nan N) in TW; [exact TW|exact W3|]. destruct logw; [easy|discriminate].
    - split; [reflexivity|]. apply Ok_inj in ES. injection ES as <- <- <- <- <- <-. intros v Hv. destruct (pa_resample a).
      + do 5 (apply bind_ok in E as (? & _ & E)). apply Ok_inj in E. subst o. discriminate Hv.
      + apply Ok_inj in E. subst o. cbn [po_w] in Hv. injection Hv as <-. destruct (pa_return_logw a); assumption.
  Qed.

  Variable undefined random good : T -> Prop.
  Hypothesis L : ieee_like undefined random.
  Hypothesis UN : forall v : T, nisnan v = true -> undefined v.
  Hypothesis U : unit_interval good.
  Variable lp ll : vec T -> T.
  Variable bl : option (vec T -> list C).
  Hypothesis RG : regular W lp ll bl.
  Variable drawn : vec T -> Prop.
  Variable interrupts : bool.
  Notation reachable := (reachable W (good_draws random drawn) interrupts).

  (** each particle of an iteration is a copy of an earlier one or an accepted proposal *)
  Theorem iteration_rows fuel R s s' : reachable s -> good_draws random drawn R -> s_warmup s = false -> not_termination s = Ok true -> iteration W fuel R s = Ok s' ->
    iterations (history_of s') = S (iterations (history_of s)) /\
    (forall t, (t < iterations (history_of s))%nat -> stored (history_of s') t = stored (history_of s) t) /\
    forall k, (k < c_n_active (s_cfg s))%nat -> let p := particle_at (stored (history_of s') (iterations (history_of s))) k in
      (exists t j, (t < iterations (history_of s))%nat /\ (j < c_n_active (s_cfg s))%nat /\ p = particle_at (stored (history_of s) t) j) \/
      (belongs lp ll (blobs_of (s_cfg s) bl) p /\ accepted (s_scaler s) (wd_junk W) undefined p).
  Proof.
    intros H HR Hw Hnt HI. apply iteration_facts in HI as (s1 & s2 & s3 & s4 & c4 & H1 & H2 & H3 & H4 & Ec & ->).
    pose proof (reachable_pinv W undefined random L good U lp ll bl RG drawn interrupts s H) as I. pose proof I as [I1 _ [A _] _ _]. set (n := c_n_active (s_cfg s)) in *.
    destruct (reweight_rows W undefined lp ll bl drawn fuel s s1 I H1) as (EH & NE & idx & c1 & Hc1 & G).
    destruct (flat_rows _ _ _ A) as (FR & FB & _). destruct (gathered_rows _ _ _ _ FR G) as (Y1 & Y2 & Y3).
    assert (BP : nleb (nofZ 0) (cu_beta c1) = true /\ s_cfg s1 = s_cfg s /\ s_scaler s1 = s_scaler s /\ s_pool s1 = s_pool s /\ s_have_blobs s1 = s_have_blobs s /\ s_particles s1 = s_particles s).
    { apply reweight_facts in H1 as (c0 & beta & logz & ess & w0 & neff & w1 & idx' & w2 & lf & u & x & ldj & logl & logp & b & cn & _ & Hb & _ & _ & _ & _ & _ & _ & _ & _ & _ & -> & ->).
      cbn [s_current] in Hc1. injection Hc1 as <-. cbn [cu_beta]. destruct (reachable_ladder W _ interrupts good U s H) as [LA [LB _]].
      apply (next_beta_range good U) in Hb as (rest & b0 & _ & _ & _ & Q & _); auto 10. }
    destruct BP as (BP & F1 & F2 & F3 & F4 & F5).
    pose proof H2 as H2'. apply train_facts in H2' as (c2' & now & fl & un & ug & tg & Ec2 & _ & _ & Es2). rewrite Hc1 in Ec2. injection Ec2 as <-.
    assert (C2 : s_current s2 = Some c1) by now rewrite Es2.
    assert (K2 : s_cfg s2 = s_cfg s /\ s_scaler s2 = s_scaler s /\ s_pool s2 = s_pool s /\ s_have_blobs s2 = s_have_blobs s /\ s_particles s2 = s_particles s) by (rewrite Es2; cbn [s_cfg s_scaler s_pool s_have_blobs s_particles]; auto).
    destruct K2 as (G1 & G2 & G3 & G4 & G5). assert (WB : with_blobs bl s2 = with_blobs bl s) by (unfold with_blobs; now rewrite G1).
    destruct (resample_rows bl R s2 s3 (length idx) c1 ltac:(congruence) H3 C2 Y1 ltac:(congruence)) as (idx3 & c3 & Hc3 & G' & L3).
    destruct (gathered_rows _ _ _ _ Y1 G') as (Z1 & Z2 & Z3). rewrite G1 in L3. fold n in L3. rewrite L3 in Z1, Z3.
    assert (F : cu_beta c3 = cu_beta c1 /\ s3 = with_current s2 c3).
    { apply resample_facts in H3 as (c' & w3 & idx4 & u3 & x3 & ldj3 & logl3 & logp3 & b3 & Ec3 & _ & _ & _ & _ & _ & _ & _ & _ & ->).
      cbn [with_current s_current] in Hc3. injection Hc3 as <-. rewrite C2 in Ec3. injection Ec3 as <-. auto. }
    destruct F as [B3 E3].
    assert (K3 : s_cfg s3 = s_cfg s /\ s_scaler s3 = s_scaler s /\ s_pool s3 = s_pool s /\ s_have_blobs s3 = s_have_blobs s /\ s_particles s3 = s_particles s) by (rewrite E3; cbn [with_current s_cfg s_scaler s_pool s_have_blobs s_particles]; auto).
    destruct K3 as (T1 & T2 & T3 & T4 & T5). assert (WB3 : with_blobs bl s3 = with_blobs bl s) by (unfold with_blobs; now rewrite T1).
    destruct (mutate_rows W undefined random L lp ll bl RG drawn R s3 s4 n c3) as (c4' & Hc4 & _ & R4 & HB4 & RW); auto; try congruence.
    assert (c4' = c4) by congruence. subst c4'.
    apply mutate_facts in H4 as (c5 & b5 & ks & res & c' & _ & _ & _ & _ & _ & _ & ->). cbn [s_current] in *.
    match goal with |- context [with_particles ?t _] => set (s4 := t) in * end.
    assert (EP : history_of (with_particles s4 (particles_update (s_particles s4) (items c4))) = update (history_of s) (items c4)) by (unfold history_of; cbn [with_particles s_particles particles_update p_past]; unfold s4; cbn [s_particles]; now rewrite T5).
    rewrite EP. destruct (aligned_update (history_of s) n (with_blobs bl s) c4 A R4 ltac:(congruence)) as (A1 & A2 & A3 & A4).
    split; [exact A2|]. split; [intros t Ht; now apply A4|]. intros k Hk. cbv zeta. rewrite A3. destruct (RW k Hk) as [E|E].
    - left. rewrite E. destruct (Z3 k Hk) as [V1 V2]. destruct (Y3 _ V1) as [V3 V4]. destruct (flat_index _ _ _ _ A V3) as (t & j & Ht & Hj & _ & V5). exists t, j. split; [exact Ht|]. split; [exact Hj|]. rewrite V2, V4. exact V5.
    - right. rewrite T1, T2 in E. exact E.
  Qed.

  Lemma nan_positions s n hb : aligned (history_of s) n hb -> (stores_nan s <-> exists t k, (t < iterations (history_of s))%nat /\ (k < n)%nat /\ nisnan (pt_logl (particle_at (stored (history_of s) t) k)) = true).
  Proof.
    intros [A1 A2 A3 A4 A5 A6]. unfold stores_nan. split.
    - intros (l & Hl & Nl). apply in_concat in Hl as (r & Hr & Hl). apply (In_nth _ _ []) in Hr as (t & Ht & <-). apply (In_nth _ _ (nofZ 0)) in Hl as (k & Hk & <-).
      pose proof (eq_ind _ (fun m => (t < m)%nat) Ht _ A3) as Ht'. cbv beta in Ht'. destruct (A6 t Ht') as [[_ _ _ R4 _ _] _]. cbn [stored w_logl] in R4. exists t, k. split; [exact Ht'|]. split; [exact (eq_ind _ (fun m => (k < m)%nat) Hk _ R4)|exact Nl].
    - intros (t & k & Ht & Hk & E). exists (pt_logl (particle_at (stored (history_of s) t) k)). split; [|exact E]. destruct (A6 t Ht) as [[_ _ _ R4 _ _] _]. cbn [stored w_logl] in R4.
      apply in_concat. exists (nth t (h_logl (history_of s)) []). split; [apply nth_In; exact (eq_ind_r (fun m => (t < m)%nat) Ht A3)|]. apply nth_In. exact (eq_ind_r (fun m => (k < m)%nat) Hk R4).
  Qed.

  Definition held s : Prop := stores_nan s -> Forall (eq (nofZ 0)) (h_beta (history_of s)) /\ exists c, s_current s = Some c /\ cu_beta c = nofZ 0.
  Lemma same_nan s s' : history_of s' = history_of s -> stores_nan s' -> stores_nan s.
  Proof. unfold stores_nan. now intros ->. Qed.
  Lemma reachable_held s : reachable s -> held s.
  Proof.
    intros H. induction H as [o s H Hp|n m s _ IH|R s s' Hr IH HR H|R i s s' Hr IH HR Hw Hi H|s _ IH Hw|fuel R s s' Hr IH HR Hw Hnt H
      |R s s' Hr IH HR Hw H|s _ IH|saved self _ IH1 _ IH2|fuel s s1 Hr IH Hw Hnt H|fuel R s s1 s2 Hr IH HR Hw Hnt H H2|fuel R s s1 s2 s3 Hr IH HR Hw Hnt H H2 H3|fuel s s1 c p _ Hr IH Hw Hnt H Hc Ht].
    - unfold new_sampler in H. do 12 (apply bind_ok in H as [? [_ H]]). apply Ok_inj in H. subst s. intros (l & [] & _).
    - exact IH.
    - apply draw_facts in H as [[_ ->]|[_ (ps & sc & _ & _ & ->)]]; exact IH.
    - intros _. split.
      + pose proof (rc_batch _ _ _ R i s s' Hr HR Hw Hi H) as Hr'. destruct (reachable_ladder W _ interrupts good U s' Hr') as (_ & _ & Q). apply Q. apply batch_frame in H as (_ & Q' & _). congruence.
      + apply warmup_facts in H as (ps & x0 & u0 & xi & ldj0 & logp0 & logl0 & b0 & x & u & ldj & logp & logl & b & c' & _ & _ & _ & _ & _ & _ & _ & E & ->).
        exists c'. split; [reflexivity|]. now rewrite E.
    - exact IH.
    - intros HN. exfalso.
      assert (Cl : ~ stores_nan s) by (intros Q; destruct (iteration_nan fuel R s Q) as [e E]; congruence). apply Cl.
      destruct (iteration_rows fuel R s s' Hr HR Hw Hnt H) as (R1 & R2 & R3).
      pose proof (reachable_pinv W undefined random L good U lp ll bl RG drawn interrupts s Hr) as [_ _ [A _] _ _].
      pose proof (reachable_pinv W undefined random L good U lp ll bl RG drawn interrupts s' (rc_iteration _ _ _ fuel R s s' Hr HR Hw Hnt H)) as [_ _ [A' _] _ _].
      apply (nan_positions _ _ _ A') in HN as (t & k & Ht & Hk & E). pose proof (iteration_frame W _ _ _ _ H) as (F & _). rewrite F in Hk. rewrite R1 in Ht.
      apply (nan_positions _ _ _ A). destruct (Nat.eq_dec t (iterations (history_of s))) as [->|Ht'].
      + destruct (R3 k Hk) as [(t & j & Q1 & Q2 & Q3)|[_ [_ _ _ _ Q]]]; [|exfalso; apply Q, UN, E]. rewrite Q3 in E. exists t, j. auto.
      + rewrite R2 in E by lia. exists t, k. split; [lia|]. auto.
    - apply evidence_facts in H as (n & logz & err & calls & evals & hb & _ & -> & _). exact IH.
    - intros HN. unfold results_of in *. assert (E : p_past (snd (compute_results (s_particles s))) = p_past (s_particles s)).
      { unfold compute_results. destruct (p_results (s_particles s)); [reflexivity|]. now destruct (compute_logw_and_logz _ _ _) as [[? ?]|]. }
      destruct (compute_results (s_particles s)) as [r p]. cbn [snd] in *. apply (same_nan s (with_particles s p) E), IH in HN as [Q1 Q2]. split; [|exact Q2]. change (p_past p = history_of s) in E. change (Forall (eq (nofZ 0)) (h_beta (p_past p))). now rewrite E.
    - exact IH1.
    - intros HN. exfalso. apply (reweight_nan fuel s s1); [|exact H]. revert HN. apply same_nan.
      apply reweight_facts in H as (c & beta & logz & ess & w0 & neff & w1 & idx & w2 & lf & u & x & ldj & logl & logp & b & c1 & _ & _ & _ & _ & _ & _ & _ & _ & _ & _ & _ & _ & ->). reflexivity.
    - intros HN. exfalso. apply (reweight_nan fuel s s1); [|exact H]. revert HN. apply same_nan. apply train_facts in H2 as (c2 & now & fl & un & ug & tg & _ & _ & _ & ->).
      apply reweight_facts in H as (c & beta & logz & ess & w0 & neff & w1 & idx & w2 & lf & u & x & ldj & logl & logp & b & c1 & _ & _ & _ & _ & _ & _ & _ & _ & _ & _ & _ & _ & ->). reflexivity.
    - intros HN. exfalso. apply (reweight_nan fuel s s1); [|exact H]. revert HN. apply same_nan.
      apply resample_facts in H3 as (c3 & w3 & idx3 & u3 & x3 & ldj3 & logl3 & logp3 & b3 & _ & _ & _ & _ & _ & _ & _ & _ & _ & ->).
      apply train_facts in H2 as (c2 & now & fl & un & ug & tg & _ & _ & _ & ->).
      apply reweight_facts in H as (c & beta & logz & ess & w0 & neff & w1 & idx & w2 & lf & u & x & ldj & logl & logp & b & c1 & _ & _ & _ & _ & _ & _ & _ & _ & _ & _ & _ & _ & ->). reflexivity.
    - intros HN. exfalso. apply (reweight_nan fuel s s1); [|exact H]. revert HN. apply same_nan.
      apply reweight_facts in H as (c' & beta & logz & ess & w0 & neff & w1 & idx & w2 & lf & u & x & ldj & logl & logp & b & c1 & _ & _ & _ & _ & _ & _ & _ & _ & _ & _ & _ & _ & ->). reflexivity.
  Qed.

  Lemma stopped_clean s : reachable s -> not_termination s = Ok false -> ~ stores_nan s.
  Proof.
    intros H Hn HN. pose proof (reachable_held s H HN) as (_ & c & Q1 & Q2). unfold not_termination in Hn. apply bind_ok in Hn as (e & _ & Hn). rewrite Q1 in Hn.
    cbn [of_option bind] in Hn. apply bind_ok in Hn as (nt & _ & Hn). apply Ok_inj in Hn. rewrite Q2, (na_gap N) in Hn. discriminate.
  Qed.
  Theorem run_clean a R s evs s' : reachable s -> good_draws random drawn R -> run W a R s = (evs, Ok s') -> ~ stores_nan s'.
  Proof.
    intros H HR HX. assert (Q : snd (run W a R s) = Ok s') by now rewrite HX. clear HX. unfold run, run_from in Q.
    apply tbind_ok in Q as (s1 & Q1 & Q). cbn [lift snd] in Q1. assert (R1 : reachable s1) by (eapply rc_prior; [apply rc_targets; exact H|exact HR|exact Q1]).
    apply tbind_ok in Q as (s2 & Q2 & Q). destruct (warmup_reachable W _ interrupts (ra_save_every a) (s_t s) R s1 R1 HR) as [_ Q3]. specialize (Q3 s2 Q2).
    apply tbind_ok in Q as (s3 & Q4 & Q). destruct Q3 as [Q3 W3]. destruct (loop_reachable W _ interrupts (ra_fuel a) (ra_bfuel a) (ra_save_every a) (s_t s) R s2 Q3 HR W3) as [_ Q5]. destruct (Q5 s3 Q4) as (R3 & _ & NT3).
    apply tbind_ok in Q as (s4 & Q6 & Q). cbn [lift snd] in Q6. assert (s' = s4) by (destruct (ra_save_every a); cbn in Q; congruence). subst s4.
    intros HN. apply (stopped_clean s3 R3 NT3). revert HN. apply same_nan. apply evidence_facts in Q6 as (? & ? & ? & ? & ? & ? & _ & -> & _). reflexivity.
  Qed.
  (** ** What the failing iteration raises *)
  Lemma last_zero s : reachable s -> stores_nan s -> (length (h_beta (history_of s)) <= length (h_logz (history_of s)))%nat /\ get_index (history_of s) Kbeta (-1) = Ok (nofZ 0).
  Proof.
    intros H HN. destruct (reachable_held s H HN) as [HB _]. pose proof (reachable_even W _ interrupts s H) as E. unfold even, counts in E. cbn [repeat] in E. injection E as E1 E2 E3 E4 E5 E6 E7 E8 E9 E10 E11 E12 E13 E14.
    destruct HN as (l & Hl & _). split; [lia|]. destruct (h_logl (history_of s)) as [|r0 rs] eqn:EL; [easy|]. cbn [length] in *.
    destruct (h_beta (history_of s)) as [|b bs] eqn:EB using rev_ind; [cbn [length] in *; lia|]. clear IHbs. apply Forall_app in HB as [_ HB]. inversion HB as [|? ? HB' _]; subst.
    exact (get_index_spec (history_of s) Kbeta bs (nofZ 0) EB).
  Qed.
  Theorem iteration_raises k fuel R s : climbs k (nofZ 0) (nofZ 1) = true -> (k < fuel)%nat -> reachable s -> stores_nan s -> iteration W fuel R s = Err ValueError.
  Proof.
    intros HC HF H HN. destruct (last_zero s H HN) as [HL HB]. destruct (reachable_held s H HN) as (_ & c & Hc & _).
    unfold iteration, reweight. fold (history_of s). rewrite Hc. cbn [of_option bind]. now rewrite (next_beta_raises N _ HN fuel _ _ k _ HL HB HC HF).
  Qed.
  Lemma nan_goes_on s n : reachable s -> stores_nan s -> s_n_total s = Some n -> not_termination s = Ok true.
  Proof.
    intros H HN Hn. destruct (last_zero s H HN) as [HL _]. destruct (reachable_held s H HN) as (_ & c & Hc & Hb). unfold not_termination. fold (history_of s).
    destruct (ess_defined N (history_of s) HN (c_metric (s_cfg s)) (nofZ 1) HL) as [e ->]. rewrite Hc, Hn. cbn [of_option bind]. now rewrite Hb, (na_gap N).
  Qed.
  Theorem run_raises k a R s s1 s2 : climbs k (nofZ 0) (nofZ 1) = true -> (k < ra_bfuel a)%nat -> (0 < ra_fuel a)%nat -> ra_save_every a <> Some 0%Z ->
    reachable s -> good_draws random drawn R ->
    draw_prior W R (set_targets (ra_n_total a) (ra_n_evidence a) s) = Ok s1 -> snd (warmup W (ra_save_every a) (s_t s) R s1) = Ok s2 -> stores_nan s2 ->
    snd (run W a R s) = Err ValueError.
  Proof.
    intros HC HF HF' HS H HR Q1 Q2 HN. unfold run, run_from. rewrite Q1.
    assert (R1 : reachable s1) by (eapply rc_prior; [apply rc_targets; exact H|exact HR|exact Q1]).
    destruct (warmup_reachable W _ interrupts (ra_save_every a) (s_t s) R s1 R1 HR) as [_ Q3]. destruct (Q3 s2 Q2) as [R2 _].
    assert (NT2 : s_n_total s2 = Some (ra_n_total a)).
    { rewrite (warmup_total W _ _ _ _ _ Q2). apply draw_facts in Q1 as [[_ ->]|[_ (ps & sc & _ & _ & ->)]]; reflexivity. }
    unfold tbind at 1. cbn [lift]. unfold tbind at 1. destruct (warmup W (ra_save_every a) (s_t s) R s1) as [e1 r1]. cbn [snd] in Q2. subst r1.
    destruct (ra_fuel a) as [|f]; [lia|]. cbn [smc_loop]. rewrite (nan_goes_on s2 _ R2 HN NT2).
    assert (CK : exists e2, checkpoint (ra_save_every a) (s_t s) s2 = (e2, Ok s2)).
    { unfold checkpoint. destruct (ra_save_every a) as [z|]; [|eauto]. destruct (z =? 0)%Z eqn:E; [apply Z.eqb_eq in E; congruence|]. destruct (_ && _); eauto. }
    destruct CK as [e2 ->]. cbn [tbind]. rewrite (iteration_raises k (ra_bfuel a) R s2 HC HF R2 HN). reflexivity.
  Qed.
End Runs.

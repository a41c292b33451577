(** * The temperature ladder *)
From Coq Require Import ZArith List Bool Lia.
From Verif Require Import Num PyBase PyBaseFacts Tools Scaler Particles ParticlesFacts LogLike Geometry Mcmc SpecMcmc Flow Sampler ConfigFacts SpecReach SamplerFacts Reach SpecRun.
Import ListNotations.

Section Beta.
  Context {T C P Opt : Type} {NT : NumT T}.
  Notation B := (list C).
  Variable W : world T C P Opt.
  Variable fair : rand T C P -> Prop.
  Variable interrupts : bool.
  Variable good : T -> Prop.
  Hypothesis U : unit_interval good.

  Lemma bisect_range fuel m (p : past T B) n lo hi b e : bisect fuel m p n lo hi = Ok (b, e) -> good lo -> good hi ->
    nleb (nofZ 0) lo = true -> nleb lo hi = true -> nleb hi (nofZ 1) = true -> good b /\ nleb lo b = true /\ nleb b hi = true.
  Proof.
    revert lo hi. induction fuel as [|fuel IH]; intros lo hi; cbn [bisect]; [discriminate|].
    intros H G1 G2 H0 H1 H2. destruct (ui_mid _ U lo hi G1 G2 H0 H1 H2) as [GM [M1 M2]]. set (mid := nmul (nadd hi lo) (nfrac 1 2)) in *.
    pose proof (ui_0 _ U) as G0. pose proof (ui_1 _ U) as G3.
    apply bind_ok in H as [ess [_ H]].
    destruct (_ || _).
    - apply bind_ok in H as [? [_ H]]. apply Ok_inj in H. injection H as <- <-. auto.
    - destruct (nltb ess n).
      + apply IH in H as [A0 [A1 A2]]; auto; [|eapply (ui_trans _ U); [| | |exact M2|]; eauto].
        split; [auto|]. split; auto. exact (ui_trans _ U _ _ _ A0 GM G2 A2 M2).
      + apply IH in H as [A0 [A1 A2]]; auto; [|exact (ui_trans _ U _ _ _ G0 G1 GM H0 M1)].
        split; [auto|]. split; auto. exact (ui_trans _ U _ _ _ G1 GM A0 M1 A1).
  Qed.
  Lemma get_last (p : past T B) b : get_index p Kbeta (-1) = Ok b -> exists rest, h_beta p = rest ++ [b].
  Proof.
    intros H. destruct (h_beta p) as [|a l] eqn:E0.
    - rewrite (get_index_empty p Kbeta (-1) E0) in H. discriminate.
    - destruct (exists_last (l := h_beta p)) as [rest [a' E]]; [rewrite E0; discriminate|].
      rewrite (get_index_spec p Kbeta rest a' E) in H. injection H as <-. exists rest. now rewrite <- E0.
  Qed.
  Lemma next_beta_range fuel m (p : past T B) n b lz e : next_beta fuel m p n = Ok (b, lz, e) -> temperatures (h_beta p) -> Forall good (h_beta p) ->
    exists rest b0, h_beta p = rest ++ [b0] /\ good b /\ nleb b0 b = true /\ nleb (nofZ 0) b = true /\ nleb b (nofZ 1) = true.
  Proof.
    unfold next_beta. intros H [Hr _ _] HG. pose proof (ui_0 _ U) as G0. pose proof (ui_1 _ U) as G3.
    apply bind_ok in H as [b0 [H0 H]]. apply get_last in H0 as [rest E].
    destruct (Hr b0) as [R0 R1]; [rewrite E; apply in_or_app; right; now left|].
    assert (G1 : good b0) by (rewrite E in HG; apply Forall_app in HG as [_ HG]; now inversion HG).
    exists rest, b0. split; [exact E|]. apply bind_ok in H as [e0 [_ H]]. apply bind_ok in H as [e1 [_ H]].
    destruct (nleb e0 n).
    - apply bind_ok in H as [? [_ H]]. apply bind_ok in H as [? [_ H]]. apply Ok_inj in H. injection H as <- <- <-.
      split; [auto|]. split; [|auto]. now apply (ui_refl _ U _ _ G1 G3 R1).
    - destruct (nleb n e1).
      + apply bind_ok in H as [[? ?] [_ H]]. apply bind_ok in H as [? [_ H]]. apply Ok_inj in H. injection H as <- <- <-.
        split; [auto|]. split; [auto|]. split; [apply (ui_01 _ U)|now apply (ui_refl _ U _ _ G1 G3 R1)].
      + apply bind_ok in H as [[b1 e2] [Hb H]]. apply bind_ok in H as [[? ?] [_ H]]. apply Ok_inj in H. injection H as <- <- <-.
        apply bisect_range in Hb as [A0 [A1 A2]]; auto; [|now apply (ui_refl _ U _ _ G1 G3 R1)].
        split; [auto|]. split; [auto|]. split; [exact (ui_trans _ U _ _ _ G0 G1 A0 R0 A1)|auto].
  Qed.

  Lemma temperatures_snoc l b0 b : temperatures (l ++ [b0]) -> Forall good (l ++ [b0]) -> good b -> nleb b0 b = true -> nleb b (nofZ 1) = true -> temperatures ((l ++ [b0]) ++ [b]).
  Proof.
    intros [H1 H2 H3] HG GB Hb Hb1. destruct (H1 b0) as [R0 R1]; [apply in_or_app; right; now left|].
    pose proof (ui_0 _ U) as G0. pose proof (ui_1 _ U) as G3. 
    assert (GA : forall i, i < length (l ++ [b0]) -> good (nth i (l ++ [b0]) (nofZ 0))) by (intros; rewrite Forall_forall in HG; apply HG, nth_In; auto).
    assert (G1 : good b0) by (apply Forall_app in HG as [_ HG]; now inversion HG).
    assert (Hn : nth (length l) (l ++ [b0]) (nofZ 0) = b0) by (rewrite app_nth2, Nat.sub_diag; auto).
    constructor.
    - intros c Hc. apply in_app_iff in Hc as [Hc|[<-|[]]]; auto. split; [exact (ui_trans _ U _ _ _ G0 G1 GB R0 Hb)|auto].
    - intros c rest E. destruct l as [|a l]; cbn in E; injection E as <- _; apply (H2 _ _ eq_refl).
    - intros i j Hij. rewrite !app_length in Hij. cbn in Hij.
      assert (LL : length (l ++ [b0]) = S (length l)) by (rewrite app_length; cbn; lia).
      destruct (Nat.eq_dec j (S (length l))) as [->|Hj].
      + rewrite (app_nth2 _ _ _ (n := S (length l))), LL, Nat.sub_diag by lia. cbn [nth].
        destruct (Nat.eq_dec i (S (length l))) as [->|Hi].
        * rewrite app_nth2, LL, Nat.sub_diag by lia. cbn. now apply (ui_refl _ U _ _ GB G3 Hb1).
        * rewrite app_nth1 by lia. assert (Q := H3 i (length l) ltac:(lia)). rewrite Hn in Q. apply (ui_trans _ U _ b0 _); auto. apply GA. lia.
      + rewrite 2!(app_nth1 (l ++ [b0]) [b]) by lia. apply H3. lia.
  Qed.
  Lemma temperatures_nil : temperatures (T:=T) [].
  Proof. constructor; [easy|discriminate|cbn; lia]. Qed.
  Lemma zeros_snoc l : Forall (eq (@nofZ T _ 0)) l -> temperatures (l ++ [nofZ 0]).
  Proof.
    intros H. assert (HF : Forall (eq (nofZ 0)) (l ++ [nofZ 0])) by (apply Forall_app; auto).
    rewrite Forall_forall in HF. destruct (ui_refl _ U _ _ (ui_0 _ U) (ui_1 _ U) (ui_01 _ U)) as [R0 _]. constructor.
    - intros b Hb. rewrite <- (HF b Hb). split; [exact R0|apply (ui_01 _ U)].
    - intros b rest E. symmetry. apply HF. rewrite E. now left.
    - intros i j Hij. rewrite <- (HF (nth i _ _)), <- (HF (nth j _ _)) by (apply nth_In; lia). exact R0.
  Qed.

  Notation reachable := (reachable W fair interrupts).
  (** the state of the ladder *)
  Definition ladder (s : sampler T C P) : Prop :=
    temperatures (h_beta (history_of s)) /\ Forall good (h_beta (history_of s)) /\
    (s_warmup s = true -> Forall (eq (nofZ 0)) (h_beta (history_of s))).
  Definition bounded (s : sampler T C P) : Prop := exists c rest b0, s_current s = Some c /\ h_beta (history_of s) = rest ++ [b0] /\ good (cu_beta c) /\
    nleb b0 (cu_beta c) = true /\ nleb (nofZ 0) (cu_beta c) = true /\ nleb (cu_beta c) (nofZ 1) = true.
  Lemma reachable_ladder s : reachable s -> ladder s.
  Proof.
    revert s. apply (reach_phases W fair interrupts ladder bounded bounded bounded).
    - intros o s H _. assert (E : s_particles s = new_particles).
      { unfold new_sampler in H. do 12 (apply bind_ok in H as [? [_ H]]). apply Ok_inj in H. now subst s. }
      unfold ladder, history_of. rewrite E. split; [apply temperatures_nil|split; constructor].
    - intros n m s IH. exact IH.
    - intros R s s' IH _ H. apply draw_facts in H as [[_ ->]|[_ (ps & sc & _ & _ & ->)]]; exact IH.
    - intros R i s s' IH _ Hw _ H.
      apply warmup_facts in H as (ps & x0 & u0 & xi & ldj0 & logp0 & logl0 & b0 & x & u & ldj & logp & logl & b & c & _ & _ & _ & _ & _ & _ & _ & -> & ->).
      destruct IH as [_ [IG IH]]. specialize (IH Hw). unfold ladder, history_of in *. cbn [s_particles particles_update p_past]. rewrite update_items. cbn [h_beta cu_beta].
      split; [now apply zeros_snoc|]. split; [apply Forall_app; split; [exact IG|constructor; [apply (ui_0 _ U)|constructor]]|]. intros _. apply Forall_app. auto.
    - intros s [IH [IG _]] _. split; [exact IH|]. split; [exact IG|discriminate].
    - intros fuel s s1 IH Hw H.
      apply reweight_facts in H as (c & beta & logz & ess & w0 & neff & w1 & idx & w2 & lf & u & x & ldj & logl & logp & b & c1 & _ & Hb & _ & _ & _ & _ & _ & _ & _ & _ & _ & -> & ->).
      split; [exact IH|]. destruct IH as [IH [IG _]]. apply next_beta_range in Hb as (rest & b0 & E & A0 & A1 & A2 & A3); auto.
      eexists. exists rest, b0. cbn [s_current cu_beta]. split; [reflexivity|]. auto 10.
    - intros R s s2 IH J Hw H. apply train_facts in H as (c2 & now & fl & un & ug & tg & Ec & _ & _ & ->). split; [exact IH|].
      destruct J as (c & rest & b0 & E1 & J). rewrite E1 in Ec. injection Ec as <-. exists c, rest, b0. auto.
    - intros R s s3 IH J _ Hw H.
      apply resample_facts in H as (c3 & w3 & idx3 & u3 & x3 & ldj3 & logl3 & logp3 & b3 & Ec & _ & _ & _ & _ & _ & _ & _ & _ & ->).
      split; [exact IH|]. destruct J as (c & rest & b0 & E1 & J). rewrite E1 in Ec. injection Ec as <-. eexists. exists rest, b0. cbn [with_current s_current cu_beta]. auto.
    - intros R s s4 IH J _ Hw H. apply mutate_facts in H as (c5 & b5 & ks & res & c' & Ec & _ & _ & _ & _ & -> & ->).
      split; [exact IH|]. destruct J as (c & rest & b0 & E1 & J). rewrite E1 in Ec. injection Ec as <-. eexists. exists rest, b0. cbn [s_current cu_beta]. auto.
    - intros s c [IH [IG _]] (c' & rest & b0 & E1 & E2 & J0 & J1 & J2 & J3) Hw Ec. rewrite E1 in Ec. injection Ec as <-.
      unfold ladder, history_of in *. cbn [with_particles s_particles particles_update p_past s_warmup]. rewrite Hw.
      rewrite update_items. cbn [h_beta]. rewrite E2 in *. split; [now apply temperatures_snoc|]. split; [apply Forall_app; auto|discriminate].
    - intros R s s' IH _ _ H. apply evidence_facts in H as (? & ? & ? & ? & ? & ? & _ & -> & _). exact IH.
    - intros s IH. unfold results_of, ladder, history_of in *. unfold compute_results. destruct (p_results (s_particles s)); [exact IH|].
      destruct (compute_logw_and_logz _ _ _) as [[? ?]|]; exact IH.
    - intros saved self IH _. exact IH.
    - intros s p IH _ _. exact IH.
  Qed.
End Beta.

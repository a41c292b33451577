(** * The progress bar shows what is recorded and changes nothing *)
From Coq Require Import ZArith List Bool Lia.
From Verif Require Import Num PyBase PyBaseFacts Tools Scaler Particles LogLike Geometry Mcmc SpecMcmc Flow Sampler ConfigFacts SpecReach SamplerFacts Reach LoopFacts TraceFacts EvidenceFacts Bar SpecBar.
Import ListNotations.
Set Bullet Behavior "Strict Subproofs".

Lemma latest_snoc {A} (l : list A) x : latest (l ++ [x]) = Some x.
Proof. unfold latest. now rewrite rev_app_distr. Qed.
Lemma index_snoc {A} (l : list A) x : of_option IndexError (py_index (l ++ [x]) (-1)) = Ok x.
Proof.
  unfold py_index. change (0 <=? -1)%Z with false. cbv iota. rewrite app_length. cbn [length]. replace (0 <=? -1 + Z.of_nat (length l + 1))%Z with true by (symmetry; apply Z.leb_le; lia).
  replace (Z.to_nat (-1 + Z.of_nat (length l + 1))) with (length l) by lia. rewrite nth_error_app2, Nat.sub_diag by lia. reflexivity.
Qed.

Section Kernels.
  Context {T B : Type} {NT : NumT T}.
  Variable env : kernel_env T B.
  (** what the bar shows after the steps of a kernel with outcome [o] *)
  Record after_steps (b b' : bar T) (o : mresult T B) : Prop := {
    as_calls : forall z, calls_shown b z -> calls_shown b' (z + o_calls o);
    as_acc : bar_info b' Bacc = Some (Float (o_accept o));
    as_steps : bar_info b' Bsteps = Some (Int (o_steps o));
    as_logp : bar_info b' BlogP = Some (Float (nmean (map2 nadd (w_logl (o_w o)) (w_logp (o_w o)))));
    as_eff : bar_info b' Beff = Some (Float (ndiv (o_sigma o) (ndiv (nfrac 238 100) (nsqrt (nofZ (Z.of_nat (k_n_dim env)))))));
    as_beta : bar_info b' Bbeta = bar_info b Bbeta;
    as_ess : bar_info b' BESS = bar_info b BESS;
    as_logz : bar_info b' BlogZ = bar_info b BlogZ;
    as_count : bar_count b' = bar_count b }.

  Lemma loop_bar step rand : forall fuel i st b z st' i', calls_shown b z -> kernel_loop env step rand fuel i st = Ok (st', i') ->
    exists b', kernel_loop_bar env step rand fuel i st b = Ok (st', i', b') /\ calls_shown b' (z + (m_calls st' - m_calls st)) /\
      bar_info b' Bacc = Some (Float (nmean (m_alpha st'))) /\ bar_info b' Bsteps = Some (Int i') /\
      bar_info b' BlogP = Some (Float (nmean (map2 nadd (w_logl (m_w st')) (w_logp (m_w st'))))) /\
      bar_info b' Beff = Some (Float (ndiv (m_sigma st') (ndiv (nfrac 238 100) (nsqrt (nofZ (Z.of_nat (k_n_dim env))))))) /\
      bar_info b' Bbeta = bar_info b Bbeta /\ bar_info b' BESS = bar_info b BESS /\ bar_info b' BlogZ = bar_info b BlogZ /\ bar_count b' = bar_count b.
  Proof.
    induction fuel as [|fuel IH]; intros i st b z st' i' Hz; cbn [kernel_loop kernel_loop_bar]; intros H; apply bind_ok in H as [[st1 stop] [H1 H]]; rewrite H1; cbn [bind]; unfold show_step; unfold calls_shown in Hz; rewrite Hz; cbn [bind].
    all: match goal with |- context [update_stats ?b0 ?l] => set (b1 := update_stats b0 l) end.
    all: assert (Done : Ok (st1, (i + 1)%Z) = Ok (st', i') -> exists b', Ok (st1, (i + 1)%Z, b1) = Ok (st', i', b') /\ calls_shown b' (z + (m_calls st' - m_calls st)) /\
      bar_info b' Bacc = Some (Float (nmean (m_alpha st'))) /\ bar_info b' Bsteps = Some (Int i') /\
      bar_info b' BlogP = Some (Float (nmean (map2 nadd (w_logl (m_w st')) (w_logp (m_w st'))))) /\
      bar_info b' Beff = Some (Float (ndiv (m_sigma st') (ndiv (nfrac 238 100) (nsqrt (nofZ (Z.of_nat (k_n_dim env))))))) /\
      bar_info b' Bbeta = bar_info b Bbeta /\ bar_info b' BESS = bar_info b BESS /\ bar_info b' BlogZ = bar_info b BlogZ /\ bar_count b' = bar_count b)
      by (intros Q; apply Ok_inj in Q; injection Q as <- <-; exists b1; repeat split; reflexivity).
    all: destruct stop; [exact (Done H)|]; destruct (k_n_max env <=? i + 1)%Z; [exact (Done H)|].
    - discriminate.
    - destruct (IH _ _ b1 (z + (m_calls st1 - m_calls st))%Z _ _ eq_refl H) as (b' & Q & Qc & Q1 & Q2 & Q3 & Q4 & Q5 & Q6 & Q7 & Q8). exists b'. split; [exact Q|].
      split; [replace (z + (m_calls st' - m_calls st))%Z with (z + (m_calls st1 - m_calls st) + (m_calls st' - m_calls st1))%Z by lia; exact Qc|]. auto 10.
  Qed.
  Lemma loop_bar_only step rand : forall fuel i st b st' i' b', kernel_loop_bar env step rand fuel i st b = Ok (st', i', b') -> kernel_loop env step rand fuel i st = Ok (st', i').
  Proof.
    induction fuel as [|fuel IH]; intros i st b st' i' b'; cbn [kernel_loop kernel_loop_bar]; intros H; apply bind_ok in H as [[st1 stop] [H1 H]]; apply bind_ok in H as [b1 [_ H]]; rewrite H1; cbn [bind];
      destruct stop; try (apply Ok_inj in H; congruence); destruct (k_n_max env <=? i + 1)%Z; try (apply Ok_inj in H; congruence); [discriminate|eauto].
  Qed.

  (** the kernels with the bar *)
  Definition kernel_bar (k : kernel) : geometry T -> T -> kstate T B -> (Z -> step_rand T B) -> bar T -> res (mresult T B * bar T) :=
    match k with PPCN => preconditioned_pcn_bar env | PRWM => preconditioned_rwm_bar env | PCN => pcn_bar env | RWM => rwm_bar env end.
  Lemma finish_bar step rand fuel st b z o : calls_shown b z -> m_calls st = 0%Z -> (let! (st', i') := kernel_loop env step rand fuel 0 st in Ok (finish st' i')) = Ok o ->
    exists b', (let! (st', i', b') := kernel_loop_bar env step rand fuel 0 st b in Ok (finish st' i', b')) = Ok (o, b') /\ after_steps b b' o.
  Proof.
    intros Hz H0 H. apply bind_ok in H as [[st' i'] [H1 H]]. apply Ok_inj in H. subst o.
    destruct (loop_bar _ _ _ _ _ b z _ _ Hz H1) as (b' & Q & Qc & Q1 & Q2 & Q3 & Q4 & Q5 & Q6 & Q7 & Q8). exists b'. rewrite Q. split; [reflexivity|].
    constructor; cbn [finish o_calls o_accept o_steps o_w o_sigma]; auto. intros z' Hz'. unfold calls_shown in *. rewrite Hz in Hz'. injection Hz' as <-. rewrite Qc. do 2 f_equal. lia.
  Qed.
  Lemma kernel_with_bar k g ps s rand b z o : calls_shown b z -> kernel_fun k env g ps s rand = Ok o -> exists b', kernel_bar k g ps s rand b = Ok (o, b') /\ after_steps b b' o.
  Proof.
    intros Hz. destruct k; cbn [kernel_fun kernel_bar]; unfold preconditioned_pcn, preconditioned_pcn_bar, preconditioned_rwm, preconditioned_rwm_bar, pcn, pcn_bar, rwm, rwm_bar; cbv zeta; intros H;
      repeat match goal with
      | H : (let (_, _) := ?e in _) = _ |- _ => destruct e
      | H : (let! x := ?m in _) = Ok _ |- exists b', bind ?m _ = _ /\ _ => let v := fresh in let E := fresh in apply bind_ok in H as [v [E H]]; rewrite E; cbn [bind]
      end.
    all: first [exact (finish_bar _ _ _ _ _ _ _ Hz eq_refl H)|idtac].
    all: eapply finish_bar; [exact Hz|reflexivity|exact H].
  Qed.
  Lemma kernel_bar_only k g ps s rand b o b' : kernel_bar k g ps s rand b = Ok (o, b') -> kernel_fun k env g ps s rand = Ok o.
  Proof.
    destruct k; cbn [kernel_fun kernel_bar]; unfold preconditioned_pcn, preconditioned_pcn_bar, preconditioned_rwm, preconditioned_rwm_bar, pcn, pcn_bar, rwm, rwm_bar; cbv zeta; intros H;
      repeat match goal with
      | H : (let (_, _) := ?e in _) = _ |- _ => destruct e
      | H : (let! x := ?m in _) = Ok _ |- bind ?m _ = _ => let v := fresh in let E := fresh in apply bind_ok in H as [v [E H]]; rewrite E; cbn [bind]
      end.
    all: apply bind_ok in H as [[[st' i'] b1] [E H]]; apply loop_bar_only in E; rewrite E; cbn [bind]; apply Ok_inj in H; congruence.
  Qed.
End Kernels.

Section Run.
  Context {T C P Opt : Type} {NT : NumT T}.
  Notation B := (list C).
  Variable W : world T C P Opt.
  Implicit Types s : sampler T C P.

  (** ** Warm-up *)
  Definition shows (s : sampler T C P) (b : bar T) : Prop := displays (history_of s) b /\ displays_efficiency (c_n_dim (s_cfg s)) (history_of s) b.
  (** the number of effective particles, as a float, is a number (sampler.py:467, 479) *)
  Definition whole (s : sampler T C P) : Prop := ntrunc (nofZ (s_n_effective s) : T) <> None.
  Lemma batch_with_bar R i s b s' : whole s -> warmup_batch W R i s = Ok s' ->
    exists b' c, warmup_batch_bar W R i s b = Ok (s', b') /\ shows s' b' /\ s_current s' = Some c /\ s_calls s' = cu_calls c /\ latest (h_calls (history_of s')) = Some (s_calls s') /\
      calls_shown b' (s_calls s') /\ bar_count b' = (bar_count b + 1)%Z /\ s_t s' = (s_t s + 1)%Z /\ latest (h_efficiency (history_of s')) = Some (nofZ 1) /\ s_n_effective s' = s_n_effective s /\ bar_info b' Beff = Some (Float (nofZ 1)).
  Proof.
    intros WH H. unfold warmup_batch_bar. rewrite H. cbn [bind].
    apply warmup_facts in H as (ps & x0 & u0 & xi & ldj0 & logp0 & logl0 & b0 & x & u & ldj & logp & logl & bb & c & _ & _ & _ & _ & _ & _ & _ & Ec & ->).
    unfold show_recorded, get_index, history_of. cbn [s_particles particles_update p_past s_current s_calls s_t]. rewrite update_items. cbn [lookup h_calls h_beta h_ess h_logz h_logp h_logl h_accept h_steps h_efficiency].
    rewrite !index_snoc. cbn [bind]. destruct (ntrunc (cu_ess c)) as [z|] eqn:Ez; [|subst c; cbn [cu_ess] in Ez; now apply WH in Ez].
    match goal with |- context [of_option ValueError ?m] => replace m with (Some z) by (symmetry; exact Ez) end. cbn [of_option bind].
    eexists _, c. split; [reflexivity|]. split.
    { split; [|intros _; unfold history_of; cbn [s_particles particles_update p_past]; rewrite ?update_items; cbn [h_efficiency]; rewrite latest_snoc; eexists; split; [reflexivity|reflexivity]]. unfold history_of. cbn [s_particles particles_update p_past]. rewrite ?update_items. constructor; cbn [h_beta h_ess h_logz h_logl h_logp h_accept h_steps]; rewrite ?latest_snoc; eauto 10. }
    subst c. cbn [cu_calls cu_efficiency]. rewrite !latest_snoc. repeat split; reflexivity.
  Qed.

  (** ** Iterations *)
  Lemma bisect_int fuel m (p : past T B) n : forall lo hi be e, bisect fuel m p n lo hi = Ok (be, e) -> ntrunc e <> None.
  Proof.
    induction fuel as [|fuel IH]; intros lo hi be e; cbn [bisect]; [discriminate|]. intros H. apply bind_ok in H as [e0 [He H]]. destruct (_ || _).
    - apply bind_ok in H as [? [Q H]]. apply Ok_inj in H. injection H as _ <-. intros E. rewrite E in Q. discriminate.
    - destruct (nltb _ _); eauto.
  Qed.
  Lemma next_beta_int fuel m (p : past T B) n be z e : next_beta fuel m p n = Ok (be, z, e) -> ntrunc e <> None.
  Proof.
    unfold next_beta. intros H. apply bind_ok in H as [b0 [_ H]]. apply bind_ok in H as [e0 [_ H]]. apply bind_ok in H as [e1 [_ H]]. destruct (nleb e0 n); [|destruct (nleb n e1)].
    - apply bind_ok in H as [? [_ H]]. apply bind_ok in H as [? [Q H]]. apply Ok_inj in H. injection H as _ _ <-. intros E. rewrite E in Q. discriminate.
    - apply bind_ok in H as [[? ?] [_ H]]. apply bind_ok in H as [? [Q H]]. apply Ok_inj in H. injection H as _ _ <-. intros E. rewrite E in Q. discriminate.
    - apply bind_ok in H as [[b2 e2] [Q H]]. apply bind_ok in H as [[? ?] [_ H]]. apply Ok_inj in H. injection H as _ _ <-. eapply bisect_int; eauto.
  Qed.

  Lemma mutate_with_bar R s b z s' : calls_shown b z -> mutate W R s = Ok s' ->
    exists o b', mutate_bar W R s b = Ok (s', b') /\ after_steps (kernel_env_of W s) b b' o /\
      kernel_fun (kernel_of (s_cfg s)) (kernel_env_of W s) (if c_preconditioned (s_cfg s) then s_theta_geometry s else s_u_geometry s) (s_scale s)
        {| s_u := match s_current s with Some c => cu_u c | None => [] end; s_x := match s_current s with Some c => cu_x c | None => [] end;
           s_logdetj := match s_current s with Some c => cu_logdetj c | None => [] end; s_logl := match s_current s with Some c => cu_logl c | None => [] end;
           s_logp := match s_current s with Some c => cu_logp c | None => [] end; s_blobs := if s_have_blobs s then match s_current s with Some c => cu_blobs c | None => None end else None;
           s_beta := match s_current s with Some c => cu_beta c | None => nofZ 0 end |} (ir_step (rn_iter R (s_t s))) = Ok o.
  Proof.
    intros Hz H. pose proof H as H'. apply mutate_facts in H' as (c & bl & ks & o & c' & Hc & Hb & -> & Hk & _). unfold mutate_bar. rewrite Hc. cbn [of_option bind].
    assert (Eb : (if s_have_blobs s then let! b := of_option AttributeError (cu_blobs c) in Ok (Some b) else Ok None) = Ok bl).
    { destruct (s_have_blobs s); [destruct Hb as [-> Hb]; destruct (cu_blobs c); [reflexivity|now destruct Hb]|now subst bl]. }
    rewrite Eb. cbn [bind].
    assert (Eb' : (if s_have_blobs s then cu_blobs c else None) = bl) by (destruct (s_have_blobs s); [now destruct Hb|now symmetry]).
    destruct (kernel_with_bar _ _ _ _ _ _ b z o Hz Hk) as (b' & Q1 & Q2). exists o, b'. rewrite Eb'. split; [|split; [exact Q2|exact Hk]].
    unfold kernel_of, kernel_bar in Q1. destruct (c_preconditioned (s_cfg s)), (c_sample (s_cfg s)); cbv zeta; rewrite Q1; cbn [bind]; rewrite H; reflexivity.
  Qed.

  Lemma iteration_with_bar fuel R s b s' c e : s_current s = Some c -> calls_shown b (cu_calls c + e) -> iteration W fuel R s = Ok s' ->
    exists b' c', iteration_bar W fuel R s b = Ok (s', b') /\ shows s' b' /\ s_current s' = Some c' /\ s_calls s' = cu_calls c' /\ latest (h_calls (history_of s')) = Some (s_calls s') /\
      calls_shown b' (s_calls s' + e) /\ bar_count b' = (bar_count b + 1)%Z /\ s_t s' = (s_t s + 1)%Z /\
      bar_info b' Beff = Some (Float (ndiv (s_scale s') (ndiv (nfrac 238 100) (nsqrt (nofZ (Z.of_nat (c_n_dim (s_cfg s')))))))) /\
      latest (h_efficiency (history_of s')) = Some (ndiv (s_scale s') (initial_scale (c_n_dim (s_cfg s')))).
  Proof.
    intros Hc Hz H. apply iteration_facts in H as (s1 & s2 & s3 & s4 & c4 & H1 & H2 & H3 & H4 & Hc4 & ->).
    unfold iteration_bar, reweight_bar. rewrite H1. cbn [bind].
    pose proof H1 as R1. apply reweight_facts in R1 as (c0 & beta & logz & ess & w0 & neff & w1 & idx & w2 & left & u & x & ldj & logl & logp & bb & c1 & K0 & K1 & _ & _ & _ & _ & _ & _ & _ & _ & _ & Ec1 & E1).
    rewrite Hc in K0. injection K0 as <-. assert (Hc1 : s_current s1 = Some c1) by now rewrite E1. rewrite Hc1. cbn [of_option bind].
    assert (Ee : cu_ess c1 = ess) by now rewrite Ec1. pose proof (next_beta_int _ _ _ _ _ _ _ K1) as K2. rewrite <- Ee in K2. destruct (ntrunc (cu_ess c1)) as [z|] eqn:Ez; [|now destruct K2]. cbn [of_option bind].
    rewrite H2. cbn [bind]. rewrite H3. cbn [bind].
    pose proof H2 as R2. apply train_facts in R2 as (c1' & now & fl & un & ug & tg & K3 & _ & _ & E2). rewrite Hc1 in K3. injection K3 as <-.
    pose proof H3 as R3. apply resample_facts in R3 as (c2 & w & ix & u3 & x3 & d3 & l3 & p3 & b3 & K4 & _ & _ & _ & _ & _ & _ & _ & _ & E3).
    set (b1 := update_stats (update_iter b) _).
    assert (E2c : exists c2', s_current s2 = Some c2' /\ cu_calls c2' = cu_calls c /\ cu_ess c2' = cu_ess c1 /\ cu_beta c2' = cu_beta c1 /\ cu_logz c2' = cu_logz c1).
    { rewrite E2. cbn [s_current]. eexists. split; [reflexivity|]. rewrite ?Ec1. repeat split. }
    destruct E2c as (c2' & K5 & K6 & K7 & K8 & K9). rewrite K4 in K5. injection K5 as <-.
    set (c3 := {| cu_u := u3 |}) in E3.
    assert (Hc3 : s_current s3 = Some c3) by now rewrite E3.
    assert (Hz1 : calls_shown b1 (cu_calls c + e)) by exact Hz.
    destruct (mutate_with_bar R s3 b1 _ s4 Hz1 H4) as (o & b' & Q1 & [A1 A2 A3 A4 A5 A6 A7 A8 A9] & Q3).
    rewrite Q1. cbn [bind]. rewrite Hc4. cbn [of_option bind].
    pose proof H4 as R4. apply mutate_facts in R4 as (c3' & bl & ks & o' & c4' & K10 & Hb & -> & Hk & K11 & Ec4 & E4).
    assert (o' = o) as ->.
    { rewrite K10 in Q3. assert (Eb' : (if s_have_blobs s3 then cu_blobs c3' else None) = bl) by (destruct (s_have_blobs s3); [now destruct Hb|now symmetry]). rewrite Eb' in Q3. congruence. }
    rewrite Hc3 in K10. injection K10 as <-. rewrite Hc4 in K11. injection K11 as <-.
    exists b', c4. split; [reflexivity|].
    assert (F : cu_beta c4 = cu_beta c1 /\ cu_ess c4 = cu_ess c1 /\ cu_logz c4 = cu_logz c1 /\ cu_calls c4 = (cu_calls c + o_calls o)%Z /\ cu_accept c4 = o_accept o /\ cu_steps c4 = o_steps o /\
      cu_logl c4 = w_logl (o_w o) /\ cu_logp c4 = w_logp (o_w o) /\ cu_efficiency c4 = ndiv (o_sigma o) (initial_scale (c_n_dim (s_cfg s3)))).
    { rewrite Ec4. unfold c3. cbn [cu_beta cu_ess cu_logz cu_calls cu_accept cu_steps cu_logl cu_logp cu_efficiency]. rewrite K6, K7, K8, K9. repeat split. }
    destruct F as (F1 & F2 & F3 & F4 & F5 & F6 & F7 & F8 & F9).
    unfold history_of. cbn [with_particles s_particles particles_update p_past s_current s_calls s_t s_scale s_cfg]. rewrite update_items. cbn [h_calls h_efficiency]. rewrite !latest_snoc.
    assert (S4 : s_calls s4 = cu_calls c4 /\ s_t s4 = (s_t s + 1)%Z /\ s_scale s4 = o_sigma o /\ s_cfg s4 = s_cfg s3).
    { rewrite E4. cbn [s_calls s_t s_scale s_cfg]. rewrite E3, E2, E1. repeat split. }
    destruct S4 as (S1 & S2 & S3 & S5). split.
    { split; [|intros RT; unfold history_of; cbn [with_particles s_particles particles_update p_past s_cfg] in RT |- *; rewrite update_items; cbn [h_efficiency]; rewrite latest_snoc; eexists; split; [reflexivity|];
        rewrite A5, F9; unfold initial_scale; rewrite S5 in RT; rewrite RT; reflexivity].
      unfold history_of. cbn [with_particles s_particles particles_update p_past]. rewrite update_items. constructor; cbn [h_beta h_ess h_logz h_logl h_logp h_accept h_steps]; rewrite ?latest_snoc.
      - eexists. split; [reflexivity|]. rewrite A6, F1. reflexivity.
      - eexists _, z. split; [reflexivity|]. split; [now rewrite F2|]. rewrite A7. reflexivity.
      - eexists. split; [reflexivity|]. rewrite A8, F3. reflexivity.
      - eexists _, _. split; [reflexivity|]. split; [reflexivity|]. left. rewrite A4, F7, F8. reflexivity.
      - eexists. split; [reflexivity|]. rewrite A2, F5. reflexivity.
      - eexists. split; [reflexivity|]. rewrite A3, F6. reflexivity. }
    split; [exact Hc4|]. split; [exact S1|]. split; [now rewrite S1|]. split.
    { rewrite S1, F4. replace (cu_calls c + o_calls o + e)%Z with (cu_calls c + e + o_calls o)%Z by lia. now apply A1. }
    split; [exact A9|]. split; [exact S2|]. split; [rewrite A5, S3, S5; reflexivity|rewrite F9, S3, S5; reflexivity].
  Qed.
  Lemma mutate_bar_only R s b s' b' : mutate_bar W R s b = Ok (s', b') -> mutate W R s = Ok s'.
  Proof.
    unfold mutate_bar. intros H. apply bind_ok in H as [c [_ H]]. cbv zeta in H. apply bind_ok in H as [bl [_ H]]. apply bind_ok in H as [[o b1] [_ H]]. apply bind_ok in H as [s1 [E H]]. apply Ok_inj in H. congruence.
  Qed.
  Lemma iteration_bar_only fuel R s b s' b' : iteration_bar W fuel R s b = Ok (s', b') -> iteration W fuel R s = Ok s'.
  Proof.
    unfold iteration_bar, reweight_bar, iteration. intros H. apply bind_ok in H as [[s1 b1] [H1 H]]. cbv zeta in H1. apply bind_ok in H1 as [s1' [H1 Q]]. apply bind_ok in Q as [? [_ Q]]. apply bind_ok in Q as [? [_ Q]]. apply Ok_inj in Q. injection Q as -> _.
    rewrite H1. cbn [bind]. apply bind_ok in H as [s2 [-> H]]. cbn [bind]. apply bind_ok in H as [s3 [-> H]]. cbn [bind]. apply bind_ok in H as [[s4 b4] [H4 H]]. apply mutate_bar_only in H4. rewrite H4. cbn [bind].
    apply bind_ok in H as [c [-> H]]. cbn [bind]. apply Ok_inj in H. congruence.
  Qed.

  (** ** Loops and runs *)
  Lemma checkpoint_ok save t0 s s' : snd (checkpoint save t0 s) = Ok s' -> s' = s.
  Proof. unfold checkpoint. destruct save as [k|]; [destruct (k =? 0)%Z; [discriminate|]; destruct (_ && _)|]; cbn [snd]; intros Q; apply Ok_inj in Q; now symmetry. Qed.

  Lemma warmup_loop_with_bar save t0 R : forall k i s b s', whole s -> snd (warmup_loop W save t0 R i k s) = Ok s' ->
    exists b', warmup_loop_bar W save t0 R i k s b = Ok (s', b') /\ bar_count b' = (bar_count b + (s_t s' - s_t s))%Z /\
      ((k = 0%nat /\ s' = s /\ b' = b) \/ (shows s' b' /\ exists c, s_current s' = Some c /\ s_calls s' = cu_calls c /\ calls_shown b' (s_calls s') /\ latest (h_calls (history_of s')) = Some (s_calls s'))).
  Proof.
    induction k as [|k IH]; intros i s b s' WH; cbn [warmup_loop warmup_loop_bar]; intros H.
    - cbn [snd] in H. apply Ok_inj in H. subst s'. exists b. split; [reflexivity|]. split; [lia|]. left. auto.
    - apply tbind_ok in H as (s1 & H1 & H). rewrite H1. apply checkpoint_ok in H1. subst s1. cbn [bind]. apply tbind_ok in H as (s1 & H1 & H). cbn [lift snd] in H1.
      destruct (batch_with_bar R i s b s1 WH H1) as (b1 & c & Q1 & Q2 & Q3 & Q4 & Q5 & Q6 & Q7 & Q8 & _ & Q9 & _). rewrite Q1. cbn [bind].
      assert (WH1 : whole s1) by (unfold whole; now rewrite Q9). destruct (IH _ _ b1 _ WH1 H) as (b' & E1 & E2 & E3). exists b'. split; [exact E1|]. split; [lia|]. right. destruct E3 as [(_ & -> & ->)|E3]; [|exact E3]. split; [exact Q2|]. exists c. auto.
  Qed.
  Lemma warmup_with_bar save t0 R s b s' : (s_warmup s = true -> whole s) -> snd (warmup W save t0 R s) = Ok s' ->
    exists b', warmup_bar W save t0 R s b = Ok (s', b') /\ bar_count b' = (bar_count b + (s_t s' - s_t s))%Z /\
      (if s_warmup s then n_batches (s_cfg s) <> 0%nat -> shows s' b' /\ exists c, s_current s' = Some c /\ s_calls s' = cu_calls c /\ calls_shown b' (s_calls s') /\ latest (h_calls (history_of s')) = Some (s_calls s')
       else s' = s /\ b' = b).
  Proof.
    unfold warmup, warmup_bar. intros WH. destruct (s_warmup s).
    - destruct (Nat.eqb _ _); [discriminate|]. intros H. apply tbind_ok in H as (s1 & H1 & H). cbn [snd] in H. apply Ok_inj in H. subst s'.
      destruct (warmup_loop_with_bar save t0 R _ _ _ b _ (WH eq_refl) H1) as (b' & Q1 & Q2 & Q3). rewrite Q1. cbn [bind]. exists b'. split; [reflexivity|]. split; [exact Q2|]. intros NB. destruct Q3 as [[Q3 _]|Q3]; [contradiction|exact Q3].
    - cbn [snd]. intros H. apply Ok_inj in H. subst s'. exists b. split; [reflexivity|]. split; [lia|]. auto.
  Qed.

  Lemma smc_with_bar bfuel save t0 R e : forall fuel s b s' c, s_current s = Some c -> calls_shown b (cu_calls c + e) -> snd (smc_loop W fuel bfuel save t0 R s) = Ok s' ->
    exists b', smc_loop_bar W fuel bfuel save t0 R s b = Ok (s', b') /\ bar_count b' = (bar_count b + (s_t s' - s_t s))%Z /\
      ((s' = s /\ b' = b) \/ (shows s' b' /\ calls_shown b' (s_calls s' + e) /\ latest (h_calls (history_of s')) = Some (s_calls s'))).
  Proof.
    induction fuel as [|fuel IH]; intros s b s' c Hc Hz; cbn [smc_loop smc_loop_bar]; destruct (not_termination s) as [[|]|]; try discriminate; cbn [bind]; intros H.
    1, 3: cbn [snd] in H; apply Ok_inj in H; subst s'; exists b; split; [reflexivity|]; split; [lia|]; left; auto.
    apply tbind_ok in H as (s1 & H1 & H). rewrite H1. apply checkpoint_ok in H1. subst s1. cbn [bind]. apply tbind_ok in H as (s1 & H1 & H). cbn [lift snd] in H1.
    destruct (iteration_with_bar bfuel R s b s1 c e Hc Hz H1) as (b1 & c1 & Q1 & Q2 & Q3 & Q4 & Q5 & Q6 & Q7 & Q8 & _). rewrite Q1. cbn [bind]. rewrite Q4 in Q6.
    destruct (IH _ b1 _ c1 Q3 Q6 H) as (b' & E1 & E2 & E3). exists b'. split; [exact E1|]. split; [lia|]. right. destruct E3 as [(-> & ->)|E3]; [|exact E3]. rewrite Q4 at 1. auto.
  Qed.

  Definition flow_evidence (n : Z) (cfg : config T) : bool := (0 <? n)%Z && c_preconditioned cfg.
  Lemma evidence_with_bar R s b s' n : s_n_evidence s = Some n -> final_evidence W R s = Ok s' ->
    exists b', final_evidence_bar W R s b = Ok (s', b') /\ bar_count b' = bar_count b /\ s_t s' = s_t s /\ history_of s' = history_of s /\ (forall k, k <> Bcalls -> bar_info b' k = bar_info b k) /\ s_cfg s' = s_cfg s /\
      (if flow_evidence n (s_cfg s) then calls_shown b' (s_calls s') else s_calls s' = s_calls s /\ b' = b).
  Proof.
    intros En H. unfold final_evidence_bar. pose proof H as Q. unfold final_evidence in Q. rewrite En in Q. cbn [of_option bind] in Q. rewrite En. cbn [of_option bind]. rewrite H. cbn [bind].
    eexists. split; [reflexivity|]. unfold flow_evidence. destruct ((0 <? n)%Z && c_preconditioned (s_cfg s)).
    - unfold compute_evidence in Q. destruct (rn_flow R (s_flow s) (Z.to_nat n)) as [tq lq]. apply bind_ok in Q as [[xq ld] [_ Q]]. apply bind_ok in Q as [lp [_ Q]]. apply bind_ok in Q as [[ll bl] [_ Q]]. apply Ok_inj in Q. subst s'.
      repeat split; try reflexivity. intros k Hk. cbn [update_stats bar_info find_stat]. destruct k; try reflexivity. now destruct Hk.
    - apply bind_ok in Q as [[lw lz] [_ Q]]. apply Ok_inj in Q. subst s'. repeat split; reflexivity.
  Qed.
  Lemma displays_evidence s s' b b' : s_cfg s' = s_cfg s -> history_of s' = history_of s -> (forall k, k <> Bcalls -> bar_info b' k = bar_info b k) -> shows s b -> shows s' b'.
  Proof.
    intros E EH H [[D1 D2 D3 D4 D5 D6] D7]. unfold shows. rewrite E, EH. split; [constructor; rewrite H by discriminate; assumption|]. unfold displays_efficiency in *. rewrite H by discriminate. exact D7.
  Qed.

  (** the run from a bar that shows [z] calls *)
  Lemma run_from_with_bar a R s b z s' : calls_shown b z -> (s_warmup s = true -> n_batches (s_cfg s) <> 0%nat /\ whole s) -> snd (run_from W a R s) = Ok s' ->
    exists b', run_from_bar W a R s b = Ok (s', b') /\ bar_count b' = (bar_count b + (s_t s' - s_t s))%Z /\
      (s_t s' <> s_t s -> shows s' b' /\
        (s_warmup s = true \/ flow_evidence (ra_n_evidence a) (s_cfg s) = true -> calls_shown b' (s_calls s')) /\
        (s_warmup s = false -> flow_evidence (ra_n_evidence a) (s_cfg s) = false -> exists c, s_current s = Some c /\ calls_shown b' (s_calls s' + (z - cu_calls c)))).
  Proof.
    intros Hz NB H.
    assert (CF : s_cfg s' = s_cfg s).
    { destruct (run_from W a R s) as [evs r] eqn:ER. cbn [snd] in H. subst r. destruct (run_ends W (fun _ => True) true a R s evs s' ER) as (? & _ & _ & Q & _). exact Q. }
    unfold run_from, run_from_bar in *. cbv zeta in H |- *. apply tbind_ok in H as (s0 & H0 & H). cbn [lift snd] in H0. rewrite H0. cbn [bind].
    assert (F0 : s_t s0 = s_t s /\ s_warmup s0 = s_warmup s /\ s_current s0 = s_current s /\ s_cfg s0 = s_cfg s /\ s_n_evidence s0 = Some (ra_n_evidence a) /\ s_n_effective s0 = s_n_effective s).
    { unfold draw_prior in H0. destruct (s_prior_samples (set_targets _ _ s)); [apply Ok_inj in H0; subst s0; repeat split; reflexivity|]. apply bind_ok in H0 as [ps [_ H0]]. apply bind_ok in H0 as [sc [_ H0]]. apply Ok_inj in H0. subst s0. repeat split; reflexivity. }
    destruct F0 as (F1 & F2 & F3 & F4 & F5 & F6). assert (WH : s_warmup s0 = true -> whole s0) by (unfold whole; rewrite F2, F6; intros Q; exact (proj2 (NB Q))).
    apply tbind_ok in H as (s1 & H1 & H). destruct (warmup_with_bar _ _ _ _ b _ WH H1) as (b1 & Q1 & Q2 & Q3). rewrite Q1. cbn [bind].
    apply tbind_ok in H as (s2 & H2 & H). apply tbind_ok in H as (s3 & H3 & H). cbn [lift snd] in H3.
    assert (s3 = s') as -> by (destruct (ra_save_every a); cbn [snd] in H; now apply Ok_inj in H). clear H.
    assert (LC : exists c1, s_current s1 = Some c1).
    { destruct (ra_fuel a); cbn [smc_loop] in H2; unfold not_termination in H2; destruct (ess_at _ _ _); cbn [bind] in H2; try discriminate H2; destruct (s_current s1) as [c1|]; try discriminate H2; now exists c1. }
    destruct LC as [c1 Hc1].
    assert (G : exists e, calls_shown b1 (cu_calls c1 + e) /\ (if s_warmup s then e = 0%Z /\ shows s1 b1 /\ s_calls s1 = cu_calls c1 else s1 = s0 /\ b1 = b /\ exists c, s_current s = Some c /\ e = (z - cu_calls c)%Z)).
    { rewrite F2 in Q3. destruct (s_warmup s) eqn:Ew.
      - rewrite F4 in Q3. destruct (Q3 (proj1 (NB eq_refl))) as (D & c & E1 & E2 & E3 & _). rewrite Hc1 in E1. injection E1 as <-. exists 0%Z. rewrite Z.add_0_r, <- E2. auto.
      - destruct Q3 as [-> ->]. exists (z - cu_calls c1)%Z. split; [replace (cu_calls c1 + (z - cu_calls c1))%Z with z by lia; exact Hz|]. split; [reflexivity|]. split; [reflexivity|]. exists c1. now rewrite <- F3. }
    destruct G as (e & G1 & G2).
    destruct (smc_with_bar _ _ _ R e _ _ b1 _ c1 Hc1 G1 H2) as (b2 & E1 & E2 & E3). rewrite E1. cbn [bind].
    assert (EV : s_n_evidence s2 = Some (ra_n_evidence a)) by (rewrite (loop_targets _ _ _ _ _ _ _ _ H2), (warmup_targets _ _ _ _ _ _ H1); exact F5).
    destruct (evidence_with_bar R s2 b2 s' _ EV H3) as (b3 & K1 & K2 & K3 & K4 & K5 & K7 & K6). exists b3. split; [exact K1|]. split; [lia|].
    intros MV.
    assert (D : shows s2 b2 /\ calls_shown b2 (s_calls s2 + e)).
    { destruct E3 as [[-> ->]|(E3 & E4 & _)]; [|auto]. destruct (s_warmup s) eqn:Ew; [destruct G2 as (-> & G2 & G3); rewrite G3; auto|]. destruct G2 as (-> & -> & _). lia. }
    destruct D as [D1 D2]. split; [eapply displays_evidence; eauto|]. rewrite <- K7, CF in K6. split.
    - intros Q. destruct (flow_evidence _ _); [exact K6|]. destruct Q as [Q|Q]; [|discriminate]. rewrite Q in G2. destruct G2 as (-> & _), K6 as [K6 ->]. rewrite K6. now rewrite Z.add_0_r in D2.
    - intros Q1' Q2'. rewrite Q1' in G2. rewrite Q2' in K6. destruct G2 as (_ & _ & c & Hc & ->), K6 as [K6 ->]. exists c. split; [exact Hc|]. now rewrite K6.
  Qed.

  Lemma warmup_loop_bar_only save t0 R : forall k i s b s' b', warmup_loop_bar W save t0 R i k s b = Ok (s', b') -> snd (warmup_loop W save t0 R i k s) = Ok s'.
  Proof.
    induction k as [|k IH]; intros i s b s' b'; cbn [warmup_loop warmup_loop_bar]; intros H; [apply Ok_inj in H; cbn; congruence|].
    apply bind_ok in H as [s1 [H1 H]]. destruct (checkpoint save t0 s) as [ev r]. cbn [snd] in H1. subst r. cbn [tbind]. apply bind_ok in H as [[s2 b2] [H2 H]]. unfold warmup_batch_bar in H2. apply bind_ok in H2 as [s3 [H2 Q]].
    apply bind_ok in Q as [b3 [_ Q]]. apply Ok_inj in Q. injection Q as -> _. rewrite H2. cbn [lift tbind]. apply IH in H. destruct (warmup_loop W save t0 R (S i) k s2). exact H.
  Qed.
  Lemma smc_loop_bar_only bfuel save t0 R : forall fuel s b s' b', smc_loop_bar W fuel bfuel save t0 R s b = Ok (s', b') -> snd (smc_loop W fuel bfuel save t0 R s) = Ok s'.
  Proof.
    induction fuel as [|fuel IH]; intros s b s' b'; cbn [smc_loop smc_loop_bar]; intros H; apply bind_ok in H as [go [-> H]]; destruct go; try discriminate; try (apply Ok_inj in H; cbn; congruence).
    apply bind_ok in H as [s1 [H1 H]]. destruct (checkpoint save t0 s) as [ev r]. cbn [snd] in H1. subst r. cbn [tbind]. apply bind_ok in H as [[s2 b2] [H2 H]]. apply iteration_bar_only in H2. rewrite H2. cbn [lift tbind].
    apply IH in H. destruct (smc_loop W fuel bfuel save t0 R s2). exact H.
  Qed.
  Lemma run_from_bar_only a R s b s' b' : run_from_bar W a R s b = Ok (s', b') -> snd (run_from W a R s) = Ok s'.
  Proof.
    unfold run_from_bar, run_from. cbv zeta. intros H. apply bind_ok in H as [s0 [-> H]]. cbn [lift tbind]. apply bind_ok in H as [[s1 b1] [H1 H]].
    assert (Q1 : snd (warmup W (ra_save_every a) (s_t s) R s0) = Ok s1).
    { unfold warmup_bar in H1. unfold warmup. destruct (s_warmup s0); [|apply Ok_inj in H1; cbn; congruence]. destruct (Nat.eqb _ _); [discriminate|]. apply bind_ok in H1 as [[s2 b2] [H1 Q]]. apply Ok_inj in Q. apply warmup_loop_bar_only in H1.
      destruct (warmup_loop _ _ _ _ _ _ _). cbn [snd] in H1. subst r. cbn. congruence. }
    destruct (warmup W (ra_save_every a) (s_t s) R s0) as [ev1 r1]. cbn [snd] in Q1. subst r1. cbn [tbind]. apply bind_ok in H as [[s2 b2] [H2 H]]. apply smc_loop_bar_only in H2.
    destruct (smc_loop W _ _ _ _ R s1) as [ev2 r2]. cbn [snd] in H2. subst r2. cbn [tbind]. unfold final_evidence_bar in H. apply bind_ok in H as [n [_ H]]. apply bind_ok in H as [s3 [-> H]]. apply Ok_inj in H. injection H as -> _.
    cbn [lift tbind]. destruct (ra_save_every a); reflexivity.
  Qed.

  (** the counter of the current particles is the one last recorded *)
  Definition counted (s : sampler T C P) : Prop := forall c, s_current s = Some c -> latest (h_calls (history_of s)) = Some (cu_calls c).
  Lemma reweight_counted fuel s s1 : reweight fuel s = Ok s1 -> counted s -> counted s1.
  Proof.
    intros H K c1 Hc. apply reweight_facts in H as (c & beta & logz & ess & w0 & neff & w1 & idx & w2 & lf & u & x & ldj & logl & logp & b & c1' & Hc0 & _ & _ & _ & _ & _ & _ & _ & _ & _ & _ & E1 & ->).
    cbn [s_current] in Hc. injection Hc as <-. subst c1'. exact (K c Hc0).
  Qed.
  Lemma train_counted R s s2 : train W R s = Ok s2 -> counted s -> counted s2.
  Proof.
    intros H K c1 Hc. apply train_facts in H as (c & now & fl & un & ug & tg & Hc0 & _ & _ & ->). cbn [s_current] in Hc. injection Hc as <-. exact (K c Hc0).
  Qed.
  Lemma resample_counted R s s3 : resample R s = Ok s3 -> counted s -> counted s3.
  Proof.
    intros H K c1 Hc. apply resample_facts in H as (c & w3 & idx3 & u3 & x3 & ldj3 & logl3 & logp3 & b3 & Hc0 & _ & _ & _ & _ & _ & _ & _ & _ & ->). cbn [with_current s_current] in Hc. injection Hc as <-. exact (K c Hc0).
  Qed.
  Lemma new_counted o s : new_sampler W o = Ok s -> s_current s = None.
  Proof.
    unfold new_sampler. intros H. repeat (apply bind_ok in H as [? [_ H]]). apply Ok_inj in H. subst s. reflexivity.
  Qed.
  Lemma reachable_counted fair interrupts s : reachable W fair interrupts s -> counted s.
  Proof.
    induction 1 as [o s H _|? ? s _ IH|R s s' _ IH _ H|R i s s' _ _ _ _ _ H|s _ IH _|fuel R s s' _ _ _ _ _ H|R s s' _ IH _ _ H|s _ IH|saved self _ IH _ _|fuel s s1 _ IH _ _ H|fuel R s s1 s2 _ IH _ _ _ H H2|fuel R s s1 s2 s3 _ IH _ _ _ H H2 H3|fuel s s1 c p _ _ IH _ _ H _ _].
    - intros c Hc. rewrite (new_counted _ _ H) in Hc. discriminate.
    - exact IH.
    - apply draw_facts in H as [[_ ->]|[_ (ps & sc & _ & _ & ->)]]; exact IH.
    - intros c Hc. apply warmup_facts in H as (ps & x0 & u0 & xi & ldj0 & logp0 & logl0 & b0 & x & u & ldj & logp & logl & bb & c' & _ & _ & _ & _ & _ & _ & _ & Ec & ->). unfold history_of. cbn [s_particles particles_update p_past s_current] in Hc |- *. injection Hc as <-.
      rewrite update_items. cbn [h_calls]. apply latest_snoc.
    - exact IH.
    - intros c Hc. apply iteration_facts in H as (s1 & s2 & s3 & s4 & c4 & _ & _ & _ & _ & Hc4 & ->). unfold history_of. cbn [with_particles s_particles particles_update p_past s_current] in Hc |- *. rewrite Hc4 in Hc. injection Hc as <-.
      rewrite update_items. cbn [h_calls]. apply latest_snoc.
    - apply evidence_facts in H as (n & logz & err & calls & evals & hb & _ & -> & _). exact IH.
    - intros c. unfold results_of, history_of. assert (Q : p_past (snd (compute_results (s_particles s))) = p_past (s_particles s)) by (unfold compute_results; destruct (p_results (s_particles s)); [reflexivity|]; now destruct (compute_logw_and_logz _ _ _) as [[? ?]|]). destruct (compute_results (s_particles s)) as [r p]. cbn [snd] in Q |- *. cbn [with_particles s_particles s_current]. rewrite Q. apply IH.
    - exact IH.
    - eapply reweight_counted; eassumption.
    - eapply train_counted; [eassumption|]. eapply reweight_counted; eassumption.
    - eapply resample_counted; [eassumption|]. eapply train_counted; [eassumption|]. eapply reweight_counted; eassumption.
    - apply reweight_counted in H; [exact H|exact IH].
  Qed.

  Lemma index_latest {A} (l : list A) v : of_option IndexError (py_index l (-1)) = Ok v -> latest l = Some v.
  Proof.
    destruct l as [|a l] using rev_ind; [discriminate|]. rewrite index_snoc, latest_snoc. intros H. apply Ok_inj in H. now subst.
  Qed.

  Lemma run_with_bar a R s s' : (s_warmup s = true -> n_batches (s_cfg s) <> 0%nat /\ whole s) -> snd (run W a R s) = Ok s' ->
    exists b, run_bar W a R s = Ok (s', b) /\ bar_count b = (s_t s' - s_t s)%Z /\
      (s_t s' <> s_t s -> shows s' b /\
        (s_warmup s = true \/ flow_evidence (ra_n_evidence a) (s_cfg s) = true -> calls_shown b (s_calls s')) /\
        (s_warmup s = false -> flow_evidence (ra_n_evidence a) (s_cfg s) = false -> exists c, s_current s = Some c /\ calls_shown b (s_calls s' + (s_calls s - cu_calls c)))).
  Proof.
    intros NB H. unfold run_bar. destruct (run_from_with_bar a R s (first_bar s) (s_calls s) s' eq_refl NB H) as (b & E & K1 & K2). exists b. split; [exact E|]. split; [exact K1|exact K2].
  Qed.
  Lemma resumed_with_bar a R saved self s' : (forall c, s_current saved = Some c -> latest (h_calls (history_of saved)) = Some (cu_calls c)) -> (s_warmup saved = true -> n_batches (s_cfg saved) <> 0%nat /\ whole saved) ->
    snd (run_resumed W a R saved self) = Ok s' ->
    exists b, run_resumed_bar W a R saved self = Ok (s', b) /\ bar_count b = s_t s' /\ (s_t s' <> s_t saved -> shows s' b /\ calls_shown b (s_calls s')).
  Proof.
    intros CT NB H. unfold run_resumed in H. cbv zeta in H. apply tbind_ok in H as (s0 & H0 & H). cbn [lift snd] in H0. unfold run_resumed_bar. cbv zeta. unfold show_recorded.
    apply bind_ok in H0 as [v1 [E1 H0]]. apply bind_ok in H0 as [v2 [E2 H0]]. apply bind_ok in H0 as [v3 [E3 H0]]. apply bind_ok in H0 as [v4 [E4 H0]]. apply bind_ok in H0 as [v5 [E5 H0]].
    apply bind_ok in H0 as [v6 [E6 H0]]. apply bind_ok in H0 as [v7 [E7 H0]]. apply bind_ok in H0 as [v8 [E8 H0]]. apply bind_ok in H0 as [v9 [E9 H0]]. apply Ok_inj in H0. subst s0.
    rewrite E1, E2, E3, E4, E5, E6, E7, E8, E9. cbn [bind]. set (b0 := update_stats _ _).
    destruct (run_from_with_bar a R (load saved self) b0 v2 s' eq_refl NB H) as (b & E & K1 & K2). exists b. split; [exact E|]. split; [rewrite K1; cbn; lia|]. intros MV. destruct (K2 MV) as (K3 & K4 & K5). split; [exact K3|].
    destruct (s_warmup saved) eqn:Ew; [apply K4; left; exact Ew|]. destruct (flow_evidence (ra_n_evidence a) (s_cfg (load saved self))) eqn:Ef; [apply K4; now right|].
    destruct (K5 Ew eq_refl) as (c & Hc & K6). apply index_latest in E2. change (latest (h_calls (history_of saved)) = Some v2) in E2. rewrite (CT c Hc) in E2. injection E2 as <-. now rewrite Z.sub_diag, Z.add_0_r in K6.
  Qed.
  Lemma resumed_bar_only a R saved self s' b : run_resumed_bar W a R saved self = Ok (s', b) -> snd (run_resumed W a R saved self) = Ok s'.
  Proof.
    unfold run_resumed_bar, run_resumed, show_recorded. cbv zeta. intros H. apply bind_ok in H as [b0 [H0 H]]. apply run_from_bar_only in H.
    apply bind_ok in H0 as [v2 [E2 H0]]. apply bind_ok in H0 as [v1 [E1 H0]]. apply bind_ok in H0 as [v3 [E3 H0]]. apply bind_ok in H0 as [v3' [_ H0]]. apply bind_ok in H0 as [v4 [E4 H0]]. apply bind_ok in H0 as [v5 [E5 H0]].
    apply bind_ok in H0 as [v6 [E6 H0]]. apply bind_ok in H0 as [v7 [E7 H0]]. apply bind_ok in H0 as [v8 [E8 H0]]. apply bind_ok in H0 as [v9 [E9 H0]].
    rewrite E1, E2, E3, E4, E5, E6, E7, E8, E9. cbn [bind lift tbind]. destruct (run_from W a R (load saved self)). exact H.
  Qed.
  Lemma first_run_with_bar a R s s' : s_warmup s = true -> n_batches (s_cfg s) <> 0%nat -> whole s -> snd (run W a R s) = Ok s' ->
    exists b, run_bar W a R s = Ok (s', b) /\ bar_count b = (s_t s' - s_t s)%Z /\ (s_t s' <> s_t s -> shows s' b /\ calls_shown b (s_calls s')).
  Proof.
    intros Hw NB WH H. destruct (run_with_bar a R s s' (fun _ => conj NB WH) H) as (b & E & K1 & K2). exists b. split; [exact E|]. split; [exact K1|]. intros MV. destruct (K2 MV) as (K3 & K4 & _). auto.
  Qed.
  Lemma later_run_with_bar a R s s' : s_warmup s = false -> snd (run W a R s) = Ok s' ->
    exists b, run_bar W a R s = Ok (s', b) /\ bar_count b = (s_t s' - s_t s)%Z /\
      (s_t s' <> s_t s -> shows s' b /\ exists c, s_current s = Some c /\ calls_shown b (if flow_evidence (ra_n_evidence a) (s_cfg s) then s_calls s' else s_calls s' + (s_calls s - cu_calls c))%Z).
  Proof.
    intros Hw H. assert (HC : exists c, s_current s = Some c).
    { unfold run, run_from in H. cbv zeta in H. apply tbind_ok in H as (s0 & H0 & H). cbn [lift snd] in H0. apply tbind_ok in H as (s1 & H1 & H). apply tbind_ok in H as (s2 & H2 & _).
      apply draw_facts in H0. assert (F : s_warmup s0 = s_warmup s /\ s_current s0 = s_current s) by (destruct H0 as [[_ ->]|[_ (ps & sc & _ & _ & ->)]]; split; reflexivity). destruct F as [F1 F2].
      unfold warmup in H1. rewrite F1, Hw in H1. cbn [snd] in H1. apply Ok_inj in H1. subst s1. rewrite <- F2.
      destruct (ra_fuel a); cbn [smc_loop] in H2; unfold not_termination in H2; destruct (ess_at _ _ _); cbn [bind] in H2; try discriminate H2; destruct (s_current s0) as [c1|]; try discriminate H2; now exists c1. }
    assert (NB : s_warmup s = true -> n_batches (s_cfg s) <> 0%nat /\ whole s) by (rewrite Hw; discriminate).
    destruct (run_with_bar a R s s' NB H) as (b & E & K1 & K2). exists b. split; [exact E|]. split; [exact K1|]. intros MV. destruct (K2 MV) as (K3 & K4 & K5). split; [exact K3|].
    destruct (flow_evidence (ra_n_evidence a) (s_cfg s)); [|exact (K5 Hw eq_refl)]. destruct HC as [c Hc]. exists c. split; [exact Hc|]. apply K4. now right.
  Qed.

  (** a run that adds no iteration *)
  Lemma smc_still bfuel save t0 R : forall fuel s s', snd (smc_loop W fuel bfuel save t0 R s) = Ok s' -> (s_t s <= s_t s')%Z /\ (s_t s' = s_t s -> s' = s /\ not_termination s = Ok false).
  Proof.
    induction fuel as [|fuel IH]; intros s s'; cbn [smc_loop]; destruct (not_termination s) as [[|]|] eqn:N; try discriminate; intros H; try (apply Ok_inj in H; subst s'; split; [lia|auto]).
    apply tbind_ok in H as (s1 & H1 & H). apply checkpoint_ok in H1. subst s1. apply tbind_ok in H as (s1 & H1 & H). cbn [lift snd] in H1.
    apply iteration_count in H1 as (K & _). destruct (IH _ _ H) as [L _]. split; [|intros Q; exfalso]; lia.
  Qed.
  Lemma run_from_still a R s b s' : s_warmup s = false -> snd (run_from W a R s) = Ok s' -> s_t s' = s_t s ->
    exists b', run_from_bar W a R s b = Ok (s', b') /\ bar_count b' = bar_count b /\ history_of s' = history_of s /\ (forall k, k <> Bcalls -> bar_info b' k = bar_info b k) /\
      (if flow_evidence (ra_n_evidence a) (s_cfg s) then calls_shown b' (s_calls s') else s_calls s' = s_calls s /\ bar_info b' Bcalls = bar_info b Bcalls).
  Proof.
    intros Hw H ST. unfold run_from in H. unfold run_from_bar. cbv zeta in H |- *. apply tbind_ok in H as (s0 & H0 & H). cbn [lift snd] in H0. rewrite H0. cbn [bind].
    assert (F : s_warmup s0 = s_warmup s /\ s_t s0 = s_t s /\ history_of s0 = history_of s /\ s_n_evidence s0 = Some (ra_n_evidence a) /\ s_calls s0 = s_calls s /\ s_cfg s0 = s_cfg s).
    { apply draw_facts in H0 as [[_ ->]|[_ (ps & sc & _ & _ & ->)]]; repeat split; reflexivity. }
    destruct F as (F1 & F2 & F3 & F4 & F5 & F6). apply tbind_ok in H as (s1 & H1 & H). unfold warmup in H1. rewrite F1, Hw in H1. cbn [snd] in H1. apply Ok_inj in H1. subst s1.
    unfold warmup_bar. rewrite F1, Hw. cbn [bind]. apply tbind_ok in H as (s2 & H2 & H). apply tbind_ok in H as (s3 & H3 & H). cbn [lift snd] in H3.
    assert (s3 = s') as -> by (destruct (ra_save_every a); cbn [snd] in H; now apply Ok_inj in H). clear H.
    destruct (smc_still _ _ _ _ _ _ _ H2) as [_ Q].
    assert (EV : s_n_evidence s2 = Some (ra_n_evidence a)) by (rewrite (loop_targets _ _ _ _ _ _ _ _ H2); exact F4).
    destruct (evidence_with_bar R s2 b s' _ EV H3) as (b3 & K1 & K2 & K3 & K4 & K5 & K7 & K6). rewrite <- K3, ST, <- F2 in Q. destruct (Q eq_refl) as [-> NT0].
    assert (L : smc_loop_bar W (ra_fuel a) (ra_bfuel a) (ra_save_every a) (s_t s) R s0 b = Ok (s0, b)) by (destruct (ra_fuel a); cbn [smc_loop_bar]; rewrite NT0; reflexivity).
    rewrite L. cbn [bind]. exists b3. split; [exact K1|]. split; [exact K2|]. split; [now rewrite K4|]. split; [exact K5|].
    rewrite F6 in K6. destruct (flow_evidence _ _); [exact K6|]. destruct K6 as [K6 ->]. rewrite K6. auto.
  Qed.
  Lemma still_with_bar a R s s' : s_warmup s = false -> snd (run W a R s) = Ok s' -> s_t s' = s_t s ->
    exists b, run_bar W a R s = Ok (s', b) /\ bar_count b = 0%Z /\ history_of s' = history_of s /\
      bar_info b Bbeta = Some (Float (nofZ 0)) /\ bar_info b BlogZ = Some (Float (nofZ 0)) /\ bar_info b BESS = Some (Int (s_n_effective s)) /\ calls_shown b (s_calls s').
  Proof.
    intros Hw H ST. destruct (run_from_still a R s (first_bar s) s' Hw H ST) as (b & K1 & K2 & K3 & K4 & K5). exists b. split; [exact K1|]. split; [exact K2|]. split; [exact K3|].
    rewrite !K4 by discriminate. repeat (split; [reflexivity|]). destruct (flow_evidence _ _); [exact K5|]. destruct K5 as [K5 K6]. unfold calls_shown. rewrite K6, K5. reflexivity.
  Qed.
  Lemma resumed_still a R saved self s' : s_warmup saved = false -> snd (run_resumed W a R saved self) = Ok s' -> s_t s' = s_t saved ->
    exists b, run_resumed_bar W a R saved self = Ok (s', b) /\ bar_count b = s_t s' /\ history_of s' = history_of saved /\
      (exists x, latest (h_beta (history_of s')) = Some x /\ bar_info b Bbeta = Some (Float x)) /\
      (exists x, latest (h_ess (history_of s')) = Some x /\ bar_info b BESS = Some (Float x)) /\
      (exists x, latest (h_logz (history_of s')) = Some x /\ bar_info b BlogZ = Some (Float x)) /\
      (exists x, latest (h_accept (history_of s')) = Some x /\ bar_info b Bacc = Some (Float x)) /\
      (exists z, latest (h_steps (history_of s')) = Some z /\ bar_info b Bsteps = Some (Int z)) /\
      (exists x, latest (h_efficiency (history_of s')) = Some x /\ bar_info b Beff = Some (Float x)) /\
      (exists z, latest (h_calls (history_of s')) = Some z /\ calls_shown b (if flow_evidence (ra_n_evidence a) (s_cfg saved) then s_calls s' else z)).
  Proof.
    intros Hw H ST. unfold run_resumed in H. cbv zeta in H. apply tbind_ok in H as (s0 & H0 & H). cbn [lift snd] in H0. unfold run_resumed_bar. cbv zeta. unfold show_recorded.
    apply bind_ok in H0 as [v1 [E1 H0]]. apply bind_ok in H0 as [v2 [E2 H0]]. apply bind_ok in H0 as [v3 [E3 H0]]. apply bind_ok in H0 as [v4 [E4 H0]]. apply bind_ok in H0 as [v5 [E5 H0]].
    apply bind_ok in H0 as [v6 [E6 H0]]. apply bind_ok in H0 as [v7 [E7 H0]]. apply bind_ok in H0 as [v8 [E8 H0]]. apply bind_ok in H0 as [v9 [E9 H0]]. apply Ok_inj in H0. subst s0.
    rewrite E1, E2, E3, E4, E5, E6, E7, E8, E9. cbn [bind]. set (b0 := update_stats _ _).
    destruct (run_from_still a R (load saved self) b0 s' Hw H ST) as (b & K1 & K2 & K3 & K4 & K5). exists b. split; [exact K1|]. split; [rewrite K2, ST; reflexivity|]. rewrite K3, !K4 by discriminate.
    apply index_latest in E1, E2, E3, E4, E7, E8, E9. split; [reflexivity|].
    split; [exists v1; split; [exact E1|reflexivity]|]. split; [exists v3; split; [exact E3|reflexivity]|]. split; [exists v4; split; [exact E4|reflexivity]|].
    split; [exists v7; split; [exact E7|reflexivity]|]. split; [exists v8; split; [exact E8|reflexivity]|]. split; [exists v9; split; [exact E9|reflexivity]|].
    exists v2. split; [exact E2|]. change (s_cfg (load saved self)) with (s_cfg saved) in K5. destruct (flow_evidence _ _); [exact K5|]. destruct K5 as [_ K5]. unfold calls_shown. rewrite K5. reflexivity.
  Qed.
End Run.

(** * Every stored particle is a prior draw or an accepted proposal *)
From Coq Require Import ZArith List Bool Lia.
From Verif Require Import Num PyBase PyBaseFacts Tools Scaler Particles ParticlesFacts LogLike LogLikeFacts Geometry GeometryFacts Mcmc SpecMcmc McmcFacts McmcInv McmcCoherent Flow Sampler ConfigFacts SpecReach SamplerFacts Reach SpecRun BetaFacts RowFacts.
Import ListNotations.
Set Bullet Behavior "Strict Subproofs".

(** ** Kernels *)
Section Kernel.
  Context {T B : Type} {NT : NumT T}.
  Variable undefined random : T -> Prop.
  Hypothesis L : ieee_like undefined random.
  Variable env : kernel_env T B.
  Notation hb w := (match w_blobs w with Some _ => true | None => false end).
  Lemma particle_of_start (s : kstate T B) w0 k : starts_from s w0 -> particle_at w0 k = particle_at (input_walkers s) k.
  Proof.
    intros [H1 [H2 [H3 [H4 [H5 H6]]]]]. unfold particle_at, input_walkers, walkers_of. cbn [w_u w_x w_logdetj w_logl w_logp w_blobs].
    now rewrite H1, H2, H3, H4, H5, H6.
  Qed.
  Lemma kernel_rows k g ps s rand o n lp ll bl : kernel_fun k env g ps s rand = Ok o -> rectangular (input_walkers s) n ->
    nleb (nofZ 0) (s_beta s) = true -> (forall i k, random (r_unif (rand i) k)) ->
    prior_rows env lp -> like_rows env ll bl -> (s_blobs s <> None -> like_has_blobs env) ->
    hb (o_w o) = hb (input_walkers s) /\
    forall j, (j < n)%nat -> particle_at (o_w o) j = particle_at (input_walkers s) j \/
      (coherent (k_scaler env) (k_junk env) lp ll bl (hb (input_walkers s)) (particle_at (o_w o) j) /\ ~ undefined (ll (pt_x (particle_at (o_w o) j)))).
  Proof.
    intros H R Hb HR HP HL HB. apply kernel_run in H as [step [w0 [sigma [mu [best [st [i [HS [HW [HL' ->]]]]]]]]]].
    pose proof (fun j => particle_of_start s w0 j HW) as PS.
    destruct HW as [H1 [H2 [H3 [H4 [H5 H6]]]]].
    assert (R0 : rectangular w0 n).
    { destruct R. unfold input_walkers, walkers_of in *.
      cbn [w_u w_x w_logdetj w_logl w_logp w_blobs] in *. constructor; rewrite ?H1, ?H2, ?H3, ?H4, ?H5, ?H6; assumption. }
    set (Q := fun (i : Z) (st : mstate T B) => rectangular (m_w st) n /\ hb (m_w st) = hb w0 /\
       forall j, (j < n)%nat -> particle_at (m_w st) j = particle_at w0 j \/
      (coherent (k_scaler env) (k_junk env) lp ll bl (hb w0) (particle_at (m_w st) j) /\ ~ undefined (ll (pt_x (particle_at (m_w st) j))))).
    destruct (kernel_loop_inv env Q step rand (fuel_of env)) with (i := 0%Z) (st := start w0 sigma mu best) (st' := st) (j := i) as [[A1 [A2 A3]] _]; auto.
    - intros j st0 st1 stop [A1 [A2 A3]] E. apply HS in E. split; [eapply core_rect; eauto|]. split.
      + rewrite <- A2. eapply core_blobs; eauto. now rewrite (re_x _ _ A1).
      + intros m Hm.
        destruct (core_rows undefined random L env (s_beta s) Hb _ _ _ _ lp ll bl E A1 (fun k => HR _ k) HP HL) with (k := m) as [D|D]; auto.
        * intros HN. apply HB. rewrite H6 in A2. destruct (w_blobs (m_w st0)), (s_blobs s); congruence.
        * rewrite D. auto.
        * right. now rewrite A2 in D.
    - split; [exact R0|]. split; [reflexivity|]. intros j Hj. left. reflexivity.
    - cbn [finish o_w]. replace (hb (input_walkers s)) with (hb w0) by (rewrite H6; reflexivity). split; [exact A2|].
      intros j Hj. rewrite <- PS. auto.
  Qed.
End Kernel.

(** ** Likelihood *)
Section Like.
  Context {T C P Opt : Type} {NT : NumT T}.
  Variable W : world T C P Opt.
  Variable lp ll : vec T -> T.
  Variable bl : option (vec T -> list C).
  Hypothesis RG : regular W lp ll bl.
  Lemma like_facts s xs l b : maps (s_pool s) -> sampler_like W s xs = Ok (l, b) ->
    l = map ll xs /\ b = match xs, blobs_of (s_cfg s) bl with _ :: _, Some f => Some (map f xs) | _, _ => None end.
  Proof.
    intros HM H. unfold sampler_like, log_like, blobs_of in *. destruct (c_vectorize (s_cfg s)).
    - apply Ok_inj in H. injection H as <- <-. rewrite (rg_vector _ _ _ _ RG). now destruct xs.
    - assert (E : split_results (map (wd_like W) xs) = Ok (l, b)).
      { destruct (s_pool s) as [m|]; [|exact H]. now rewrite (HM (wd_like W) xs) in H. }
      clear H. pose proof (rg_like _ _ _ _ RG) as G. destruct bl as [f|].
      + destruct xs as [|x xs]; [cbn in E; apply Ok_inj in E; now injection E as <- <-|].
        rewrite (map_ext _ (fun x => RTuple (ll x) (f x))) in E by (intros; apply G).
        rewrite split_tuple in E; [|intros; apply G|discriminate]. apply Ok_inj in E. now injection E as <- <-.
      + assert (Hm : mapM as_float (map (wd_like W) xs) = Ok (map ll xs)).
        { clear E. induction xs as [|x xs IH]; [reflexivity|]. cbn [map mapM]. destruct (G x) as [-> | ->]; cbn [as_float bind]; rewrite IH; reflexivity. }
        assert (Hf : flat_map blob_of (map (wd_like W) xs) = []).
        { clear E Hm. induction xs as [|x xs IH]; [reflexivity|]. cbn [map flat_map]. rewrite IH. now destruct (G x) as [-> | ->]. }
        unfold split_results in E. rewrite Hf, Hm in E. cbn [bind] in E.
        assert (E' : Ok (map ll xs, None) = Ok (l, b)) by (destruct (existsb _ _); exact E). apply Ok_inj in E'. injection E' as <- <-. now destruct xs.
  Qed.
End Like.

(** ** Replacing rows *)
Section Replace.
  Lemma put_length {A} idx (v l : list A) : length (put idx v l) = length l.
  Proof. revert v l. induction idx as [|i idx IH]; intros [|a v] l; cbn [put]; auto. now rewrite IH, set_nth_length. Qed.
  Lemma put_map {A B} (f : A -> B) idx v l : put idx (map f v) (map f l) = map f (put idx v l).
  Proof. revert v l. induction idx as [|i idx IH]; intros [|a v] l; cbn [put map]; auto. now rewrite set_nth_map, IH. Qed.
  Lemma put_other {A} idx (v l : list A) k d : ~ In k idx -> nth k (put idx v l) d = nth k l d.
  Proof.
    revert v l. induction idx as [|i idx IH]; intros [|a v] l H; cbn [put]; auto. cbn [In] in H.
    rewrite IH by tauto. apply nth_set_nth_neq. intros E. apply H. now left.
  Qed.
  Lemma put_in {A} idx (v l : list A) k d : In k idx -> length v = length idx -> (k < length l)%nat -> In (nth k (put idx v l) d) v.
  Proof.
    revert v l. induction idx as [|i idx IH]; intros [|a v] l H E Hk; try easy. cbn [put]. cbn in E.
    destruct (in_dec Nat.eq_dec k idx) as [Hi|Hi].
    - right. apply IH; auto. now rewrite set_nth_length.
    - destruct H as [->|H]; [|easy]. rewrite put_other by exact Hi. rewrite nth_set_nth_eq by exact Hk. now left.
  Qed.
  Lemma in_true_positions i m k : In k (true_positions i m) <-> (i <= k)%nat /\ nth (k - i) m false = true.
  Proof.
    revert i. induction m as [|b m IH]; intros i; cbn [true_positions].
    - split; [easy|]. intros [_ H]. now destruct (k - i)%nat.
    - assert (Q : In k (true_positions (S i) m) <-> (i <= k)%nat /\ k <> i /\ nth (k - i) (b :: m) false = true).
      { rewrite IH. split.
        - intros [H1 H2]. split; [lia|]. split; [lia|]. replace (k - i)%nat with (S (k - S i)) by lia. exact H2.
        - intros [H1 [H2 H3]]. split; [lia|]. replace (k - i)%nat with (S (k - S i)) in H3 by lia. exact H3. }
      destruct b; cbn [In]; rewrite Q.
      + split; [intros [->|[H1 [_ H2]]]; [split; [lia|now rewrite Nat.sub_diag]|auto]|].
        intros [H1 H2]. destruct (Nat.eq_dec i k); [now left|right]. auto.
      + split; [intros [H1 [_ H2]]; auto|]. intros [H1 H2]. split; [auto|]. split; [|auto].
        intros ->. rewrite Nat.sub_diag in H2. discriminate.
  Qed.
  Lemma gather_all {A} (l : list A) idx d : (forall i, In i idx -> (i < length l)%nat) -> gather l idx = Ok (map (fun i => nth i l d) idx).
  Proof. intros H. apply mapM_ok. intros i Hi. rewrite (nth_error_nth' l d) by auto. reflexivity. Qed.
  Lemma map_nth_all {A} (l : list A) d : map (fun i => nth i l d) (seq 0 (length l)) = l.
  Proof.
    apply nth_ext with (d := d) (d' := d); [now rewrite map_length, seq_length|]. intros k Hk. rewrite map_length, seq_length in Hk.
    rewrite (nth_map_f _ _ _ 0%nat) by (now rewrite seq_length). now rewrite seq_nth by exact Hk.
  Qed.
  Lemma put_bound inf idx n k : (forall i, In i idx -> (i < n)%nat) -> In k (put inf idx (seq 0 n)) -> (k < n)%nat.
  Proof.
    intros H1 H. assert (Q : forall l, (forall i, In i l -> (i < n)%nat) -> forall i, In i (put inf idx l) -> (i < n)%nat).
    { clear H. revert idx H1. induction inf as [|j inf IH]; intros [|a idx] H1 l Hl; cbn [put]; auto. apply IH; [intros; apply H1; now right|].
      intros i Hi. assert (forall (l : list nat) j, (forall i, In i l -> (i < n)%nat) -> In i (set_nth j a l) -> (i < n)%nat).
      { clear -H1. induction l as [|b l IHl]; intros [|j] Hl Hi; cbn [set_nth In] in *; auto.
        - destruct Hi as [<-|Hi]; auto.
        - destruct Hi as [<-|Hi]; auto. eapply IHl; eauto. }
      eapply H; eauto. }
    apply (Q (seq 0 n)); [|exact H]. intros i Hi; apply in_seq in Hi; lia.
  Qed.
  Lemma replace_gather {A} inf idx (a v : list A) n : length a = n -> (forall i, In i idx -> (i < n)%nat) ->
    replace_rows inf idx a = Ok v -> gather a (put inf idx (seq 0 n)) = Ok v.
  Proof.
    intros Ln H1 H. unfold replace_rows in H. apply bind_ok in H as [w [Hw H]]. apply Ok_inj in H. subst v n.
    destruct a as [|d a'].
    - cbn [length seq]. replace (put inf idx []) with (@nil nat) by (symmetry; apply length_zero_iff_nil; now rewrite put_length).
      replace (put inf w []) with (@nil A) by (symmetry; apply length_zero_iff_nil; now rewrite put_length). reflexivity.
    - set (a := d :: a') in *. rewrite (gather_all a idx d) in Hw by auto. apply Ok_inj in Hw. subst w.
      rewrite (gather_all a _ d) by (intros i Hi; eapply put_bound; eauto). f_equal. rewrite <- put_map. now rewrite map_nth_all.
  Qed.
  Lemma choose_in pick fin k idx : choose_finite pick fin k = Ok idx -> length idx = k /\ forall i, In i idx -> In i fin.
  Proof.
    unfold choose_finite. destruct fin as [|a fin]; [discriminate|]. intros H. apply Ok_inj in H. subst idx.
    split; [now rewrite map_length, seq_length|]. intros i Hi. apply in_map_iff in Hi as [j [<- _]]. apply nth_In. apply Nat.mod_upper_bound. discriminate.
  Qed.
  Lemma slice_length {A} i n (l : list A) m : length l = m -> (i < m / n)%nat -> length (slice i n l) = n.
  Proof.
    intros E H. destruct (Nat.eq_dec n 0) as [->|N]; [cbn in H; lia|]. unfold slice. rewrite firstn_length, skipn_length, E.
    assert (i * n + n <= m)%nat; [|try rewrite Nat.mul_add_distr_r; lia]. assert (H0 : (i + 1 <= m / n)%nat) by (clear -H; lia).
    apply (Nat.mul_le_mono_r _ _ n) in H0. rewrite Nat.mul_add_distr_r in H0. pose proof (Nat.mul_div_le m n N). lia.
  Qed.
  Lemma set_slice_length {A} i n (new l : list A) m : length l = m -> length new = n -> (i < m / n)%nat -> length (set_slice i n new l) = m.
  Proof.
    intros E En H. destruct (Nat.eq_dec n 0) as [->|N]; [cbn in H; lia|]. unfold set_slice. rewrite !app_length, firstn_length, skipn_length, E, En.
    assert (i * n + n <= m)%nat; [|try rewrite Nat.mul_add_distr_r; lia]. assert (H0 : (i + 1 <= m / n)%nat) by (clear -H; lia).
    apply (Nat.mul_le_mono_r _ _ n) in H0. rewrite Nat.mul_add_distr_r in H0. pose proof (Nat.mul_div_le m n N). lia.
  Qed.
  Lemma slice_in {A} i n (l : list A) x : In x (slice i n l) -> In x l.
  Proof. unfold slice. intros H. rewrite <- (firstn_skipn (i * n) l). apply in_or_app. right. rewrite <- (firstn_skipn n (skipn (i * n) l)). apply in_or_app. now left. Qed.
  Lemma set_slice_in {A} i n (new l : list A) x : In x (set_slice i n new l) -> In x new \/ In x l.
  Proof.
    unfold set_slice. intros H. apply in_app_iff in H as [H|H]; [right; rewrite <- (firstn_skipn (i * n) l); apply in_or_app; now left|].
    apply in_app_iff in H as [H|H]; [now left|right]. rewrite <- (firstn_skipn ((i + 1) * n) l). apply in_or_app. now right.
  Qed.
End Replace.

(** ** Warm-up *)
Section Warmup.
  Context {T C P Opt : Type} {NT : NumT T}.
  Notation B := (list C).
  Variable W : world T C P Opt.
  Variable lp ll : vec T -> T.
  Variable bl : option (vec T -> list C).
  Hypothesis RG : regular W lp ll bl.

  (** The batch before and after the replacement: [w0] holds the prior draws,
      [source] says which of them each row of the stored batch is. *)
  Lemma batch_rows R i s s' ps : warmup_batch W R i s = Ok s' -> maps (s_pool s) -> s_prior_samples s = Some ps ->
    length ps = c_n_prior (s_cfg s) -> (i < n_batches (s_cfg s))%nat ->
    let n := c_n_active (s_cfg s) in let x0 := slice i n ps in
    exists w0 source c, w_x w0 = x0 /\ rectangular w0 n /\ has_blobs w0 = (match blobs_of (s_cfg s) bl with Some _ => true | None => false end) /\
      (forall k, (k < n)%nat -> belongs lp ll (blobs_of (s_cfg s) bl) (particle_at w0 k) /\
         forward_row (s_scaler s) (wd_junk W) (pt_x (particle_at w0 k)) = Ok (pt_u (particle_at w0 k)) /\
         exists x, inverse_row (s_scaler s) (wd_junk W) (pt_u (particle_at w0 k)) = Ok (x, pt_logdetj (particle_at w0 k))) /\
      length source = n /\
      (forall k, (k < n)%nat -> (nth k source 0 < n)%nat /\ nisinf (pt_logl (particle_at w0 (nth k source 0%nat))) = false /\
         (nisinf (pt_logl (particle_at w0 k)) = false -> nth k source 0%nat = k)) /\
      gathered w0 source (current_arrays c) /\
      s_current s' = Some c /\ s_particles s' = particles_update (s_particles s) (items c) /\
      s_prior_samples s' = Some (set_slice i n (cu_x c) ps) /\
      s_have_blobs s' = (match blobs_of (s_cfg s) bl with Some _ => true | None => s_have_blobs s end) /\
      s_cfg s' = s_cfg s /\ s_scaler s' = s_scaler s /\ s_pool s' = s_pool s /\ s_warmup s' = s_warmup s.
  Proof.
    intros H HM Eps Lps Hi n x0'.
    apply warmup_facts in H as (ps' & x0 & u0 & xi & ldj0 & logp0 & logl0 & b0 & x & u & ldj & logp & logl & b & c & Eps' & Ex0 & Hu & Hinv & Hp & Hl & Hr & Ec & ->).
    rewrite Eps in Eps'. injection Eps' as <-. fold n x0' in Ex0. subst x0'. cbn zeta.
    assert (Lx : length x0 = n) by (rewrite Ex0; apply slice_length with (m := c_n_prior (s_cfg s)); auto).
    apply (rg_prior _ _ _ _ RG) in Hp. apply (like_facts W lp ll bl RG _ _ _ _ HM) in Hl as [Hl Hbl].
    assert (Npos : (0 < n)%nat). { unfold n_batches in Hi. fold n in Hi. destruct n; [cbn in Hi; lia|lia]. }
    destruct x0 as [|x00 xs0]; [cbn in Lx; lia|]. set (x0 := x00 :: xs0) in *. cbn iota in Hbl.
    unfold forward in Hu. apply bind_ok in Hu as [_ [_ Hu]].
    pose proof (mapM_length _ _ _ Hu) as Lu. rewrite Lx in Lu. destruct (inverse_length _ _ _ _ _ Hinv) as [_ Ld]. rewrite Lu in Ld.
    assert (Lp : length logp0 = n) by (rewrite Hp, map_length; exact Lx). assert (Ll : length logl0 = n) by (rewrite Hl, map_length; exact Lx).
    set (w0 := {| w_theta := []; w_ldf := []; w_u := u0; w_x := x0; w_logdetj := ldj0; w_logl := logl0; w_logp := logp0; w_blobs := b0 |} : walkers T B).
    assert (R0 : rectangular w0 n).
    { constructor; cbn [w0 w_u w_x w_logdetj w_logl w_logp w_blobs]; auto. rewrite Hbl. destruct (blobs_of _ _); [|exact I]. rewrite map_length. exact Lx. }
    assert (HB : has_blobs w0 = (match blobs_of (s_cfg s) bl with Some _ => true | None => false end)).
    { unfold has_blobs, w0. cbn [w_blobs]. rewrite Hbl. now destruct (blobs_of _ _). }
    assert (HP0 : forall k, (k < n)%nat -> belongs lp ll (blobs_of (s_cfg s) bl) (particle_at w0 k) /\
         forward_row (s_scaler s) (wd_junk W) (pt_x (particle_at w0 k)) = Ok (pt_u (particle_at w0 k)) /\
         exists x, inverse_row (s_scaler s) (wd_junk W) (pt_u (particle_at w0 k)) = Ok (x, pt_logdetj (particle_at w0 k))).
    { intros k Hk. split; [|split].
      - constructor; cbn [w0 particle_at pt_logl pt_logp pt_blob pt_x w_x w_logl w_logp w_blobs].
        + rewrite Hl. apply nth_map_f. lia.
        + rewrite Hp. apply nth_map_f. lia.
        + rewrite Hbl. destruct (blobs_of (s_cfg s) bl) as [f|]; [|reflexivity]. cbn [option_map].
          rewrite (nth_error_nth' _ (f [])) by (rewrite map_length; lia). f_equal. apply nth_map_f. lia.
      - cbn [w0 particle_at pt_u pt_x w_x w_u]. apply mapM_Forall2 in Hu. clear -Hu Hk Lx. rewrite <- Lx in Hk. clear Lx. revert k Hk.
        induction Hu as [|a b' l l' E F IH]; intros k Hk; [cbn in Hk; lia|]. destruct k; [exact E|]. apply IH. cbn in Hk. lia.
      - exists (nth k xi []). cbn [w0 particle_at pt_u pt_logdetj w_u w_logdetj]. apply inverse_nth; [exact Hinv|lia]. }
    assert (NI : forall k, nth k (map nisinf logl0) false = true <-> (k < n)%nat /\ nisinf (pt_logl (particle_at w0 k)) = true).
    { intros k. cbn [w0 particle_at pt_logl w_logl]. destruct (Nat.lt_ge_cases k n) as [Hk|Hk].
      - rewrite (nth_map_f nisinf logl0 k (nofZ 0)) by lia. tauto.
      - rewrite nth_overflow by (rewrite map_length; lia). split; [discriminate|lia]. }
    assert (AL : after_like s b0 = (match blobs_of (s_cfg s) bl with Some _ => true | None => s_have_blobs s end)).
    { unfold after_like. rewrite Hbl. now destruct (blobs_of _ _). }
    assert (SRC : exists source, length source = n /\
      (forall k, (k < n)%nat -> (nth k source 0 < n)%nat /\ nisinf (pt_logl (particle_at w0 (nth k source 0%nat))) = false /\
         (nisinf (pt_logl (particle_at w0 k)) = false -> nth k source 0%nat = k)) /\
      gathered w0 source (current_arrays c)).
    { destruct (existsb (fun b => b) (map nisinf logl0)) eqn:Ex.
      - destruct Hr as (idx & Hr). cbv zeta in Hr. set (inf := true_positions 0 (map nisinf logl0)) in *.
        destruct Hr as (Hc & Rx & Ru & Rd & Rp & Rl & Rb). apply choose_in in Hc as [Li Hc].
        assert (Hfin : forall i, In i idx -> (i < n)%nat /\ nisinf (pt_logl (particle_at w0 i)) = false).
        { intros j Hj. apply Hc, in_true_positions in Hj as [_ Hj]. rewrite Nat.sub_0_r in Hj. cbn [w0 particle_at pt_logl w_logl].
          destruct (Nat.lt_ge_cases j n) as [Hjn|Hjn].
          - split; [exact Hjn|]. rewrite (nth_map_f negb _ j false) in Hj by (rewrite map_length; lia).
            rewrite (nth_map_f nisinf logl0 j (nofZ 0)) in Hj by lia. now apply negb_true_iff in Hj.
          - rewrite nth_overflow in Hj by (rewrite !map_length; lia). discriminate. }
        assert (Hlt : forall i, In i idx -> (i < n)%nat) by (intros; now apply Hfin).
        exists (put inf idx (seq 0 n)). split; [now rewrite put_length, seq_length|]. split.
        + intros k Hk. destruct (in_dec Nat.eq_dec k inf) as [Hin|Hin].
          * assert (Q : In (nth k (put inf idx (seq 0 n)) 0%nat) idx) by (apply put_in; auto; now rewrite seq_length).
            apply Hfin in Q as [Q1 Q2]. split; [exact Q1|]. split; [exact Q2|].
            intros Hf. apply in_true_positions in Hin as [_ Hin]. rewrite Nat.sub_0_r in Hin. apply NI in Hin as [_ Hin]. congruence.
          * rewrite put_other by exact Hin. rewrite seq_nth by exact Hk. split; [exact Hk|]. split; [|auto].
            cbn [Nat.add]. destruct (nisinf (pt_logl (particle_at w0 k))) eqn:E; [|reflexivity].
            exfalso. apply Hin. apply in_true_positions. split; [lia|]. rewrite Nat.sub_0_r. apply NI. auto.
        + subst c. unfold gathered, current_arrays. cbn [w0 w_u w_x w_logdetj w_logl w_logp w_blobs cu_u cu_x cu_logdetj cu_logl cu_logp cu_blobs].
          repeat (split; [eapply replace_gather; eauto|]). rewrite AL in Rb. rewrite Hbl in Rb |- *.
          destruct (blobs_of (s_cfg s) bl) as [f|].
          * destruct Rb as (b1 & b2 & E1 & -> & Rb). injection E1 as <-. apply replace_gather with (n := n) in Rb; auto. exact (eq_trans (map_length f x0) Lx).
          * destruct (s_have_blobs s); [destruct Rb as (b1 & b2 & E1 & _); discriminate|subst b; exact I].
      - destruct Hr as (-> & -> & -> & -> & -> & ->). exists (seq 0 n). split; [apply seq_length|]. split.
        + intros k Hk. rewrite seq_nth by exact Hk. cbn [Nat.add]. split; [exact Hk|]. split; [|auto].
          destruct (nisinf (pt_logl (particle_at w0 k))) eqn:E; [|reflexivity].
          assert (Q : nth k (map nisinf logl0) false = true) by (apply NI; auto).
          rewrite <- Ex. symmetry. apply existsb_exists. exists true. split; [|reflexivity]. rewrite <- Q. apply nth_In. rewrite map_length. lia.
        + assert (GS : forall A (l : list A), length l = n -> gather l (seq 0 n) = Ok l).
          { intros A [|d l'] E; [cbn in E; subst n; rewrite <- E; reflexivity|]. set (l := d :: l') in *. rewrite (gather_all l _ d).
            - f_equal. rewrite <- E. apply map_nth_all.
            - intros j Hj. apply in_seq in Hj. lia. }
          subst c. unfold gathered, current_arrays. cbn [w0 w_u w_x w_logdetj w_logl w_logp w_blobs cu_u cu_x cu_logdetj cu_logl cu_logp cu_blobs].
          repeat (split; [apply GS; auto; fail|]). rewrite Hbl. destruct (blobs_of (s_cfg s) bl); [|exact I]. apply GS. rewrite map_length. exact Lx. }
    destruct SRC as (source & S1 & S2 & S3).
    exists w0, source, c. split; [exact Ex0|]. split; [exact R0|]. split; [exact HB|]. split; [exact HP0|]. split; [exact S1|]. split; [exact S2|]. split; [exact S3|].
    cbn [s_current s_particles s_prior_samples s_have_blobs s_cfg s_scaler s_pool s_warmup]. subst c. cbn [cu_x]. rewrite AL. auto 10.
  Qed.
End Warmup.

(** ** The invariant *)
Section Inv.
  Context {T C P Opt : Type} {NT : NumT T}.
  Notation B := (list C).
  Variable W : world T C P Opt.
  Variable undefined random : T -> Prop.
  Hypothesis L : ieee_like undefined random.
  Variable good : T -> Prop.
  Hypothesis U : unit_interval good.
  Variable lp ll : vec T -> T.
  Variable bl : option (vec T -> list C).
  Hypothesis RG : regular W lp ll bl.
  Variable drawn : vec T -> Prop.
  Variable interrupts : bool.
  Notation reachable := (reachable W (good_draws random drawn) interrupts).
  Implicit Types s : sampler T C P.

  Definition with_blobs s : bool := match blobs_of (s_cfg s) bl with Some _ => true | None => false end.
  Definition legit s (p : particle T B) : Prop :=
    belongs lp ll (blobs_of (s_cfg s) bl) p /\
    (prior_draw (s_scaler s) (wd_junk W) drawn p \/ accepted (s_scaler s) (wd_junk W) undefined p).
  Definition legit_history s : Prop :=
    aligned (history_of s) (c_n_active (s_cfg s)) (with_blobs s) /\
    forall t k, (t < iterations (history_of s))%nat -> (k < c_n_active (s_cfg s))%nat -> legit s (particle_at (stored (history_of s) t) k).
  Record pinv s : Prop := {
    pi_pool : maps (s_pool s);
    pi_prior : match s_prior_samples s with
               | None => history_of s = empty_past
               | Some ps => length ps = c_n_prior (s_cfg s) /\ Forall drawn ps
               end;
    pi_history : legit_history s;
    pi_have : with_blobs s = true -> iterations (history_of s) <> 0%nat -> s_have_blobs s = true;
    pi_none : forall c, s_current s = Some c -> with_blobs s = false -> cu_blobs c = None }.
  Definition cinv (m : option nat) s : Prop := exists c n,
    s_current s = Some c /\ (match m with Some m => n = m | None => True end) /\
    rectangular (current_arrays c) n /\ has_blobs (current_arrays c) = with_blobs s /\
    (forall k, (k < n)%nat -> legit s (particle_at (current_arrays c) k)) /\ s_have_blobs s = with_blobs s /\ nleb (nofZ 0) (cu_beta c) = true /\
    s_prior_samples s <> None.
  Definition c1 s := cinv None s.
  Definition c2 s := cinv (Some (c_n_active (s_cfg s))) s.

  Lemma resample_length R s w idx : resample_indices R s w = Ok idx -> length idx = c_n_active (s_cfg s).
  Proof.
    unfold resample_indices. destruct (c_resample (s_cfg s)).
    - unfold random_choice. do 3 (destruct (_ : bool); [discriminate|]). intros H. apply Ok_inj in H. subst idx. now rewrite !map_length, seq_length.
    - apply systematic_resample_length.
  Qed.

  Lemma store_inv s c : pinv s -> s_prior_samples s <> None -> s_current s = Some c -> rectangular (current_arrays c) (c_n_active (s_cfg s)) ->
    has_blobs (current_arrays c) = with_blobs s -> (forall k, (k < c_n_active (s_cfg s))%nat -> legit s (particle_at (current_arrays c) k)) ->
    (with_blobs s = true -> s_have_blobs s = true) ->
    pinv (with_particles s (particles_update (s_particles s) (items c))).
  Proof.
    intros [I1 I2 [I3 I4] I5 I6] Hps Hc HR HB HL Hh. set (n := c_n_active (s_cfg s)) in *.
    pose proof (aligned_update (history_of s) n (with_blobs s) c I3 HR HB) as (A1 & A2 & A3 & A4).
    constructor.
    - exact I1.
    - cbn [with_particles s_prior_samples s_cfg]. destruct (s_prior_samples s) as [ps|]; [exact I2|easy].
    - split; [exact A1|]. intros t k Ht Hk. change (history_of (with_particles s (particles_update (s_particles s) (items c)))) with (update (history_of s) (items c)) in *.
      rewrite A2 in Ht. destruct (Nat.eq_dec t (iterations (history_of s))) as [->|Ht'].
      + rewrite A3. apply HL. exact Hk.
      + rewrite A4 by lia. apply I4; [lia|exact Hk].
    - intros H _. apply Hh. exact H.
    - intros c' Hc' H. apply (I6 c'); [exact Hc'|exact H].
  Qed.

  Lemma nonempty_of_get s (v : mat T) : get_flat (history_of s) Ku = Ok v -> iterations (history_of s) <> 0%nat.
  Proof.
    unfold iterations. intros H E. apply length_zero_iff_nil in E. unfold get_flat in H.
    change (lookup (history_of s) Ku) with (h_u (history_of s)) in H. rewrite E in H. discriminate.
  Qed.

  Lemma reweight_rows_trim fuel s s1 : pinv s -> reweight fuel s = Ok s1 ->
    s_have_blobs s = with_blobs s /\ iterations (history_of s) <> 0%nat /\
    exists idx c1, s_current s1 = Some c1 /\ gathered (flat_arrays (history_of s) (with_blobs s)) idx (current_arrays c1) /\
      exists w0 neff w1 w2 left, relative_weights (history_of s) (cu_beta c1) = Ok w0 /\ adjust (s_cfg s) (s_n_effective s) (normalise w0) = Ok (neff, w1) /\
        trim_weights (seq 0 (length w1)) w1 (nfrac 99 100) 1000 = Ok (idx, w2, left) /\ cu_weights c1 = Some w2 /\ s_cfg s1 = s_cfg s /\ s_have_blobs s1 = s_have_blobs s.
  Proof.
    intros [I1 I2 [I3 I4] I5 I6] H.
    apply reweight_facts in H as (c & beta & logz & ess & w0 & neff & w1 & idx & w2 & lf & u & x & ldj & logl & logp & b & cn & Hc & _ & Q1 & Q2 & Q3 & Gu & Gx & Gd & Gl & Gp & Gb & -> & ->).
    destruct Gu as [u0 [Gu0 Gu]], Gx as [x0 [Gx0 Gx]], Gd as [d0 [Gd0 Gd]], Gl as [l0 [Gl0 Gl]], Gp as [p0 [Gp0 Gp]].
    pose proof (nonempty_of_get _ _ Gu0) as NE.
    destruct (flat_gets _ _ _ I3 NE) as (F1 & F2 & F3 & F4 & F5 & F6).
    rewrite F1 in Gu0. rewrite F2 in Gx0. rewrite F3 in Gd0. rewrite F4 in Gl0. rewrite F5 in Gp0.
    apply Ok_inj in Gu0, Gx0, Gd0, Gl0, Gp0. subst u0 x0 d0 l0 p0.
    assert (EH : s_have_blobs s = with_blobs s).
    { destruct (with_blobs s) eqn:Ew; [now apply I5|]. destruct (s_have_blobs s); [|reflexivity].
      destruct Gb as (b' & _ & b0 & Gb0 & _). rewrite F6 in Gb0. discriminate. }
    split; [exact EH|]. split; [exact NE|].
    exists idx. eexists. split; [reflexivity|]. split; [|exists w0, neff, w1, w2, lf; auto 10]. unfold gathered, flat_arrays, current_arrays. cbn [w_u w_x w_logdetj w_logl w_logp w_blobs cu_u cu_x cu_logdetj cu_logl cu_logp cu_blobs].
    repeat (split; [assumption|]). rewrite EH in Gb. destruct (with_blobs s) eqn:Ew.
    - destruct Gb as (b' & -> & b0 & Gb0 & Gb). rewrite F6 in Gb0. apply Ok_inj in Gb0. now subst b0.
    - rewrite (I6 c Hc eq_refl) in Gb. subst b. exact I.
  Qed.
  Lemma reweight_rows fuel s s1 : pinv s -> reweight fuel s = Ok s1 ->
    s_have_blobs s = with_blobs s /\ iterations (history_of s) <> 0%nat /\
    exists idx c1, s_current s1 = Some c1 /\ gathered (flat_arrays (history_of s) (with_blobs s)) idx (current_arrays c1).
  Proof. intros I H. destruct (reweight_rows_trim fuel s s1 I H) as (E1 & E2 & idx & c1 & E3 & E4 & _). split; [exact E1|]. split; [exact E2|]. exists idx, c1. auto. Qed.

  Lemma resample_rows R s s3 n c : s_have_blobs s = with_blobs s -> resample R s = Ok s3 -> s_current s = Some c ->
    rectangular (current_arrays c) n -> has_blobs (current_arrays c) = with_blobs s ->
    exists idx c3, s_current s3 = Some c3 /\ gathered (current_arrays c) idx (current_arrays c3) /\ length idx = c_n_active (s_cfg s).
  Proof.
    intros EH H Hc HR HB.
    apply resample_facts in H as (c3 & w3 & idx3 & u3 & x3 & ldj3 & logl3 & logp3 & b3 & Ec & Ew & Hi & G1 & G2 & G3 & G4 & G5 & G6 & ->).
    rewrite Hc in Ec. injection Ec as <-. exists idx3. eexists. split; [reflexivity|]. split; [|now apply resample_length in Hi].
    unfold gathered, current_arrays. cbn [w_u w_x w_logdetj w_logl w_logp w_blobs cu_u cu_x cu_logdetj cu_logl cu_logp cu_blobs].
    repeat (split; [assumption|]). unfold has_blobs, current_arrays in HB. cbn [w_blobs] in HB. rewrite EH in G6. destruct (with_blobs s).
    - destruct G6 as (b0 & b' & -> & -> & G6). exact G6.
    - subst b3. destruct (cu_blobs c); [discriminate|exact I].
  Qed.

  (** what happens to the particles in a mutation *)
  Lemma mutate_rows R s s4 n c : maps (s_pool s) -> good_draws random drawn R -> s_have_blobs s = with_blobs s -> mutate W R s = Ok s4 -> s_current s = Some c ->
    rectangular (current_arrays c) n -> has_blobs (current_arrays c) = with_blobs s -> nleb (nofZ 0) (cu_beta c) = true ->
    exists c4, s_current s4 = Some c4 /\ cu_beta c4 = cu_beta c /\ rectangular (current_arrays c4) n /\ has_blobs (current_arrays c4) = with_blobs s /\
      forall k, (k < n)%nat -> particle_at (current_arrays c4) k = particle_at (current_arrays c) k \/
        (belongs lp ll (blobs_of (s_cfg s) bl) (particle_at (current_arrays c4) k) /\ accepted (s_scaler s) (wd_junk W) undefined (particle_at (current_arrays c4) k)).
  Proof.
    intros HM [_ _ GR] EH H Hc HR HB Hbeta.
    apply mutate_facts in H as (c5 & b5 & ks & res & c' & Ec & Hb5 & -> & Hk & E4 & -> & ->). rewrite Hc in Ec. injection Ec as <-.
    assert (Eb : b5 = cu_blobs c).
    { unfold has_blobs, current_arrays in HB. cbn [w_blobs] in HB. rewrite EH in Hb5. destruct (with_blobs s); [tauto|]. subst b5. now destruct (cu_blobs c). }
    subst b5. set (ks := {| s_u := cu_u c; s_x := cu_x c; s_logdetj := cu_logdetj c; s_logl := cu_logl c; s_logp := cu_logp c; s_blobs := cu_blobs c; s_beta := cu_beta c |}) in *.
    change (rectangular (input_walkers ks) n) in HR.
    set (f := match blobs_of (s_cfg s) bl with Some f => f | None => fun _ => [] end).
    destruct (kernel_counts _ _ _ _ _ _ _ _ Hk HR) as (_ & _ & _ & R4 & _).
    destruct (kernel_rows undefined random L _ _ _ _ _ _ _ n lp ll f Hk HR) as [K1 K2].
    - exact Hbeta.
    - intros i k. apply GR.
    - intros xs v. apply (rg_prior _ _ _ _ RG).
    - intros xs l b E. apply (like_facts W lp ll bl RG _ _ _ _ HM) in E as [-> ->]. split; [reflexivity|]. unfold f.
      destruct xs; [exact I|]. now destruct (blobs_of (s_cfg s) bl).
    - cbn [ks s_blobs]. intros HN xs l E. apply (like_facts W lp ll bl RG _ _ _ _ HM) in E as [_ E]. destruct xs; [reflexivity|].
      unfold has_blobs, current_arrays, with_blobs in HB. cbn [w_blobs] in HB. destruct (blobs_of (s_cfg s) bl); [discriminate|]. now destruct (cu_blobs c).
    - eexists. split; [reflexivity|]. split; [reflexivity|].
      assert (EB : (if s_have_blobs s then w_blobs (o_w res) else cu_blobs c) = w_blobs (o_w res)).
      { rewrite EH. unfold has_blobs, current_arrays in HB. cbn [w_blobs] in HB. cbn [input_walkers walkers_of w_blobs ks s_blobs] in K1.
        destruct (with_blobs s); [reflexivity|]. destruct (cu_blobs c); [discriminate|]. now destruct (w_blobs (o_w res)). }
      rewrite EB. set (c4 := {| cu_u := w_u (o_w res) |}).
      assert (EP : forall k, particle_at (current_arrays c4) k = particle_at (o_w res) k) by reflexivity.
      split; [destruct R4; constructor; assumption|]. split.
      { unfold has_blobs in HB |- *. unfold current_arrays in HB |- *. cbn [c4 w_blobs cu_blobs] in *. rewrite <- HB.
        cbn [input_walkers walkers_of w_blobs ks s_blobs] in K1. exact K1. }
      intros k Hk'. rewrite EP. destruct (K2 k Hk') as [K|[K KU]]; [left; exact K|right].
      unfold has_blobs, current_arrays in HB. cbn [w_blobs] in HB. cbn [input_walkers walkers_of w_blobs ks s_blobs] in K, K1. rewrite HB in K, K1.
      destruct K as [k1 k2 k3 k4 k5 k6 k7]. split.
      + constructor; auto. unfold with_blobs, f in *. destruct (blobs_of (s_cfg s) bl); cbn [option_map]; [now apply k4|].
        unfold particle_at. cbn [pt_blob]. now destruct (w_blobs (o_w res)).
      + constructor; auto. rewrite k2. exact KU.
  Qed.

  Theorem reachable_pinv s : reachable s -> pinv s.
  Proof.
    revert s. apply (reach_phases_from W (good_draws random drawn) interrupts pinv c1 c2 c2).
    - intros o s H Hp. assert (E : s_particles s = new_particles /\ s_prior_samples s = None /\ s_current s = None).
      { unfold new_sampler in H. do 12 (apply bind_ok in H as [? [_ H]]). apply Ok_inj in H. now subst s. }
      destruct E as (E1 & E2 & E3). assert (EH : history_of s = empty_past) by (unfold history_of; now rewrite E1).
      constructor; [exact Hp|now rewrite E2| |rewrite EH; cbn; lia|rewrite E3; discriminate].
      unfold legit_history. rewrite EH. split; [apply aligned_empty|cbn; lia].
    - intros n m s []. constructor; auto.
    - intros R s s' _ [I1 I2 [I3 I4] I5 I6] [G1 G2 _] H. apply draw_facts in H as [[_ ->]|[En (ps & sc & Hps & _ & ->)]]; [constructor; auto; split; auto|].
      rewrite En in I2. constructor; auto.
      + cbn. split; eauto.
      + split; [exact I3|]. unfold history_of in *. cbn [s_particles]. rewrite I2. cbn. lia.
    - intros R i s s' _ I HR Hw Hi H. pose proof I as [I1 I2 [I3 I4] I5 I6].
      destruct (s_prior_samples s) as [ps|] eqn:Eps; [|unfold warmup_batch in H; rewrite Eps in H; discriminate].
      destruct I2 as [I2 I2'].
      destruct (batch_rows W lp ll bl RG R i s s' ps H I1 Eps I2 Hi) as (w0 & source & c & X1 & X2 & X3 & X4 & X5 & X6 & X7 & X8 & X9 & X10 & X11 & X12 & X13 & X14 & X15).
      set (n := c_n_active (s_cfg s)) in *.
      destruct (gathered_rows w0 n source (current_arrays c) X2 X7) as (Y1 & Y2 & Y3). rewrite X5 in Y1, Y3.
      fold (with_blobs s) in X3.
      assert (HD : forall k, (k < n)%nat -> drawn (nth k (w_x w0) [])).
      { intros k Hk. rewrite X1. rewrite Forall_forall in I2'. apply I2'. eapply slice_in. apply nth_In. now rewrite (slice_length i n ps _ I2 Hi). }
      assert (LG : forall k, (k < n)%nat -> legit s (particle_at (current_arrays c) k)).
      { intros k Hk. destruct (Y3 k Hk) as [Z1 Z2]. rewrite Z2. destruct (X4 _ Z1) as (V1 & V2 & V3). split; [exact V1|left].
        destruct (X6 k Hk) as (_ & V4 & _). constructor; auto. apply HD. exact Z1. }
      assert (WB : with_blobs s' = with_blobs s) by (unfold with_blobs; now rewrite X12).
      pose proof (aligned_update (history_of s) n (with_blobs s) c I3 Y1 ltac:(congruence)) as (A1 & A2 & A3 & A4).
      assert (EH : history_of s' = update (history_of s) (items c)) by (unfold history_of; rewrite X9; reflexivity).
      constructor.
      + now rewrite X14.
      + rewrite X10, X12. split; [apply set_slice_length; auto; exact (re_x _ _ Y1)|].
        apply Forall_forall. intros x Hx. apply set_slice_in in Hx as [Hx|Hx]; [|rewrite Forall_forall in I2'; auto].
        apply (In_nth _ _ []) in Hx as [k [Hk <-]]. pose proof (re_x _ _ Y1) as LX. cbn [current_arrays w_x] in LX. assert (Hk' : (k < n)%nat) by (rewrite <- LX; exact Hk). clear Hk. rename Hk' into Hk.
        destruct (Y3 k Hk) as [Z1 Z2]. apply (f_equal (fun p => pt_x p)) in Z2. cbn [particle_at pt_x current_arrays w_x] in Z2. refine (eq_ind_r drawn _ Z2). now apply HD.
      + unfold legit_history. rewrite EH, X12. fold n. rewrite WB. split; [exact A1|].
        intros t k Ht Hk. unfold legit. rewrite X12, X13. fold (legit s (particle_at (stored (update (history_of s) (items c)) t) k)).
        rewrite A2 in Ht. destruct (Nat.eq_dec t (iterations (history_of s))) as [->|Ht'].
        * rewrite A3. now apply LG.
        * rewrite A4 by lia. apply I4; [lia|exact Hk].
      + rewrite WB, X11. unfold with_blobs. destruct (blobs_of (s_cfg s) bl); [auto|discriminate].
      + intros c' Hc'. rewrite X8 in Hc'. injection Hc' as <-. rewrite WB. intros Hf.
        unfold has_blobs in Y2, X3. cbn [current_arrays w_blobs] in Y2. rewrite X3, Hf in Y2. destruct (cu_blobs c); [discriminate Y2|reflexivity].
    - intros s [I1 I2 [I3 I4] I5 I6] Hw. constructor; auto. split; auto.
    - intros fuel s s1 Hreach I Hw H. pose proof I as [I1 I2 [I3 I4] I5 I6].
      destruct (reweight_rows fuel s s1 I H) as (EH & NE & idx & c & Hc & G).
      assert (BP : nleb (nofZ 0) (cu_beta c) = true /\ s_cfg s1 = s_cfg s /\ s_scaler s1 = s_scaler s /\ s_pool s1 = s_pool s /\ s_have_blobs s1 = s_have_blobs s /\
        s_particles s1 = s_particles s /\ s_prior_samples s1 = s_prior_samples s).
      { apply reweight_facts in H as (c0 & beta & logz & ess & w0 & neff & w1 & idx' & w2 & lf & u & x & ldj & logl & logp & b & cn & _ & Hb & _ & _ & _ & _ & _ & _ & _ & _ & _ & -> & ->).
        cbn [s_current] in Hc. injection Hc as <-. cbn [cu_beta]. destruct (reachable_ladder W _ interrupts good U s Hreach) as [LA [LB _]].
        apply (next_beta_range good U) in Hb as (rest & b0 & _ & _ & _ & Q & _); auto 10. }
      destruct BP as (BP & F1 & F2 & F3 & F4 & F5 & F6).
      destruct (flat_rows _ _ _ I3) as (FR & FB & _).
      destruct (gathered_rows _ _ _ _ FR G) as (Y1 & Y2 & Y3).
      assert (WB : with_blobs s1 = with_blobs s) by (unfold with_blobs; now rewrite F1).
      assert (LE : forall p, legit s p -> legit s1 p) by (unfold legit; now rewrite F1, F2).
      split.
      + constructor; unfold legit_history, history_of; rewrite ?F1, ?F3, ?F4, ?F5, ?F6, ?WB.
        * exact I1.
        * exact I2.
        * split; [exact I3|]. intros t k Ht Hk. apply LE. now apply I4.
        * exact I5.
        * intros c' Hc' Hf. rewrite Hc in Hc'. injection Hc' as <-. unfold has_blobs in Y2. rewrite FB in Y2 || idtac. cbn [current_arrays w_blobs] in Y2.
          unfold has_blobs in FB. rewrite FB, Hf in Y2. destruct (cu_blobs c); [discriminate Y2|reflexivity].
      + exists c, (length idx). split; [exact Hc|]. split; [exact Logic.I|]. split; [exact Y1|]. split; [congruence|]. split; [|split; [congruence|split; [exact BP|]]].
        2:{ rewrite F6. intros E. rewrite E in I2. apply NE. rewrite I2. reflexivity. }
        intros k Hk. apply LE. destruct (Y3 k Hk) as [Z1 Z2]. rewrite Z2.
        destruct (flat_index _ _ _ _ I3 Z1) as (t & k' & Ht & Hk' & _ & ->). now apply I4.
    - intros R s s2 _ [I1 I2 [I3 I4] I5 I6] J Hw H. apply train_facts in H as (c2' & now & fl & un & ug & tg & Ec & _ & _ & ->). split.
      + constructor; auto; [split; auto|]. cbn [s_current]. rewrite <- Ec. exact I6.
      + destruct J as (c & n & Hc & J). exists c, n. rewrite Hc in Ec. injection Ec as <-. split; [reflexivity|exact J].
    - intros R s s3 _ [I1 I2 [I3 I4] I5 I6] (c & n & Hc & _ & J2 & J3 & J4 & J5 & J6 & J7) HR Hw H.
      destruct (resample_rows R s s3 n c J5 H Hc J2 J3) as (idx & c3 & Hc3 & G & Li).
      assert (F : cu_beta c3 = cu_beta c /\ s3 = with_current s c3).
      { apply resample_facts in H as (c' & w3 & idx3 & u3 & x3 & ldj3 & logl3 & logp3 & b3 & Ec & _ & _ & _ & _ & _ & _ & _ & _ & ->).
        cbn [with_current s_current] in Hc3. injection Hc3 as <-. rewrite Hc in Ec. injection Ec as <-. auto. }
      destruct F as [F1 ->]. destruct (gathered_rows _ _ _ _ J2 G) as (Y1 & Y2 & Y3). split.
      + constructor; auto; [split; auto|]. cbn [with_current s_current]. intros c' Hc' Hf. injection Hc' as <-.
        change (with_blobs (with_current s c3)) with (with_blobs s) in Hf.
        unfold has_blobs in Y2, J3. rewrite J3, Hf in Y2. cbn [current_arrays w_blobs] in Y2. destruct (cu_blobs c3); [discriminate Y2|reflexivity].
      + exists c3, (length idx). split; [reflexivity|]. split; [exact Li|]. split; [exact Y1|]. split; [rewrite Y2; exact J3|]. split; [|split; [exact J5|split; [now rewrite F1|exact J7]]].
        intros k Hk. destruct (Y3 k Hk) as [Z1 Z2]. rewrite Z2. exact (J4 _ Z1).
    - intros R s s4 _ I (c & n & Hc & Hn & J2 & J3 & J4 & J5 & J6 & J7) HR Hw H. pose proof I as [I1 I2 [I3 I4] I5 I6].
      destruct (mutate_rows R s s4 n c I1 HR J5 H Hc J2 J3 J6) as (c4 & Hc4 & B4 & R4 & HB4 & RW).
      apply mutate_facts in H as (c5 & b5 & ks & res & c' & _ & _ & _ & _ & _ & _ & ->). cbn [s_current] in Hc4. injection Hc4 as ->. split.
      + constructor; auto; [split; auto|]. cbn [s_current]. intros c'' Hc'' Hf. injection Hc'' as <-.
        unfold has_blobs in HB4. change (with_blobs s = false) in Hf. rewrite Hf in HB4. cbn [current_arrays w_blobs] in HB4. destruct (cu_blobs c4); [discriminate HB4|reflexivity].
      + exists c4, n. split; [reflexivity|]. split; [exact Hn|]. split; [exact R4|]. split; [exact HB4|]. split; [|split; [exact J5|split; [now rewrite B4|exact J7]]].
        intros k Hk. destruct (RW k Hk) as [E|[E1 E2]]; [rewrite E; exact (J4 k Hk)|]. split; [exact E1|right; exact E2].
    - intros s c I (c' & n & Hc & Hn & J2 & J3 & J4 & J5 & J6 & J7) Hw Ec. rewrite Hc in Ec. injection Ec as ->. subst n.
      apply store_inv; auto. intros E. now rewrite J5.
    - intros R s s' _ [I1 I2 [I3 I4] I5 I6] _ _ H. apply evidence_facts in H as (n & logz & err & calls & evals & hb & _ & -> & H).
      constructor; auto; [split; auto|]. intros E1 E2. specialize (I5 E1 E2). cbn [with_evidence s_have_blobs].
      destruct (_ && _).
      + destruct H as (xq & ldj & logp & logl & b & H). destruct (rn_flow _ _ _). destruct H as (_ & _ & _ & _ & -> & _). unfold after_like. rewrite I5. now destruct b.
      + destruct H as (_ & _ & _ & -> & _). exact I5.
    - intros s I. unfold results_of. assert (E : p_past (snd (compute_results (s_particles s))) = p_past (s_particles s)).
      { unfold compute_results. destruct (p_results (s_particles s)); [reflexivity|]. now destruct (compute_logw_and_logz _ _ _) as [[? ?]|]. }
      destruct (compute_results (s_particles s)) as [r p]. cbn [snd] in *. destruct I as [I1 I2 [I3 I4] I5 I6].
      constructor; unfold legit_history, history_of in *; cbn [with_particles s_particles s_prior_samples s_cfg s_current s_have_blobs]; rewrite ?E; auto.
    - intros saved self [I1 I2 [I3 I4] I5 I6] [J1 _ _ _ _]. constructor; auto; [|split; auto].
      cbn [load with_pool s_pool]. now destruct (s_pool saved).
    - intros s p [I1 I2 [I3 I4] I5 I6] _ _. constructor; auto. split; auto.
  Qed.
End Inv.

(** * posterior() in exact arithmetic *)
From Coq Require Import ZArith Reals Lra Sorted.
From Coq Require Import List Bool Lia.
From Verif Require Import Num PyBase PyBaseFacts XReal RList Tools SpecTools ToolsFacts TrimFacts ChoiceFacts ResampleFacts Scaler Particles SpecParticles ParticlesFacts LogLike Geometry GeometryFacts
  Mcmc SpecMcmc McmcNum McmcFacts Flow Sampler ConfigFacts SpecReach SamplerFacts SpecRun XUnit RowFacts ParticleInv HistoryFacts HistoryMain SpecTrace SpecPosterior PosteriorFacts FiniteHistory.
Import ListNotations.
Set Bullet Behavior "Strict Subproofs".
Local Open Scope R_scope.

Lemma kept_positions (p : list R) f : at_positions p (map fst (filter (fun sw => f (snd sw)) (combine (seq 0 (length p)) p))) (map snd (filter (fun sw => f (snd sw)) (combine (seq 0 (length p)) p))) /\
  StronglySorted lt (map fst (filter (fun sw => f (snd sw)) (combine (seq 0 (length p)) p))) /\
  (forall i, In i (map fst (filter (fun sw => f (snd sw)) (combine (seq 0 (length p)) p))) <-> (i < length p)%nat /\ f (nth i p 0) = true).
Proof.
  assert (A : forall pr, In pr (combine (seq 0 (length p)) p) -> nth_error p (fst pr) = Some (snd pr)).
  { intros [i w] H. apply In_nth with (d := (0%nat, 0)) in H as (k & Hk & E). rewrite combine_length, seq_length in Hk. rewrite combine_nth in E by apply seq_length.
    rewrite seq_nth in E by lia. injection E as <- <-. cbn [fst snd Nat.add]. apply nth_error_nth'. lia. }
  split; [|split].
  - unfold at_positions. assert (B : forall pr, In pr (filter (fun sw => f (snd sw)) (combine (seq 0 (length p)) p)) -> nth_error p (fst pr) = Some (snd pr)) by (intros pr H; apply filter_In in H; apply A; tauto).
    revert B. generalize (filter (fun sw => f (snd sw)) (combine (seq 0 (length p)) p)). induction l as [|pr l IH]; intros B; cbn [map]; constructor; [apply B; now left|]. apply IH. intros; apply B; now right.
  - rewrite <- compress_map_combine by apply seq_length. rewrite map_fst_combine by (apply compress_map_length; apply seq_length). apply compress_increasing.
  - intros i. rewrite in_map_iff. split.
    + intros ([j w] & E & H). cbn [fst] in E. subst j. apply filter_In in H as [H1 H2]. apply A in H1. cbn [fst snd] in *. assert (i < length p)%nat by (apply nth_error_Some; congruence).
      split; [assumption|]. now rewrite (nth_error_nth _ _ 0 H1).
    + intros [H1 H2]. exists (i, nth i p 0). split; [reflexivity|]. apply filter_In. split; [|exact H2].
      replace (i, nth i p 0) with (nth i (combine (seq 0 (length p)) p) (0%nat, 0)); [|rewrite combine_nth by apply seq_length; now rewrite seq_nth].
      apply nth_In. rewrite combine_length, seq_length. lia.
Qed.
Lemma at_positions_in {A} (l : list A) idx v : at_positions l idx v -> forall i, In i idx -> (i < length l)%nat.
Proof. intros H. induction H as [|j b idx v E H IH]; intros i [].  - subst j. apply nth_error_Some. congruence. - now apply IH. Qed.
Lemma at_positions_length {A} (l : list A) idx v : at_positions l idx v -> length idx = length v.
Proof. intros H. induction H as [|i b idx v E H IH]; [reflexivity|]. cbn [length]. now rewrite IH. Qed.
Lemma Forall2_len {A B} (R : A -> B -> Prop) l m : Forall2 R l m -> length l = length m.
Proof. intros H. induction H as [|a b l m E H IH]; [reflexivity|]. cbn [length]. now rewrite IH. Qed.
Lemma Forall2_at {A B} (R : A -> B -> Prop) l m : Forall2 R l m -> forall k a b, nth_error l k = Some a -> nth_error m k = Some b -> R a b.
Proof. intros H. induction H as [|a b l m E H IH]; intros [|k] x y H1 H2; try discriminate; cbn [nth_error] in *; [congruence|]. eapply IH; eassumption. Qed.
Lemma positions_of {A} (l : list A) idx : (forall i, In i idx -> (i < length l)%nat) -> exists v, at_positions l idx v.
Proof.
  intros H. induction idx as [|i idx IH]; [exists []; constructor|]. destruct IH as [v Hv]; [intros; apply H; now right|].
  destruct (nth_error l i) as [a|] eqn:E; [|apply nth_error_None in E; specialize (H i (or_introl eq_refl)); lia]. exists (a :: v). constructor; auto.
Qed.
Lemma at_positions_image {A B} (f : A -> B) l idx v : at_positions l idx v -> at_positions (map f l) idx (map f v).
Proof. intros H. induction H as [|i b idx v E H IH]; cbn [map]; constructor; [rewrite nth_error_map, E; reflexivity|exact IH]. Qed.
Lemma Fin_map_inj a b : map Fin a = map Fin b -> a = b.
Proof. revert b. induction a as [|x a IH]; intros [|y b] H; try discriminate; [reflexivity|]. cbn [map] in H. injection H as -> H. f_equal. now apply IH. Qed.
Lemma full_positions idx n : StronglySorted lt idx -> (forall i, In i idx <-> (i < n)%nat) -> idx = seq 0 n.
Proof.
  assert (G : forall n a idx, StronglySorted lt idx -> (forall i, In i idx <-> (a <= i < a + n)%nat) -> idx = seq a n).
  { clear. induction n as [|n IH]; intros a idx S H.
    - destruct idx as [|i idx]; [reflexivity|]. specialize (proj1 (H i) (or_introl eq_refl)). lia.
    - destruct idx as [|i idx]; [specialize (proj2 (H a)); intros Q; destruct Q; lia|]. inversion S as [|? ? S1 S2]; subst. rewrite Forall_forall in S2.
      assert (i = a). { pose proof (proj1 (H i) (or_introl eq_refl)). destruct (proj2 (H a)) as [E|E]; [lia|exact E|]. specialize (S2 a E). lia. }
      subst i. cbn [seq]. f_equal. apply IH; [exact S1|]. intros j. split; intros Hj.
      + pose proof (S2 j Hj). pose proof (proj1 (H j) (or_intror Hj)). lia.
      + destruct (proj2 (H j)) as [E|E]; [lia|lia|exact E]. }
  intros S H. apply G; [exact S|]. intros i. rewrite H. lia.
Qed.

(** the normalised weights of some of the weights *)
Lemma renormalised (v : list R) c : 0 < c -> 0 < total v ->
  map (fun w => w / total (map (fun x => x / c) v)) (map (fun x => x / c) v) = map (fun x => x / total v) v.
Proof.
  intros Hc Hv. rewrite !total_Rsum in *. rewrite map_map. apply map_ext. intros x. rewrite (Rsum_map_div c (fun x => x)), map_id. field. lra.
Qed.
Lemma exp_ln_map p lw : Forall (fun x => 0 < x) p -> map exp lw = p -> lw = map ln p.
Proof. intros _ <-. rewrite map_map, <- (map_id lw) at 1. apply map_ext. intros. now rewrite ln_exp. Qed.
Lemma total_positive l : Forall (fun x => 0 < x) l -> l <> [] -> 0 < total l.
Proof.
  intros H Hn. rewrite total_Rsum. destruct H as [|x l Hx H]; [easy|]. cbn [Rsum fold_right]. clear Hn.
  assert (0 <= Rsum l) by (induction H; cbn; lra). cbn. unfold Rsum in *. lra.
Qed.

(** the weights at some positions sum to at most everything *)
Lemma partial_mass p : forall idx, Forall (fun x => 0 < x) p -> StronglySorted lt idx -> (forall i, In i idx -> (i < length p)%nat) ->
  total (map (fun i => nth i p 0) idx) <= total p /\ (total (map (fun i => nth i p 0) idx) = total p <-> idx = seq 0 (length p)).
Proof.
  assert (G : forall n a idx, Forall (fun x => 0 < x) p -> StronglySorted lt idx -> (forall i, In i idx -> (a <= i < a + n)%nat) -> (a + n <= length p)%nat ->
    Rsum (map (fun i => nth i p 0) idx) <= Rsum (map (fun i => nth i p 0) (seq a n)) /\ (Rsum (map (fun i => nth i p 0) idx) = Rsum (map (fun i => nth i p 0) (seq a n)) -> idx = seq a n)).
  { induction n as [|n IH]; intros a idx Hp S H Hn.
    - destruct idx as [|i idx]; [split; [apply Rle_refl|reflexivity]|]. specialize (H i (or_introl eq_refl)). lia.
    - assert (Ha : 0 < nth a p 0) by (rewrite Forall_forall in Hp; apply Hp, nth_In; lia). cbn [seq map Rsum fold_right].
      assert (Q : (exists r, idx = a :: r) \/ (forall i, In i idx -> (Datatypes.S a <= i < Datatypes.S a + n)%nat)).
      { destruct idx as [|i idx]; [right; easy|]. destruct (Nat.eq_dec i a) as [->|Hi]; [left; eauto|right]. inversion S as [|? ? S1 S2]; subst. rewrite Forall_forall in S2.
        intros j [<-|Hj]; [specialize (H i (or_introl eq_refl)); lia|]. specialize (S2 j Hj). pose proof (H i (or_introl eq_refl)). pose proof (H j (or_intror Hj)). lia. }
      destruct Q as [[r ->]|Q].
      + inversion S as [|? ? S1 S2]; subst. rewrite Forall_forall in S2. destruct (IH (Datatypes.S a) r Hp S1) as [I1 I2].
        { intros i Hi. specialize (S2 i Hi). specialize (H i (or_intror Hi)). lia. } { lia. }
        cbn [map Rsum fold_right]. fold (Rsum (map (fun i => nth i p 0) r)). fold (Rsum (map (fun i => nth i p 0) (seq (Datatypes.S a) n))). split; [lra|]. intros E. f_equal. apply I2. lra.
      + destruct (IH (Datatypes.S a) idx Hp S Q) as [I1 I2]; [lia|]. fold (Rsum (map (fun i => nth i p 0) (seq (Datatypes.S a) n))). split; [lra|]. intros E. lra. }
  intros idx Hp S H. rewrite !total_Rsum. destruct (G (length p) 0%nat idx Hp S) as [G1 G2]; [intros i Hi; specialize (H i Hi); lia|lia|].
  rewrite <- (list_of_nth p 0) in G1, G2. split; [exact G1|]. split; [exact G2|]. intros ->. now rewrite <- (list_of_nth p 0).
Qed.

Lemma gather_total {A} (l0 : list A) i0 : (forall i, In i i0 -> (i < length l0)%nat) -> exists v0, gather l0 i0 = Ok v0 /\ length v0 = length i0.
Proof. intros Hi. destruct (positions_of l0 i0 Hi) as [v0 Hv]. exists v0. split; [now apply gather_Forall2|]. symmetry. eapply at_positions_length; exact Hv. Qed.
Ltac got t y Hy side := match goal with |- context [@gather ?A ?l ?i] => unify l t; let e := constr:(@gather A l i) in
  let E := fresh in destruct (gather_total l i) as (y & E & Hy); [side|]; change e with (gather l i); rewrite E; clear E; cbn [bind] end.
Section Exact.
  Context {C P Opt : Type}.
  Variable W : world X C P Opt.
  Variable lp ll : vec X -> X.
  Variable bl : option (vec X -> list C).
  Hypothesis RG : regular W lp ll bl.
  Variable drawn : vec X -> Prop.
  Hypothesis HN : forall x, drawn x -> ll x <> NaN.
  Hypothesis HI : forall x, ll x <> PInf.
  Variable interrupts : bool.
  Notation reachable := (reachable W (good_draws x_random drawn) interrupts).
  Implicit Types s : sampler X C P.

  Theorem posterior_both a us u ess s : reachable s -> iterations (history_of s) <> 0%nat ->
    pa_ess a = Fin ess -> ess <= 1 -> (1 <= pa_bins a)%nat -> (pa_return_blobs a = true -> blobs_of (s_cfg s) bl <> None) ->
    (forall i, 0 <= us i < 1) -> 0 <= u < 1 ->
    exists ls bs zs idx rows l,
      history (history_of s) ls bs zs /\ map pt_logl (all_particles s) = map Fin (concat ls) /\
      at_positions (all_particles s) idx rows /\ StronglySorted lt idx /\ map pt_logl rows = map Fin l /\
      let everything := normalised_weights bs zs (concat ls) in let ws := normalised_weights bs zs l in
      Forall (fun w => 0 < w) ws /\ total ws = 1 /\
      (if pa_trim a then exists tau, at_least tau everything idx /\ ess * kish_ess everything <= kish_ess ws else rows = all_particles s) /\
      forall b, exists o, posterior (with_logw a b) (fun i => Fin (us i)) (Fin u) s = Ok o /\
      (if pa_resample a then exists again rows', at_positions rows again rows' /\ length rows' = length rows /\ rows_are o (pa_return_blobs a) rows' /\ po_w o = None /\
           match c_resample (s_cfg s) with
           | MULT => forall k i, nth_error again k = Some i -> total (firstn i ws) <= us k < total (firstn (S i) ws)
           | SYST => forall i, (i < length ws)%nat -> Rabs (INR (copies i again) - INR (length rows) * nth i ws 0) <= 1
           end
       else rows_are o (pa_return_blobs a) rows /\
         po_w o = Some (map Fin (if b then map (fun x => ln (balance_weight bs zs 1 x / total (map (balance_weight bs zs 1) (concat ls)))) l else ws))).
  Proof.
    intros H NE Ess He Hb HB Hus Hu.
    destruct (exact_past W lp ll bl RG drawn HN HI interrupts s H NE) as (ls & bs & zs & HH & Hbs & _).
    pose proof (reachable_pinv W x_undefined x_random X_ieee _ x_unit_interval lp ll bl RG drawn interrupts s H) as [_ _ [A _] Hhave _].
    destruct (all_flat s _ A) as (F1 & F2 & F3 & F4 & F5). set (all := all_particles s) in *.
    destruct (flat_gets _ _ _ A NE) as (_ & G1 & _ & G2 & G3 & G4).
    assert (EL : map pt_logl all = map Fin (concat ls)). { rewrite <- F2. destruct HH as (-> & _). symmetry. exact (concat_map Fin ls). }
    destruct (weights_are_balance_weights (history_of s) ls bs zs 1 HH) as (HP & lw & lw' & lz & EW & _ & _ & Elw & Tlw & _).
    set (v := map (balance_weight bs zs 1) (concat ls)) in *.
    assert (Vne : concat ls <> []) by apply HH.
    assert (Vt : 0 < total v) by (apply total_positive; [exact HP|unfold v; destruct (concat ls); [easy|discriminate]]).
    set (p := map (fun x => x / total v) v) in *. rewrite Elw in Tlw.
    assert (Hp : Forall (fun x => 0 < x) p). { apply Forall_map. eapply Forall_impl; [|exact HP]. cbv beta. intros x Hx. now apply Rdiv_lt_0_compat. }
    assert (Elw2 : lw = map ln p) by now apply exp_ln_map.
    assert (Lp : length p = length (concat ls)) by (unfold p, v; now rewrite !map_length).
    assert (Lall : length all = length p). { rewrite Lp. rewrite <- (map_length pt_logl all), EL. now rewrite map_length. }
    assert (EXP : map nexp (map Fin lw) = map Fin p). { rewrite <- Elw, !map_map. reflexivity. }
    (* the positions kept *)
    assert (SEL : exists idx rows l, at_positions all idx rows /\ StronglySorted lt idx /\ map pt_logl rows = map Fin l /\ at_positions (concat ls) idx l /\ l <> [] /\
      (if pa_trim a then exists left, trim_weights (seq 0 (length all)) (map Fin p) (pa_ess a) (pa_bins a) = Ok (idx, map Fin (normalised_weights bs zs l), left) else idx = seq 0 (length all) /\ rows = all) /\
      (if pa_trim a then exists tau, at_least tau p idx /\ ess * kish_ess p <= kish_ess (normalised_weights bs zs l) else rows = all)).
    { destruct (pa_trim a).
      - rewrite Ess. destruct (trim_weights_ok (seq 0 (length all)) p ess (pa_bins a)) as (j & tau & _ & _ & TW & K1 & K2 & _).
        { eapply Forall_impl; [|exact Hp]. cbv beta. intros; lra. } { rewrite Tlw. lra. } { rewrite seq_length. exact Lall. } { exact Hb. } { exact He. }
        assert (Ep : map (fun w => w / total p) p = p). { rewrite Tlw. transitivity (map (fun x : R => x) p); [|apply map_id]. apply map_ext. intros; field. }
        rewrite Ep in *. rewrite Lall in *. destruct (kept_positions p (Rleb tau)) as (Q1 & Q2 & Q3).
        set (idx := map fst (filter (fun sw => Rleb tau (snd sw)) (combine (seq 0 (length p)) p))) in *.
        set (kw := map snd (filter (fun sw => Rleb tau (snd sw)) (combine (seq 0 (length p)) p))) in *.
        assert (B : forall i, In i idx -> (i < length all)%nat) by (intros i Hi; rewrite Lall; now apply Q3).
        destruct (positions_of all idx B) as [rows HR]. destruct (positions_of (concat ls) idx) as [l HL]; [intros i Hi; rewrite <- Lp, <- Lall; now apply B|].
        assert (El : map pt_logl rows = map Fin l). { apply (at_positions_fun (map pt_logl all) idx); [now apply at_positions_image|]. rewrite EL. now apply at_positions_image. }
        assert (Ekw : kw = map (fun x => x / total v) (map (balance_weight bs zs 1) l)). { apply (at_positions_fun p idx); [exact Q1|]. unfold p, v. now apply at_positions_image, at_positions_image. }
        assert (Lne : l <> []). { intros ->. rewrite Ekw in K1. cbn in K1. lra. }
        assert (Vl : 0 < total (map (balance_weight bs zs 1) l)).
        { apply total_positive; [|destruct l; [easy|discriminate]]. apply Forall_map, Forall_forall. intros x Hx. rewrite Forall_forall in HP. apply HP. unfold v. apply in_map.
          clear -HL Hx. induction HL as [|i b idx l E HL IH]; [easy|]. destruct Hx as [<-|Hx]; [|auto]. now apply nth_error_In in E. }
        assert (Enw : map (fun w => w / total kw) kw = normalised_weights bs zs l) by (rewrite Ekw; unfold normalised_weights; now apply renormalised).
        exists idx, rows, l. split; [exact HR|]. split; [exact Q2|]. split; [exact El|]. split; [exact HL|]. split; [exact Lne|].
        rewrite Enw in TW. split; [eexists; exact TW|]. exists tau. split; [intros i; rewrite Q3; split; intros [Z1 Z2]; (split; [exact Z1|]); [now apply Rleb_true|now apply Rleb_true]|].
        rewrite <- Enw. rewrite !kish_essR in *. rewrite total_Rsum in K1 |- *. rewrite essR_normalised by exact K1. apply K2.
      - exists (seq 0 (length all)), all, (concat ls). split; [apply at_positions_all|]. split; [apply increasing_seq|]. split; [exact EL|].
        split; [rewrite Lall, Lp; apply at_positions_all|]. auto. }
    destruct SEL as (idx & rows & l & S1 & S2 & S3 & S4 & S5 & S6 & S7).
    assert (Hl : Forall (fun x => 0 < x) (map (balance_weight bs zs 1) l)).
    { apply Forall_map, Forall_forall. intros x Hx. rewrite Forall_forall in HP. apply HP. unfold v. apply in_map.
      clear -S4 Hx. induction S4 as [|i b idx l E HL IH]; [easy|]. destruct Hx as [<-|Hx]; [|auto]. now apply nth_error_In in E. }
    assert (Vl : 0 < total (map (balance_weight bs zs 1) l)) by (apply total_positive; [exact Hl|destruct l; [easy|discriminate]]).
    set (ws := normalised_weights bs zs l) in *.
    assert (W1 : Forall (fun w => 0 < w) ws). { unfold ws, normalised_weights. apply Forall_map. eapply Forall_impl; [|exact Hl]. cbv beta. intros x Hx. now apply Rdiv_lt_0_compat. }
    assert (W2 : total ws = 1). { unfold ws, normalised_weights. rewrite total_Rsum in Vl. rewrite !total_Rsum. apply Rsum_norm. exact Vl. }
    assert (Lw : length ws = length rows). { unfold ws, normalised_weights. rewrite !map_length. rewrite <- (map_length Fin l), <- S3. apply map_length. }
    assert (Lr : length ws <> 0%nat). { unfold ws, normalised_weights. rewrite !map_length. destruct l; [easy|discriminate]. }
    set (logw := map (fun x => ln (balance_weight bs zs 1 x / total v)) l).
    assert (SL : at_positions (map Fin lw) idx (map Fin logw)).
    { rewrite Elw2. unfold p, v, logw. apply at_positions_image. rewrite !map_map. now apply (at_positions_image (fun x => ln (balance_weight bs zs 1 x / total (map (balance_weight bs zs 1) (concat ls))))). }
    (* resampling *)
    assert (RS : exists again, match c_resample (s_cfg s) with
                  | MULT => random_choice (map (fun i => Fin (us i)) (seq 0 (length rows))) (map Fin ws)
                  | SYST => systematic_resample (Fin u) (length (map Fin ws)) (map Fin ws)
                  end = Ok again /\ (forall i, In i again -> (i < length rows)%nat) /\ length again = length rows /\
           match c_resample (s_cfg s) with
           | MULT => forall k i, nth_error again k = Some i -> total (firstn i ws) <= us k < total (firstn (S i) ws)
           | SYST => forall i, (i < length ws)%nat -> Rabs (INR (copies i again) - INR (length rows) * nth i ws 0) <= 1
           end).
    { assert (W0 : Forall (fun w => 0 <= w) ws) by (eapply Forall_impl; [|exact W1]; cbv beta; intros; lra). destruct (c_resample (s_cfg s)).
      - destruct (random_choice_spec (map us (seq 0 (length rows))) ws W0) as (again & R1 & R2).
        { rewrite W2, Rminus_eq_0, Rabs_R0. left. apply Rinv_0_lt_compat. apply pow_lt. lra. }
        { apply Forall_map, Forall_forall. intros; apply Hus. }
        exists again. rewrite map_map in R1. split; [exact R1|]. pose proof (Forall2_len _ _ _ R2) as Q. rewrite map_length, seq_length in Q. rewrite W2 in R2. split; [|split; [congruence|]].
        + intros i Hi. rewrite <- Lw. clear -R2 Hi. induction R2 as [|y j la la' Hy R2 IH]; [easy|]. destruct Hi as [<-|Hi]; [apply Hy|auto].
        + intros k i Hk. assert (k < length rows)%nat by (rewrite Q; apply nth_error_Some; congruence).
          assert (nth_error (map us (seq 0 (length rows))) k = Some (us k)) as Hk'.
          { rewrite nth_error_map. rewrite (nth_error_nth' _ 0%nat) by (rewrite seq_length; lia). rewrite seq_nth by lia. reflexivity. }
          destruct (Forall2_at _ _ _ R2 k _ _ Hk' Hk) as (_ & _ & Z). lra.
      - destruct (systematic_counts u (length ws) ws) as (again & R1 & R2 & _ & R3 & R4 & _); [split; [exact W0|split; [lra|now left]]|exact Hu|lia|].
        exists again. rewrite map_length. split; [exact R1|]. rewrite W2 in R4. rewrite Forall_forall in R3. split; [intros i Hi; rewrite <- Lw; now apply R3|]. split; [congruence|].
        intros i Hi. specialize (R4 i Hi). rewrite <- Lw. now replace (nth i ws 0 / 1) with (nth i ws 0) in R4 by field. }
    destruct RS as (again & R1 & R2 & R3 & R4).
    destruct (positions_of rows again R2) as [rows' HR'].
    (* the call *)
    assert (OK : forall b, exists o, posterior (with_logw a b) (fun i => Fin (us i)) (Fin u) s = Ok o).
    { intros lwb. unfold posterior. cbn [with_logw pa_resample pa_return_blobs pa_trim pa_return_logw pa_ess pa_bins]. fold (history_of s).
      assert (B0 : pa_return_blobs a && negb (s_have_blobs s) = false).
      { destruct (pa_return_blobs a); [|reflexivity]. cbn [andb]. rewrite Hhave; [reflexivity| |exact NE]. unfold with_blobs. specialize (HB eq_refl). now destruct (blobs_of (s_cfg s) bl). }
      rewrite B0. cbn [bind]. rewrite G1, G2, G3. cbn [bind]. rewrite F1, F2, F3.
      assert (B1 : exists b0, (if pa_return_blobs a then let! b := get_flat (history_of s) Kblobs in Ok (Some b) else Ok None) = Ok b0 /\ match b0 with Some b => length b = length all | None => True end).
      { destruct (pa_return_blobs a); [|now exists None]. rewrite G4. unfold with_blobs in *. specialize (HB eq_refl). destruct (blobs_of (s_cfg s) bl); [|easy]. cbn [bind]. eexists; split; [reflexivity|].
        cbv beta iota. specialize (F4 eq_refl). apply (f_equal (@length _)) in F4. rewrite !map_length in F4. exact F4. }
      destruct B1 as (b0 & -> & B1). cbn [bind].
      let t := type of EW in match t with ?lhs = _ => match goal with |- context [compute_logw_and_logz ?q ?b ?f] => change (compute_logw_and_logz q b f) with lhs end end.
      rewrite EW. cbn [bind]. cbn [elt] in b0, B1 |- *.
      assert (I1 : forall i, In i idx -> (i < length all)%nat) by exact (at_positions_in _ _ _ S1).
      match goal with |- exists o, bind ?m _ = Ok o => assert (SEL : exists xs l0 p0 b1, m = Ok (xs, l0, p0, map Fin logw, map Fin ws, b1) /\
         length xs = length rows /\ length l0 = length rows /\ length p0 = length rows /\ match b1 with Some b => length b = length rows | None => True end) end.
      { pose proof (at_positions_length _ _ _ S1) as Li. assert (M : forall Y (f : particle X (list C) -> Y) i, In i idx -> (i < length (map f all))%nat) by (intros; rewrite map_length; now apply I1).
        destruct (pa_trim a).
        - destruct S6 as [left S6]. rewrite map_length. let t := type of S6 in match t with ?lhs = _ => match goal with |- context [trim_weights ?q ?b ?f ?g] => replace (trim_weights q b f g) with lhs end end.
          2:{ f_equal. symmetry. exact EXP. }
          rewrite S6. cbn [bind].
          got (map pt_x all) xs X1 ltac:(exact (M _ _)). got (map pt_logl all) l0 X2 ltac:(exact (M _ _)). got (map pt_logp all) p0 X3 ltac:(exact (M _ _)).
          apply gather_Forall2 in SL. match goal with |- context [gather ?l idx] => unify l (map Fin lw); change (gather l idx) with (gather (map Fin lw) idx) end. rewrite SL. cbn [bind]. destruct b0 as [b|].
          + got b b1 X4 ltac:(intros; rewrite B1; now apply I1). cbn [bind]. exists xs, l0, p0, (Some b1). split; [reflexivity|]. repeat split; congruence.
          + cbn [bind]. exists xs, l0, p0, None. split; [reflexivity|]. repeat split; congruence.
        - destruct S6 as [-> ->]. exists (map pt_x all), (map pt_logl all), (map pt_logp all), b0. rewrite !map_length. repeat split; auto. rewrite EXP.
          assert (l = concat ls) as El2. { apply Fin_map_inj. rewrite <- S3. exact EL. }
          assert (map Fin p = map Fin ws) as -> by (unfold ws; rewrite El2; reflexivity).
          assert (map Fin lw = map Fin logw) as ->; [|reflexivity]. rewrite Elw2. unfold p, v, logw. rewrite El2, !map_map. reflexivity. }
      destruct SEL as (xs & l0 & p0 & b1 & -> & X1 & X2 & X3 & X4). cbn [bind]. destruct (pa_resample a); [|eauto].
      rewrite X1. match goal with |- exists o, bind ?m _ = _ => let t := type of R1 in match t with ?lhs = _ => change m with lhs end end. rewrite R1. cbn [bind]. got xs y1 Y1 ltac:(intros; rewrite X1; auto). got l0 y2 Y2 ltac:(intros; rewrite X2; auto). got p0 y3 Y3 ltac:(intros; rewrite X3; auto).
      destruct b1 as [b1|]; [|cbn [bind]; eauto]. got b1 y4 Y4 ltac:(intros; rewrite X4; auto). eauto. }
    exists ls, bs, zs, idx, rows, l. split; [exact HH|]. split; [exact EL|]. split; [exact S1|]. split; [exact S2|]. split; [exact S3|].
    cbv zeta. fold ws. change (normalised_weights bs zs (concat ls)) with p. split; [exact W1|]. split; [exact W2|]. split; [exact S7|]. intros lwb. destruct (OK lwb) as [o OKo]. exists o. split; [exact OKo|].
    pose proof (posterior_rows W x_undefined x_random _ X_ieee x_unit_interval lp ll bl RG drawn interrupts (with_logw a lwb) _ _ s o H OKo) as (idx' & rows1 & logw1 & w1 & (logw0 & z0 & Z1 & Z2) & Z3 & _ & Z4).
    unfold selected in *. cbn [with_logw pa_resample pa_return_blobs pa_trim pa_return_logw pa_ess pa_bins] in Z2, Z4.
    pose proof (eq_trans (eq_sym Z1) EW) as Z1'. clear Z1. rename Z1' into Z1. apply Ok_inj in Z1. injection Z1 as -> ->. fold all in Z2, Z3.
    assert (ID : idx' = idx /\ logw1 = map Fin logw /\ w1 = map Fin ws).
    { destruct (pa_trim a).
      - destruct Z2 as (left2 & Z2 & Z5). destruct S6 as [left S6].
        assert (Z6 : trim_weights (seq 0 (length all)) (map Fin p) (pa_ess a) (pa_bins a) = Ok (idx', w1, left2)) by (rewrite <- EXP; exact Z2). rewrite S6 in Z6. rename Z2 into Z2'. rename Z6 into Z2. apply Ok_inj in Z2. injection Z2 as <- <- _. split; [reflexivity|]. split; [|reflexivity]. eapply at_positions_fun; eassumption.
      - destruct Z2 as (-> & -> & ->). destruct S6 as [-> ->]. assert (l = concat ls) as El2. { apply Fin_map_inj. rewrite <- S3. exact EL. }
        split; [reflexivity|]. split; [|etransitivity; [exact EXP|unfold ws; rewrite El2; reflexivity]]. rewrite Elw2. unfold p, v, logw. rewrite El2, !map_map. reflexivity. }
    destruct ID as (-> & -> & ->). rewrite (at_positions_fun _ _ _ _ Z3 S1) in *. destruct (pa_resample a).
    - destruct Z4 as (again2 & rows2 & Z4 & Z5 & Z6 & Z7). assert (again2 = again). { destruct (c_resample (s_cfg s)); pose proof (eq_trans (eq_sym Z7) R1) as Z8; now apply Ok_inj in Z8. }
      subst again2. exists again, rows2. split; [exact Z4|]. split; [rewrite <- (at_positions_length _ _ _ Z4); exact R3|]. split; [exact Z5|]. split; [exact Z6|]. exact R4.
    - destruct Z4 as [Z4 Z5]. split; [exact Z4|]. rewrite Z5. f_equal. now destruct lwb.
  Qed.

  Theorem posterior_exact a us u ess s : reachable s -> iterations (history_of s) <> 0%nat ->
    pa_ess a = Fin ess -> ess <= 1 -> (1 <= pa_bins a)%nat -> (pa_return_blobs a = true -> blobs_of (s_cfg s) bl <> None) ->
    (forall i, 0 <= us i < 1) -> 0 <= u < 1 ->
    exists ls bs zs o idx rows l,
      history (history_of s) ls bs zs /\ map pt_logl (all_particles s) = map Fin (concat ls) /\
      posterior a (fun i => Fin (us i)) (Fin u) s = Ok o /\
      at_positions (all_particles s) idx rows /\ StronglySorted lt idx /\ map pt_logl rows = map Fin l /\
      let everything := normalised_weights bs zs (concat ls) in let ws := normalised_weights bs zs l in
      Forall (fun w => 0 < w) ws /\ total ws = 1 /\
      (if pa_trim a then exists tau, at_least tau everything idx /\ ess * kish_ess everything <= kish_ess ws else rows = all_particles s) /\
      (if pa_resample a then exists again rows', at_positions rows again rows' /\ length rows' = length rows /\ rows_are o (pa_return_blobs a) rows' /\ po_w o = None /\
           match c_resample (s_cfg s) with
           | MULT => forall k i, nth_error again k = Some i -> total (firstn i ws) <= us k < total (firstn (S i) ws)
           | SYST => forall i, (i < length ws)%nat -> Rabs (INR (copies i again) - INR (length rows) * nth i ws 0) <= 1
           end
       else rows_are o (pa_return_blobs a) rows /\
         po_w o = Some (map Fin (if pa_return_logw a then map (fun x => ln (balance_weight bs zs 1 x / total (map (balance_weight bs zs 1) (concat ls)))) l else ws))).
  Proof.
    intros H NE Ess He Hb HB Hus Hu. destruct (posterior_both a us u ess s H NE Ess He Hb HB Hus Hu) as (ls & bs & zs & idx & rows & l & A1 & A2 & A3 & A4 & A5 & A6 & A7 & A8 & A9).
    destruct (A9 (pa_return_logw a)) as (o & B1 & B2). assert (E : with_logw a (pa_return_logw a) = a) by (destruct a; reflexivity). rewrite E in B1.
    exists ls, bs, zs, o, idx, rows, l. cbv zeta. auto 10.
  Qed.

  Lemma no_draws a us u us' u' s : pa_resample a = false -> posterior a us u s = posterior a us' u' s.
  Proof. intros E. unfold posterior. now rewrite E. Qed.

  Theorem logw_offset a us u ess s : reachable s -> iterations (history_of s) <> 0%nat ->
    pa_ess a = Fin ess -> ess <= 1 -> (1 <= pa_bins a)%nat -> (pa_return_blobs a = true -> blobs_of (s_cfg s) bl <> None) ->
    pa_resample a = false -> pa_trim a = true ->
    exists ls bs zs idx o o' ws,
      history (history_of s) ls bs zs /\ map pt_logl (all_particles s) = map Fin (concat ls) /\
      posterior (with_logw a false) us u s = Ok o /\ posterior (with_logw a true) us u s = Ok o' /\
      po_x o' = po_x o /\ po_logl o' = po_logl o /\ po_logp o' = po_logp o /\ po_blobs o' = po_blobs o /\
      at_positions (map pt_x (all_particles s)) idx (po_x o) /\ StronglySorted lt idx /\
      let mass := total (map (fun i => nth i (normalised_weights bs zs (concat ls)) 0) idx) in
      po_w o = Some (map Fin ws) /\ po_w o' = Some (map Fin (map (fun w => ln w + ln mass) ws)) /\
      0 < mass <= 1 /\ (mass = 1 <-> idx = seq 0 (length (all_particles s))).
  Proof.
    intros H NE Ess He Hb HB ER ET. rewrite (no_draws _ us u (fun _ => Fin 0) (Fin 0)) by exact ER. rewrite (no_draws (with_logw a true) us u (fun _ => Fin 0) (Fin 0)) by exact ER.
    destruct (posterior_both a (fun _ => 0) 0 ess s H NE Ess He Hb HB) as (ls & bs & zs & idx & rows & l & A1 & A2 & A3 & A4 & A5 & A6 & A7 & A8 & A9); [intros; lra|lra|].
    rewrite ER in A9. destruct (A9 false) as (o & B1 & B2 & B3). destruct (A9 true) as (o' & B1' & B2' & B3'). clear A9 A8.
    exists ls, bs, zs, idx, o, o', (normalised_weights bs zs l). split; [exact A1|]. split; [exact A2|]. split; [exact B1|]. split; [exact B1'|].
    destruct B2 as [X1 X2 X3 X4], B2' as [Y1 Y2 Y3 Y4]. split; [congruence|]. split; [congruence|]. split; [congruence|]. split.
    { destruct (po_blobs o) as [b|], (po_blobs o') as [b'|]; [|destruct X4; congruence|destruct Y4; congruence|reflexivity]. f_equal. destruct X4 as [_ X4], Y4 as [_ Y4]. rewrite <- Y4 in X4. clear -X4. revert b' X4.
      induction b as [|c b IH]; intros [|c' b'] E; try discriminate; [reflexivity|]. cbn [map] in E. injection E as -> E. f_equal. now apply IH. }
    split; [rewrite X1; now apply at_positions_image|]. split; [exact A4|].
    pose proof (weights_are_balance_weights (history_of s) ls bs zs 1 A1) as [HP _]. cbv zeta in HP. set (v := map (balance_weight bs zs 1) (concat ls)) in *.
    assert (Vne : concat ls <> []) by apply A1.
    assert (Vt : 0 < total v) by (apply total_positive; [exact HP|unfold v; destruct (concat ls); [easy|discriminate]]).
    set (p := normalised_weights bs zs (concat ls)).
    assert (Hp : Forall (fun x => 0 < x) p). { unfold p, normalised_weights. apply Forall_map. eapply Forall_impl; [|exact HP]. cbv beta. intros x Hx. now apply Rdiv_lt_0_compat. }
    assert (Tp : total p = 1). { unfold p, normalised_weights. fold v. rewrite total_Rsum in Vt |- *. rewrite total_Rsum. apply Rsum_norm. exact Vt. }
    assert (HL : at_positions (concat ls) idx l).
    { assert (Q : at_positions (map Fin (concat ls)) idx (map Fin l)) by (rewrite <- A2, <- A5; now apply at_positions_image).
      apply at_positions_map in Q as (l2 & Q1 & Q2). apply Fin_map_inj in Q2. now subst l2. }
    assert (EM : map (fun i => nth i p 0) idx = map (fun x => x / total v) (map (balance_weight bs zs 1) l)).
    { assert (Q : at_positions p idx (map (fun x => x / total v) (map (balance_weight bs zs 1) l))) by (unfold p, normalised_weights; fold v; unfold v at 2; now apply at_positions_image, at_positions_image).
      apply (at_positions_fun p idx); [|exact Q]. apply gather_Forall2. rewrite (gather_all p idx 0); [reflexivity|]. exact (at_positions_in _ _ _ Q). }
    assert (Lp : length p = length (all_particles s)). { unfold p, normalised_weights. rewrite !map_length. rewrite <- (map_length Fin (concat ls)), <- A2. apply map_length. }
    cbv zeta. fold p. rewrite EM. set (vl := map (balance_weight bs zs 1) l) in *. set (mass := total (map (fun x => x / total v) vl)).
    assert (Emass : mass = total vl / total v). { unfold mass. rewrite !total_Rsum. now rewrite (Rsum_map_div _ (fun x => x)), map_id. }
    assert (Hvl : Forall (fun x => 0 < x) vl).
    { apply Forall_map, Forall_forall. intros x Hx. rewrite Forall_forall in HP. apply HP. unfold v. apply in_map. clear -HL Hx. induction HL as [|i b idx l E HL IH]; [easy|]. destruct Hx as [<-|Hx]; [|auto]. now apply nth_error_In in E. }
    assert (Lne : vl <> []). { intros E. unfold normalised_weights in A7. fold vl in A7. rewrite E in A7. cbn in A7. lra. }
    assert (Vl : 0 < total vl) by (apply total_positive; assumption).
    split; [exact B3|]. split.
    - rewrite B3'. f_equal. f_equal. unfold normalised_weights. fold vl. rewrite !map_map. symmetry. etransitivity; [exact (map_map (balance_weight bs zs 1) _ l)|]. symmetry. apply map_ext_in. intros x Hx. rewrite Emass. fold v.
      assert (0 < balance_weight bs zs 1 x) by (rewrite Forall_forall in Hvl; apply Hvl; unfold vl; now apply in_map).
      rewrite <- ln_mult by now apply Rdiv_lt_0_compat. f_equal. field. lra.
    - unfold mass. rewrite <- EM. destruct (partial_mass p idx Hp A4 (fun i Hi => eq_ind_r (fun n => (i < n)%nat) (at_positions_in _ _ _ A3 i Hi) Lp)) as [M1 M2]. rewrite Tp in *. rewrite <- Lp.
      split; [split; [|exact M1]|exact M2]. rewrite EM. fold mass. rewrite Emass. now apply Rdiv_lt_0_compat.
  Qed.
End Exact.

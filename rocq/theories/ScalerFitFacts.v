(** * Proofs about fitting the rescaling *)
From Coq Require Import Reals ZArith List Bool Lra Lia.
From Coquelicot Require Import Coquelicot.
From Coq Require Import List.
From Verif Require Import Num PyBase PyBaseFacts XReal Erf RList Scaler ScalerStruct SpecScaler ScalerFacts ScalerSpecFacts.
Import ListNotations.
Open Scope R_scope.

Definition meanR (c : list R) : R := Rsum c / INR (length c).
Definition sdR (c : list R) : R := sqrt (meanR (map (fun a => (a - meanR c) * (a - meanR c)) c)).
Definition colR (us : list (list R)) (i : nat) : list R := map (fun u => nth i u 0) us.

Lemma nmean_fin c : c <> [] -> nmean (map Fin c) = Fin (meanR c).
Proof.
  intros H. unfold nmean, meanR. rewrite nsum_fin, map_length.
  change (ndiv (Fin (Rsum c)) (nofZ (Z.of_nat (length c)))) with (xdiv (Fin (Rsum c)) (Fin (IZR (Z.of_nat (length c))))).
  rewrite <- INR_IZR_INZ. apply xdiv_fin. pose proof (INR_length_pos c H). lra.
Qed.
Lemma col_fin us i : col (map (map Fin) us) i = map Fin (colR us i).
Proof. unfold col, colR. rewrite !map_map. apply map_ext. intros u. change (@nofZ X _ 0) with (Fin 0). apply map_nth. Qed.
Lemma mean_axis0_fin n us : us <> [] -> mean_axis0 n (map (map Fin) us) = map Fin (map (fun i => meanR (colR us i)) (seq 0 n)).
Proof.
  intros H. unfold mean_axis0. rewrite map_map. apply map_ext. intros i. rewrite col_fin, nmean_fin; auto.
  unfold colR. destruct us; [easy|discriminate].
Qed.
Lemma meansq_nonneg (f : R -> R) c : 0 <= meanR (map (fun a => f a * f a) c).
Proof.
  unfold meanR. destruct c as [|a c]; [simpl; unfold Rdiv; lra|].
  apply Rmult_le_pos.
  - apply Rsum_map_fst_nonneg. intros; nra.
  - left. apply Rinv_0_lt_compat. rewrite map_length. apply lt_0_INR. simpl; lia.
Qed.
Lemma std_axis0_fin n us : us <> [] -> std_axis0 n (map (map Fin) us) = map Fin (map (fun i => sdR (colR us i)) (seq 0 n)).
Proof.
  intros H. unfold std_axis0. rewrite map_map. apply map_ext. intros i. xnum. rewrite col_fin.
  assert (Hc : colR us i <> []) by (unfold colR; destruct us; [easy|discriminate]). cbv zeta.
  rewrite nmean_fin by assumption. 
  replace (map (fun a => nsqr (nsub a (Fin (meanR (colR us i))))) (map Fin (colR us i)))
    with (map Fin (map (fun a => (a - meanR (colR us i)) * (a - meanR (colR us i))) (colR us i))) by (now rewrite !map_map).
  rewrite nmean_fin by (destruct (colR us i); [easy|discriminate]).
  change (@nsqrt X XNum) with xsqrt. rewrite xsqrt_fin; [reflexivity|].
  apply (meansq_nonneg (fun a => a - meanR (colR us i))).
Qed.

Lemma sdR_pos c a b : In a c -> In b c -> a <> b -> 0 < sdR c.
Proof.
  intros Ha Hb Hab. unfold sdR. apply sqrt_lt_R0. set (m := meanR c).
  assert (Hc : c <> []) by (destruct c; [easy|discriminate]).
  unfold meanR. rewrite map_length. apply Rdiv_lt_0_compat; [|now apply INR_length_pos].
  assert (HN : Forall (fun x => 0 <= x) (map (fun a => (a - m) * (a - m)) c)).
  { apply Forall_forall. intros x Hx. apply in_map_iff in Hx as [y [<- _]]. apply (Rle_0_sqr (y - m)). }
  destruct (Req_dec a m) as [Ea|Ea].
  - apply (Rsum_exists_pos _ ((b - m) * (b - m)) HN); [apply in_map_iff; eauto|]. apply (Rsqr_pos_lt (b - m)). intros Q. apply Hab. lra.
  - apply (Rsum_exists_pos _ ((a - m) * (a - m)) HN); [apply in_map_iff; eauto|]. apply (Rsqr_pos_lt (a - m)). intros Q. apply Ea. lra.
Qed.
Lemma sdR_const c v : c <> [] -> (forall a, In a c -> a = v) -> meanR c = v /\ sdR c = 0.
Proof.
  intros Hc Hv. assert (E : c = map (fun _ => v) c).
  { rewrite <- (map_id c) at 1. apply map_ext_in. exact Hv. }
  pose proof (INR_length_pos c Hc) as HL.
  assert (M : meanR c = v). { unfold meanR. rewrite E at 1. rewrite Rsum_map_const. field. lra. }
  split; auto. unfold sdR. rewrite M. replace (meanR (map (fun a => (a - v) * (a - v)) c)) with 0; [apply sqrt_0|].
  unfold meanR. rewrite map_length. 
  rewrite (Rsum_map_ext (fun a => (a - v) * (a - v)) (fun _ => 0)).
  - rewrite Rsum_map_const. field. lra.
  - intros x Hx. rewrite (Hv x Hx). ring.
Qed.
Lemma standardised c : c <> [] -> 0 < sdR c ->
  meanR (map (fun a => (a - meanR c) / sdR c) c) = 0 /\ meanR (map (fun a => ((a - meanR c) / sdR c) * ((a - meanR c) / sdR c)) c) = 1.
Proof.
  intros Hc Hs. pose proof (INR_length_pos c Hc) as HL. unfold meanR at 1 3. rewrite !map_length. set (m := meanR c) in *. set (s := sdR c) in *. split.
  - rewrite Rsum_map_div. rewrite Rsum_map_minus, Rsum_map_const, map_id. unfold m, meanR. field. lra.
  - assert (S2 : s * s = Rsum (map (fun a => (a - m) * (a - m)) c) / INR (length c)).
    { unfold s, sdR. rewrite sqrt_sqrt by apply (meansq_nonneg (fun a => a - meanR c)). fold m. unfold meanR. now rewrite map_length. }
    replace (Rsum (map (fun a => (a - m) / s * ((a - m) / s)) c)) with (Rsum (map (fun a => (a - m) * (a - m)) c) / (s * s)).
    + assert (SQ : 0 < s * s) by (now apply Rmult_lt_0_compat).
      assert (E : Rsum (map (fun a => (a - m) * (a - m)) c) = s * s * INR (length c)) by (rewrite S2; field; lra).
      rewrite E. field. lra.
    + rewrite <- Rsum_map_div. apply Rsum_map_ext. intros x _. field. lra.
Qed.

Lemma fR_injective t lo hi x y : admissible lo hi -> inside lo hi x -> inside lo hi y -> fR t lo hi x = fR t lo hi y -> x = y.
Proof. intros Ha Hx Hy E. rewrite <- (gR_fR t lo hi x), <- (gR_fR t lo hi y) by assumption. now rewrite E. Qed.

Section Fit.
  Context (la : linalg X) (r : reparam X) (n : nat) (rows : list (X * X)) (junk : list X) (xs : list (list R)).
  Context (HC : constructed r n rows) (Hd : diagonal r = true) (HJ : length junk = n) (Hne : xs <> [])
          (HX : Forall (row_inside (map fst rows) (map snd rows)) xs).

  Let us := map (FR (transform r) (low r) (high r)) xs.

  Lemma fit_result : exists r', fit la r junk (map (map Fin) xs) = Ok r' /\ constructed r' n rows /\
    transform r' = transform r /\ scale r' = scale r /\ diagonal r' = true /\
    mu r' = Some (map Fin (map (fun i => meanR (colR us i)) (seq 0 n))) /\
    sigma r' = Some (map Fin (map (fun i => sdR (colR us i)) (seq 0 n))).
  Proof using HC Hd HJ Hne HX.
    destruct (constructed_facts r n rows HC) as [W [N [ELo [EHi HA]]]].
    assert (HI' : Forall (inside_all (low r) (high r)) xs).
    { eapply Forall_impl; [|exact HX]. intros x Hx. rewrite ELo, EHi. apply row_inside_all; auto. now rewrite !map_length. }
    unfold fit. 
    replace (assert_array_within_interval (map (map Fin) xs) (low r) (high r) false false) with (Ok tt : res unit).
    2:{ unfold assert_array_within_interval. xnum. replace (forallb _ _) with true; auto. symmetry. apply forallb_forall. intros y Hy.
        apply in_map_iff in Hy as [x [<- Hx]]. rewrite Forall_forall in HI'. rewrite row_condition_inside; auto. }
    cbn [bind].
    assert (EM : mapM (forward0_row r junk) (map (map Fin) xs) = Ok (map (map Fin) us)).
    { unfold us. rewrite Forall_forall in HI'. 
      assert (Q : forall l, (forall x, In x l -> inside_all (low r) (high r) x) ->
         mapM (forward0_row r junk) (map (map Fin) l) = Ok (map (map Fin) (map (FR (transform r) (low r) (high r)) l))).
      { induction l; intros Hl; [reflexivity|]. cbn [map mapM].
        assert (Ia := Hl a (or_introl eq_refl)). pose proof (inside_all_length _ _ _ Ia).
        rewrite forward0_row_spec by (auto; rewrite ?map_length; destruct W; congruence).
        rewrite map3_fwd1 by assumption. cbn [bind]. rewrite IHl by (intros; apply Hl; now right). reflexivity. }
      now apply Q. }
    rewrite EM. cbn [bind]. rewrite Hd. xnum.
    assert (Hus : us <> []) by (unfold us; destruct xs; [easy|discriminate]).
    rewrite (mean_axis0_fin (ndim r) us Hus), (std_axis0_fin (ndim r) us Hus), N. eexists; split; [reflexivity|].
    split; [|cbn; auto].
    destruct HC as [H1 [H2 [f [per [refl [t [sc [dg [r0 [H3 H4]]]]]]]]]]. split; auto. split; auto. exists f, per, refl, t, sc, dg, r0. cbn. repeat split; try easy; decompose [and] H4; congruence.
  Qed.

  Definition two_values (i : nat) : Prop := exists x y, In x xs /\ In y xs /\ nth i x 0 <> nth i y 0.

  Lemma us_length u : In u us -> length u = n.
  Proof using HC HX HJ.
    destruct (constructed_facts r n rows HC) as [W [N [ELo [EHi HA]]]].
    unfold us. intros Hu. apply in_map_iff in Hu as [x [<- Hx]]. rewrite Forall_forall in HX. destruct (HX x Hx) as [Lx _].
    destruct HC as [HL _]. rewrite map_length, HL in Lx. destruct W. apply map3'_length; congruence.
  Qed.

  Lemma us_two i : (i < n)%nat -> two_values i -> 0 < sdR (colR us i).
  Proof using HC HX HJ.
    intros Hi [x [y [Hx [Hy Hxy]]]]. destruct (constructed_facts r n rows HC) as [W [N [ELo [EHi HA]]]].
    rewrite Forall_forall in HX. destruct (HX x Hx) as [Lx Ix]. destruct (HX y Hy) as [Ly Iy].
    destruct HC as [HL _]. rewrite map_length in Lx, Ly.
    assert (L1 : length (low r) = n) by (destruct W; congruence). assert (L2 : length (high r) = n) by (destruct W; congruence).
    assert (EN : forall z, length z = n -> nth i (FR (transform r) (low r) (high r) z) 0 = fR (transform r) (nth i (low r) NaN) (nth i (high r) NaN) (nth i z 0)).
    { intros z Lz. unfold FR. apply map3'_nth; lia. }
    apply (sdR_pos _ (nth i (FR (transform r) (low r) (high r) x) 0) (nth i (FR (transform r) (low r) (high r) y) 0)).
    - unfold colR, us. rewrite map_map. apply in_map_iff. eauto.
    - unfold colR, us. rewrite map_map. apply in_map_iff. eauto.
    - rewrite !EN by lia. intros E. apply Hxy. eapply fR_injective; [| | |exact E].
      + apply Forall2_nth; auto. lia.
      + rewrite ELo, EHi. apply Ix. lia.
      + rewrite ELo, EHi. apply Iy. lia.
  Qed.

  Lemma fit_standardises : scale r = true -> (forall i, (i < n)%nat -> two_values i) ->
    exists r' vs, fit la r junk (map (map Fin) xs) = Ok r' /\ constructed r' n rows /\ diagonal_scaling r' n /\
      forward r' junk (map (map Fin) xs) true = Ok (map (map Fin) vs) /\ length vs = length xs /\
      forall i, (i < n)%nat -> meanR (colR vs i) = 0 /\ meanR (map (fun v => v * v) (colR vs i)) = 1.
  Proof using HC Hd HJ Hne HX.
    intros Hs H2. destruct fit_result as [r' [E1 [E2 [Et [Es [Ed [Em Esg]]]]]]].
    set (m := map (fun i => meanR (colR us i)) (seq 0 n)) in *. set (s := map (fun i => sdR (colR us i)) (seq 0 n)) in *.
    assert (Lm : length m = n) by (unfold m; now rewrite map_length, seq_length).
    assert (Ls : length s = n) by (unfold s; now rewrite map_length, seq_length).
    assert (Ps : Forall (fun x => 0 < x) s).
    { unfold s. apply Forall_forall. intros v Hv. apply in_map_iff in Hv as [i [<- Hi]]. apply in_seq in Hi. apply us_two; [lia|apply H2; lia]. }
    exists r', (map (fun u => map2 Rdiv (map2 Rminus u m) s) us).
    split; auto. split; auto. split.
    { right. split; auto. exists m, s. auto. }
    destruct (constructed_facts r' n rows E2) as [W [N [ELo [EHi HA]]]].
    destruct (constructed_facts r n rows HC) as [W0 [N0 [ELo0 [EHi0 HA0]]]].
    split; [|split].
    - assert (FW : forall x, inside_all (low r') (high r') x -> forward_row r' junk (map Fin x) = Ok (map Fin (map2 Rdiv (map2 Rminus (FR (transform r) (low r) (high r) x) m) s))).
      { intros x Hx. pose proof (inside_all_length _ _ _ Hx). unfold forward_row.
        rewrite forward0_row_spec by (auto; rewrite ?map_length; destruct W; congruence). rewrite map3_fwd1 by assumption. cbn [bind].
        rewrite Es, Hs. unfold forward_affine_row. rewrite Em, Ed, Esg. cbn [of_option bind]. xnum. rewrite vsub_fin, map2_div_fin.
        - rewrite Et. replace (low r') with (low r) by congruence. replace (high r') with (high r) by congruence. reflexivity.
        - eapply Forall_impl; [|exact Ps]. simpl; intros; lra. }
      rewrite (forward_batch r' n rows junk xs true _ E2 FW).
      + unfold us. rewrite !map_map. reflexivity.
      + eapply Forall_impl; [|exact HX]. intros x Hx. rewrite ELo, EHi. apply row_inside_all; auto. now rewrite !map_length.
    - unfold us. now rewrite !map_length.
    - intros i Hi.
      assert (EC : colR (map (fun u => map2 Rdiv (map2 Rminus u m) s) us) i = map (fun a => (a - meanR (colR us i)) / sdR (colR us i)) (colR us i)).
      { unfold colR at 1 4. rewrite !map_map. apply map_ext_in. intros u Hu. pose proof (us_length u Hu).
        assert (length (map2 Rminus u m) = n) by (apply map2_length_eq; lia).
        rewrite (map2_nth _ _ _ 0 0) by lia. rewrite (map2_nth _ _ _ 0 0) by lia. unfold m, s.
        f_equal.
        - f_equal. rewrite (nth_indep _ 0 (meanR (colR us 0))) by (rewrite map_length, seq_length; lia).
          rewrite (map_nth (fun i => meanR (colR us i)) (seq 0 n) 0%nat i). now rewrite seq_nth by lia.
        - rewrite (nth_indep _ _ (sdR (colR us 0))) by (rewrite map_length, seq_length; lia).
          rewrite (map_nth (fun i => sdR (colR us i)) (seq 0 n) 0%nat i). now rewrite seq_nth by lia. }
      rewrite EC, map_map. apply standardised.
      + unfold colR, us. destruct xs; [easy|discriminate].
      + apply us_two; auto.
  Qed.

  (** a coordinate that takes a single value is mapped to NaN *)
  Lemma fit_constant_nan i : scale r = true -> (i < n)%nat -> (exists v, forall x, In x xs -> nth i x 0 = v) ->
    exists r' vs, fit la r junk (map (map Fin) xs) = Ok r' /\ forward r' junk (map (map Fin) xs) true = Ok vs /\
      forall j, (j < length xs)%nat -> nth i (nth j vs []) (Fin 0) = NaN.
  Proof using HC Hd HJ Hne HX.
    intros Hs Hi [v Hv]. destruct fit_result as [r' [E1 [E2 [Et [Es [Ed [Em Esg]]]]]]].
    destruct (constructed_facts r' n rows E2) as [W [N [ELo [EHi HA]]]].
    destruct (constructed_facts r n rows HC) as [W0 [N0 [ELo0 [EHi0 HA0]]]].
    assert (L1 : length (low r) = n) by (destruct W0; congruence). assert (L2 : length (high r) = n) by (destruct W0; congruence).
    assert (HL : length rows = n) by (destruct HC as [H _]; exact H).
    rewrite Forall_forall in HX.
    set (w := fR (transform r) (nth i (low r) NaN) (nth i (high r) NaN) v).
    assert (EN : forall x, In x xs -> nth i (FR (transform r) (low r) (high r) x) 0 = w).
    { intros z Hz. destruct (HX z Hz) as [Lz _]. rewrite map_length in Lz. unfold FR. rewrite (map3'_nth _ _ _ _ NaN NaN 0) by lia. unfold w. now rewrite (Hv z Hz). }
    destruct (sdR_const (colR us i) w) as [EM ES].
    { unfold colR, us. destruct xs; [easy|discriminate]. }
    { unfold colR, us. intros a Ha. rewrite map_map in Ha. apply in_map_iff in Ha as [x [<- Hx]]. auto. }
    exists r', (map (fun x => map2 ndiv (vsub (map Fin (FR (transform r) (low r) (high r) x)) (map Fin (map (fun i => meanR (colR us i)) (seq 0 n)))) (map Fin (map (fun i => sdR (colR us i)) (seq 0 n)))) xs).
    split; auto. split.
    - unfold forward. 
      replace (assert_array_within_interval (map (map Fin) xs) (low r') (high r') false false) with (Ok tt : res unit).
      2:{ unfold assert_array_within_interval. xnum. replace (forallb _ _) with true; auto. symmetry. apply forallb_forall. intros y Hy.
          apply in_map_iff in Hy as [x [<- Hx]]. rewrite row_condition_inside; auto. rewrite ELo, EHi. apply row_inside_all; [now rewrite !map_length|]. now apply HX. }
      cbn [bind].
      assert (Q : forall l, (forall x, In x l -> In x xs) ->
         mapM (forward_row r' junk) (map (map Fin) l) = Ok (map (fun x => map2 ndiv (vsub (map Fin (FR (transform r) (low r) (high r) x)) (map Fin (map (fun i => meanR (colR us i)) (seq 0 n)))) (map Fin (map (fun i => sdR (colR us i)) (seq 0 n)))) l)).
      { induction l as [|a l IH]; intros Hl; [reflexivity|]. cbn [map mapM].
        assert (Ia : inside_all (low r') (high r') a). { rewrite ELo, EHi. apply row_inside_all; [now rewrite !map_length|]. apply HX, Hl. now left. }
        pose proof (inside_all_length _ _ _ Ia). unfold forward_row at 1.
        rewrite forward0_row_spec by (auto; rewrite ?map_length; destruct W; congruence).
        rewrite map3_fwd1 by assumption. cbn [bind]. rewrite Es, Hs. unfold forward_affine_row at 1. rewrite Em, Ed, Esg. cbn [of_option bind].
        rewrite IH by (intros; apply Hl; now right). rewrite Et. replace (low r') with (low r) by congruence. replace (high r') with (high r) by congruence. reflexivity. }
      now apply Q.
    - intros j Hj. set (g := fun x => map2 ndiv (vsub (map Fin (FR (transform r) (low r) (high r) x)) (map Fin (map (fun i => meanR (colR us i)) (seq 0 n)))) (map Fin (map (fun i => sdR (colR us i)) (seq 0 n)))).
      rewrite (nth_indep _ [] (g [])) by (rewrite map_length; lia).
      rewrite (map_nth g). unfold g. clear g. assert (Hin : In (nth j xs []) xs) by (now apply nth_In). destruct (HX _ Hin) as [Lx _]. rewrite map_length in Lx.
      set (x := nth j xs []) in *. 
      assert (LF : length (FR (transform r) (low r) (high r) x) = n) by (apply map3'_length; lia).
      rewrite vsub_fin. assert (LS : length (map2 Rminus (FR (transform r) (low r) (high r) x) (map (fun i => meanR (colR us i)) (seq 0 n))) = n).
      { apply map2_length_eq; auto. now rewrite map_length, seq_length. }
      rewrite (map2_nth _ _ _ (Fin 0) (Fin 0)) by (rewrite !map_length, ?seq_length; lia). rewrite !map_nth.
      rewrite (map2_nth _ _ _ 0 0) by (rewrite ?map_length, ?seq_length; lia). rewrite (EN x Hin).
      rewrite (nth_indep _ 0 (meanR (colR us 0))) by (rewrite map_length, seq_length; lia). rewrite (map_nth (fun i => meanR (colR us i)) (seq 0 n) 0%nat i).
      rewrite (nth_indep _ 0 (sdR (colR us 0))) by (rewrite map_length, seq_length; lia). rewrite (map_nth (fun i => sdR (colR us i)) (seq 0 n) 0%nat i).
      rewrite seq_nth by lia. cbn [Nat.add]. rewrite EM, ES. replace (w - w) with 0 by ring. cbn.
      rewrite (proj2 (Reqb_true 0 0)), (proj2 (Rltb_false 0 0)) by lra. reflexivity.
  Qed.
End Fit.

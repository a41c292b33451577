(** * Lemmas behind the theorems of PropScaler.v *)
From Coq Require Import Reals ZArith List Bool Lra Lia.
From Coquelicot Require Import Coquelicot.
From Coq Require Import List.
From Verif Require Import Num PyBase PyBaseFacts XReal Erf RList FloatNum Scaler ScalerStruct SpecScaler ScalerFacts WrapFacts.
Import ListNotations.
Open Scope R_scope.

Lemma diagonal_scaling_ok r n : diagonal_scaling r n -> scaling_ok r n.
Proof.
  intros [H|[Hd [m [s [H1 [H2 [H3 [H4 H5]]]]]]]]; [now left|]. right; left. split; auto. exists m, s. repeat split; auto.
  eapply Forall_impl; [|exact H5]. simpl; intros; lra.
Qed.

(** ** C06 *)
Lemma map3'_seq {A B C D} (f : A -> B -> C -> D) a b c da db dc n :
  length a = n -> length b = n -> length c = n ->
  map3' f a b c = map (fun i => f (nth i a da) (nth i b db) (nth i c dc)) (seq 0 n).
Proof.
  revert b c n; induction a as [|x a IH]; intros [|y b] [|z c] [|n] H1 H2 H3; simpl in *; try lia; auto.
  f_equal. rewrite (IH b c n) by lia. rewrite <- seq_shift, map_map. reflexivity.
Qed.
Lemma map2_nth {A B C} (f : A -> B -> C) a b da db dc i : (i < length a)%nat -> (i < length b)%nat ->
  nth i (map2 f a b) dc = f (nth i a da) (nth i b db).
Proof. revert b i; induction a as [|x a IH]; intros [|y b] [|i] H1 H2; simpl in *; try lia; auto. apply IH; lia. Qed.
Lemma nth_map_fin v i : nth i (map Fin v) (Fin 0) = Fin (nth i v 0).
Proof. apply map_nth. Qed.

Lemma Forall2_nth {A B} (P : A -> B -> Prop) a b da db i : Forall2 P a b -> (i < length a)%nat -> P (nth i a da) (nth i b db).
Proof. intros H; revert i; induction H; intros [|i] Hi; simpl in *; try lia; auto. apply IHForall2. lia. Qed.

Lemma Rsum_map3 {A B C} (f g : A -> B -> C -> R) a b c : 
  Rsum (map3' (fun x y z => f x y z + g x y z) a b c) = Rsum (map3' f a b c) + Rsum (map3' g a b c).
Proof. revert b c; induction a; intros [|y b] [|z c]; simpl; try lra. rewrite IHa. lra. Qed.

(** full formula for one row *)
Lemma inverse_row_formula r n rows junk u :
  constructed r n rows -> length junk = n -> length u = n ->
  (scale r = false -> inverse_row r junk (map Fin u) =
     Ok (map Fin (GR (transform r) (low r) (high r) u), Fin (LDR (transform r) (low r) (high r) u))) /\
  (scale r = true -> forall v ld, length v = n -> inverse_affine_row r (map Fin u) = Ok (map Fin v, ld) ->
     inverse_row r junk (map Fin u) = Ok (map Fin (GR (transform r) (low r) (high r) v), xadd ld (Fin (LDR (transform r) (low r) (high r) v)))).
Proof.
  intros HC HJ HU. destruct (constructed_facts r n rows HC) as [W [N [ELo [EHi HA]]]].
  assert (I0 : forall u, length u = n -> inverse0_row r junk (map Fin u) = Ok (map Fin (GR (transform r) (low r) (high r) u), Fin (LDR (transform r) (low r) (high r) u))).
  { intros w Hw. rewrite inverse0_row_spec by (auto; rewrite ?map_length; congruence).
    destruct (map3_inv1 (transform r) (low r) (high r) w HA) as [-> ->]. xnum. rewrite nsum_fin. reflexivity. }
  split; intros Hs; unfold inverse_row; rewrite Hs; auto.
  intros v ld Hv E. rewrite E. cbn [bind]. rewrite I0 by assumption. reflexivity.
Qed.

Lemma jacobian r n rows junk us :
  constructed r n rows -> diagonal_scaling r n -> length junk = n -> Forall (fun u => length u = n) us ->
  exists (g d : nat -> R -> R),
    (forall i u, (i < n)%nat -> is_derive (g i) u (d i u) /\ d i u <> 0) /\
    inverse r junk (map (map Fin) us) =
      Ok (map (fun u => map (fun i => Fin (g i (nth i u 0))) (seq 0 n)) us,
          map (fun u => Fin (Rsum (map (fun i => ln (Rabs (d i (nth i u 0)))) (seq 0 n)))) us).
Proof.
  intros HC HS HJ HU. destruct (constructed_facts r n rows HC) as [W [N [ELo [EHi HA]]]].
  set (t := transform r) in *.
  assert (L1 : length (low r) = n) by (destruct W; congruence).
  assert (L2 : length (high r) = n) by (destruct W; congruence).
  set (G := fun i u => gR t (nth i (low r) NaN) (nth i (high r) NaN) u).
  set (D := fun i u => dR t (nth i (low r) NaN) (nth i (high r) NaN) u).
  assert (HD : forall i u, (i < n)%nat -> is_derive (G i) u (D i u) /\ D i u <> 0).
  { intros i u Hi. apply gR_derive. apply Forall2_nth; auto. congruence. }
  assert (EG : forall u, length u = n -> GR t (low r) (high r) u = map (fun i => G i (nth i u 0)) (seq 0 n)).
  { intros u Hu. unfold GR. now apply map3'_seq. }
  assert (ED : forall u, length u = n -> LDR t (low r) (high r) u = Rsum (map (fun i => ln (Rabs (D i (nth i u 0)))) (seq 0 n))).
  { intros u Hu. unfold LDR. f_equal. rewrite (map3'_seq _ _ _ _ NaN NaN 0 n) by assumption. reflexivity. }
  assert (K : forall (g d : nat -> R -> R),
    (forall u, length u = n -> inverse_row r junk (map Fin u) = Ok (map (fun i => Fin (g i (nth i u 0))) (seq 0 n), Fin (Rsum (map (fun i => ln (Rabs (d i (nth i u 0)))) (seq 0 n))))) ->
    inverse r junk (map (map Fin) us) =
      Ok (map (fun u => map (fun i => Fin (g i (nth i u 0))) (seq 0 n)) us,
          map (fun u => Fin (Rsum (map (fun i => ln (Rabs (d i (nth i u 0)))) (seq 0 n)))) us)).
  { intros g d Hgd. rewrite (inverse_batch r junk us (fun u => map (fun i => g i (nth i u 0)) (seq 0 n)) (fun u => Fin (Rsum (map (fun i => ln (Rabs (d i (nth i u 0)))) (seq 0 n)))) n).
    - rewrite map_map. f_equal. f_equal. apply map_ext. intros; now rewrite map_map.
    - intros u Hu. rewrite Hgd by assumption. now rewrite map_map.
    - assumption. }
  destruct (scale r) eqn:Hs.
  2:{ exists G, D. split; auto. apply K. intros u Hu.
      destruct (inverse_row_formula r n rows junk u HC HJ Hu) as [E _]. rewrite E by assumption. fold t.
      rewrite EG, ED by assumption. now rewrite map_map. }
  destruct HS as [HS|[Hd [m [s [Hm [Hsg [Lm [Ls Hp]]]]]]]]; [congruence|].
  exists (fun i u => G i (nth i m 0 + nth i s 0 * u)), (fun i u => nth i s 0 * D i (nth i m 0 + nth i s 0 * u)).
  assert (SP : forall i, (i < n)%nat -> 0 < nth i s 0).
  { intros i Hi. rewrite Forall_forall in Hp. apply Hp. apply nth_In. lia. }
  split.
  - intros i u Hi. destruct (HD i (nth i m 0 + nth i s 0 * u) Hi) as [H1 H2]. specialize (SP i Hi). split.
    + apply (is_derive_comp (V:=R_NormedModule) (G i) (fun u => nth i m 0 + nth i s 0 * u)); auto.
      auto_derive; [exact Logic.I|]. ring.
    + apply Rmult_integral_contrapositive_currified; [lra|auto].
  - apply (K (fun i u => G i (nth i m 0 + nth i s 0 * u)) (fun i u => nth i s 0 * D i (nth i m 0 + nth i s 0 * u))). intros u Hu.
    destruct (inverse_row_formula r n rows junk u HC HJ Hu) as [_ E].
    set (v := map2 Rplus m (map2 Rmult s u)).
    assert (Lsu : length (map2 Rmult s u) = n) by (apply map2_length_eq; lia).
    assert (Lv : length v = n) by (unfold v; apply map2_length_eq; lia).
    assert (Ev : forall i, (i < n)%nat -> nth i v 0 = nth i m 0 + nth i s 0 * nth i u 0).
    { intros i Hi. unfold v. rewrite (map2_nth _ _ _ 0 0) by lia. rewrite (map2_nth _ _ _ 0 0) by lia. reflexivity. }
    rewrite (E Hs v (Fin (Rsum (map ln s)))); [|exact Lv|].
    + fold t. rewrite EG, ED by assumption. rewrite map_map. f_equal. f_equal.
      * apply map_ext_in. intros i Hi. apply in_seq in Hi. rewrite Ev by lia. reflexivity.
      * cbn [xadd]. f_equal. 
        assert (ES : Rsum (map ln s) = Rsum (map (fun i => ln (nth i s 0)) (seq 0 n))).
        { clear -Ls. revert s Ls. induction n as [|n IH]; intros [|a s] Ls; simpl in *; try lia; auto.
          rewrite <- seq_shift, map_map. rewrite (IH s) by lia. reflexivity. }
        rewrite ES, <- Rsum_map_plus. apply Rsum_map_ext. intros i Hi. apply in_seq in Hi.
        rewrite Ev by lia. specialize (SP i ltac:(lia)). destruct (HD i (nth i m 0 + nth i s 0 * nth i u 0) ltac:(lia)) as [_ Hnz].
        rewrite Rabs_mult, (Rabs_right (nth i s 0)) by lra.
        rewrite ln_mult; [reflexivity|lra|]. now apply Rabs_pos_lt.
    + unfold inverse_affine_row. rewrite Hm, Hd, Hsg. cbn [of_option bind]. rewrite !map_length. replace (Nat.eqb (length u) (length m)) with true by (symmetry; apply Nat.eqb_eq; congruence). cbn [bind]. xnum.
      rewrite map2_mul_fin, vadd_fin. fold v. f_equal. f_equal.
      assert (EL : map nlog (map Fin s) = map Fin (map ln s)).
      { rewrite !map_map. apply map_ext_in. intros a Ha. rewrite Forall_forall in Hp. apply (xlog_fin a). now apply Hp. }
      rewrite EL, nsum_fin. change (nmul (Fin (Rsum (map ln s))) (nofZ 1)) with (Fin (Rsum (map ln s) * 1)). now rewrite Rmult_1_r.
Qed.

(** ** C07 *)
Lemma xleb_ext a b : xleb a b = true <-> le_ext a b.
Proof. destruct a, b; simpl; rewrite ?Rleb_true; split; easy. Qed.
Lemma xltb_ext a b : xltb a b = true <-> lt_ext a b.
Proof.
  unfold lt_ext. destruct a as [a| | |], b as [b| | |]; simpl; try (split; [easy|intros [? ?]; easy]); try (split; [discriminate|intros [? H]; congruence]).
  - rewrite Rltb_true. split.
    + intros H. split; [lra|]. intros E; injection E; lra.
    + intros [H1 H2]. destruct H1 as [H1|H1]; [exact H1|]. subst. contradiction.
Qed.
Lemma within_iff lo_open ro_open l h x :
  within_condition lo_open ro_open l h x = true <-> in_interval lo_open ro_open l h x.
Proof.
  unfold within_condition, in_interval. 
  replace (if @nisnan X XNum l then nopp ninf else l) with (match l with NaN => NInf | _ => l end) by (destruct l; reflexivity).
  replace (if @nisnan X XNum h then ninf else h) with (match h with NaN => PInf | _ => h end) by (destruct h; reflexivity).
  set (l' := match l with NaN => NInf | _ => l end). set (h' := match h with NaN => PInf | _ => h end).
  change (@nltb X XNum) with xltb. change (@nleb X XNum) with xleb.
  destruct lo_open, ro_open; rewrite andb_true_iff, ?xleb_ext, ?xltb_ext; reflexivity.
Qed.

Lemma row_condition_iff lo_open ro_open lo hi x : length hi = length lo -> length x = length lo ->
  exists c, row_condition lo_open ro_open lo hi x = Some c /\
    (c = true <-> forall i, (i < length lo)%nat -> in_interval lo_open ro_open (nth i lo NaN) (nth i hi NaN) (nth i x NaN)).
Proof.
  revert hi x; induction lo as [|l lo IH]; intros [|h hi] [|a x] H1 H2; simpl in H1, H2; try lia.
  - exists true. split; auto. split; auto. intros _ i Hi. simpl in Hi; lia.
  - destruct (IH hi x) as [c [E Hc]]; [lia|lia|]. cbn [row_condition]. rewrite E.
    eexists; split; [reflexivity|]. rewrite andb_true_iff, within_iff, Hc. split.
    + intros [A B] [|i] Hi; simpl in *; auto. apply B. lia.
    + intros H. split; [apply (H 0%nat); simpl; lia|]. intros i Hi. apply (H (S i)). simpl; lia.
Qed.

Lemma interval_check lo_open ro_open low high xs :
  length high = length low -> Forall (fun row => length row = length low) xs ->
  (all_in_interval lo_open ro_open low high xs -> assert_array_within_interval xs low high lo_open ro_open = Ok tt) /\
  (~ all_in_interval lo_open ro_open low high xs -> assert_array_within_interval xs low high lo_open ro_open = Err ValueError).
Proof.
  intros H1 H2. unfold assert_array_within_interval. 
  destruct (forallb _ xs) eqn:E.
  - split; auto. intros HN. exfalso. apply HN. intros row Hr i Hi. rewrite forallb_forall in E. specialize (E row Hr).
    rewrite Forall_forall in H2. destruct (row_condition_iff lo_open ro_open low high row H1 (H2 row Hr)) as [c [Ec Hc]].
    rewrite Ec in E. now apply Hc.
  - split; auto. intros HA. exfalso.
    assert (E' : forallb (fun row => match row_condition lo_open ro_open low high row with Some c => c | None => false end) xs = true); [|congruence].
    apply forallb_forall. intros row Hr. rewrite Forall_forall in H2.
    destruct (row_condition_iff lo_open ro_open low high row H1 (H2 row Hr)) as [c [Ec Hc]]. rewrite Ec. apply Hc. intros i Hi. now apply HA.
Qed.

Lemma forward_row_total r junk x : wf r -> fitted r -> length junk = ndim r -> length x = ndim r -> exists u, forward_row r junk x = Ok u.
Proof.
  intros W HF HJ HX. unfold forward_row. rewrite forward0_row_spec by assumption. cbn [bind].
  destruct (scale r) eqn:Hs; [|eauto]. destruct HF as [HF|[[m Hm] HF]]; [congruence|].
  unfold forward_affine_row. rewrite Hm. cbn [of_option bind]. destruct (diagonal r); destruct HF as [s HF]; rewrite HF; cbn [of_option bind]; eauto.
Qed.
Lemma mapM_total {A B} (f : A -> res B) l : (forall a, In a l -> exists b, f a = Ok b) -> exists bs, mapM f l = Ok bs.
Proof.
  induction l as [|a l IH]; intros H; [simpl; eauto|]. destruct (H a) as [b E]; [now left|].
  destruct IH as [bs E']; [intros; apply H; now right|]. exists (b :: bs). simpl. rewrite E. cbn [bind]. rewrite E'. reflexivity.
Qed.

Lemma forward_check r n rows junk xs :
  constructed r n rows -> fitted r -> length junk = n -> Forall (fun row => length row = n) xs ->
  let inrange := all_in_interval false false (map fst rows) (map snd rows) xs in
  (inrange -> exists us, forward r junk xs true = Ok us) /\
  (~ inrange -> forward r junk xs true = Err ValueError) /\
  (exists us, forward r junk xs false = Ok us).
Proof.
  intros HC HF HJ HX inr. destruct (constructed_facts r n rows HC) as [W [N [ELo [EHi HA]]]].
  assert (T : exists us, mapM (forward_row r junk) xs = Ok us).
  { apply mapM_total. intros a Ha. rewrite Forall_forall in HX. apply forward_row_total; auto; rewrite N; auto. }
  assert (HL : length rows = n) by (destruct HC as [H _]; exact H).
  destruct (interval_check false false (map fst rows) (map snd rows) xs) as [I1 I2].
  { now rewrite !map_length. }
  { rewrite map_length, HL. exact HX. }
  unfold forward. rewrite ELo, EHi. xnum. split; [|split].
  - intros H. rewrite (I1 H). cbn [bind]. exact T.
  - intros H. rewrite (I2 H). reflexivity.
  - exact T.
Qed.

Lemma fit_check la r n rows junk xs :
  constructed r n rows -> length junk = n -> Forall (fun row => length row = n) xs ->
  let inrange := all_in_interval false false (map fst rows) (map snd rows) xs in
  (inrange -> diagonal r = true -> exists r', fit la r junk xs = Ok r') /\
  (~ inrange -> fit la r junk xs = Err ValueError).
Proof.
  intros HC HJ HX inr. destruct (constructed_facts r n rows HC) as [W [N [ELo [EHi HA]]]].
  assert (HL : length rows = n) by (destruct HC as [H _]; exact H).
  destruct (interval_check false false (map fst rows) (map snd rows) xs) as [I1 I2].
  { now rewrite !map_length. }
  { rewrite map_length, HL. exact HX. }
  unfold fit. rewrite ELo, EHi. xnum. split.
  - intros H Hd. rewrite (I1 H). cbn [bind].
    destruct (mapM_total (forward0_row r junk) xs) as [us E].
    { intros a Ha. rewrite Forall_forall in HX. rewrite forward0_row_spec; [eauto|auto|rewrite N; auto|congruence]. }
    rewrite E. cbn [bind]. rewrite Hd. eauto.
  - intros H. rewrite (I2 H). reflexivity.
Qed.

(** ** C08 *)
Definition is_infinite (a : X) : Prop := a = PInf \/ a = NInf.

Lemma fwd1_boundary t lo hi x : admissible lo hi -> inside_closed lo hi x -> ~ inside lo hi x -> is_infinite (fwd1 t lo hi (Fin x)).
Proof.
  intros Ha [A B] Hn. unfold fwd1, is_infinite.
  assert (BD : forall l h, lo = Fin l -> hi = Fin h -> x = l \/ x = h).
  { intros l h -> ->. specialize (A l eq_refl). specialize (B h eq_refl).
    destruct (Req_dec x l); auto. destruct (Req_dec x h); auto. exfalso. apply Hn. split; intros z E; injection E as <-; lra. }
  assert (BL : forall l, lo = Fin l -> (forall h, hi <> Fin h) -> x = l).
  { intros l -> Hh. specialize (A l eq_refl). destruct (Req_dec x l); auto. exfalso. apply Hn. split; intros z E; [injection E as <-; lra|]. now apply Hh in E. }
  assert (BH : forall h, hi = Fin h -> (forall l, lo <> Fin l) -> x = h).
  { intros h -> Hl. specialize (B h eq_refl). destruct (Req_dec x h); auto. exfalso. apply Hn. split; intros z E; [now apply Hl in E|]. injection E as <-; lra. }
  assert (LG0 : xlog (Fin 0) = NInf). { cbn. rewrite (proj2 (Rltb_false 0 0)) by lra. reflexivity. }
  assert (UN : (forall l, lo <> Fin l) -> (forall h, hi <> Fin h) -> False).
  { intros H1 H2. apply Hn. split; intros z E; [now apply H1 in E|now apply H2 in E]. }
  destruct lo as [l| | |], hi as [h| | |]; try contradiction; cbn [kind_of nisfinite XNum xisfinite negb andb numT_Num XNumT];
   try (exfalso; apply UN; intros; discriminate);
   try (rewrite (BL l eq_refl) by discriminate; right; change (nlog (nsub (Fin l) (Fin l))) with (xlog (Fin (l - l))); replace (l - l) with 0 by ring; exact LG0);
   try (rewrite (BH h eq_refl) by discriminate; right; change (nlog (nsub (Fin h) (Fin h))) with (xlog (Fin (h - h))); replace (h - h) with 0 by ring; exact LG0).
  simpl in Ha. pose proof sqrt2_pos as S2.
  unfold forward_both1. xnum. change (@ndiv X XNum) with xdiv. change (@nsub X XNum) with xsub. change (@nmul X XNum) with xmul.
  rewrite !xsub_fin. rewrite (xdiv_fin (x - l) (h - l)) by lra.
  change (@nlog X XNumT) with xlog. change (@nofZ X XNum 1) with (Fin 1). change (@nofZ X XNum 2) with (Fin 2).
  change (@nsqrt X XNum) with xsqrt. rewrite xsqrt_fin by lra. change (@nerfinv X XNumT) with xerfinv.
  rewrite xmul_fin, !xsub_fin.
  destruct (BD l h eq_refl eq_refl) as [-> | ->].
  - replace ((l - l) / (h - l)) with 0 by (field; lra).
    assert (P : xmul (Fin (sqrt 2)) (xerfinv (Fin (2 * 0 - 1))) = NInf).
    { replace (2 * 0 - 1) with (-1) by ring. unfold xerfinv. rewrite (proj2 (Rltb_false (-1) (-1))) by lra. rewrite (proj2 (Rltb_false 1 (-1))) by lra.
      rewrite (proj2 (Reqb_false (-1) 1)) by lra. rewrite (proj2 (Reqb_true (-1) (-1))) by lra. simpl. unfold xinf_mul. now rewrite (proj2 (Rltb_true 0 (sqrt 2))) by lra. }
    right. destruct t; try exact P. rewrite xdiv_fin by lra. replace (0 / (1 - 0)) with 0 by field. exact LG0.
  - replace ((h - l) / (h - l)) with 1 by (field; lra).
    assert (P : xmul (Fin (sqrt 2)) (xerfinv (Fin (2 * 1 - 1))) = PInf).
    { replace (2 * 1 - 1) with 1 by ring. unfold xerfinv. rewrite (proj2 (Rltb_false 1 (-1))) by lra. rewrite (proj2 (Rltb_false 1 1)) by lra.
      rewrite (proj2 (Reqb_true 1 1)) by lra. simpl. unfold xinf_mul. now rewrite (proj2 (Rltb_true 0 (sqrt 2))) by lra. }
    left. destruct t; try exact P. unfold xdiv. rewrite (proj2 (Reqb_true (1 - 1) 0)) by lra. rewrite (proj2 (Rltb_true 0 1)) by lra. reflexivity.
Qed.

Lemma map3'_nth {A B C D} (f : A -> B -> C -> D) a b c da db dc dd i :
  (i < length a)%nat -> (i < length b)%nat -> (i < length c)%nat -> nth i (map3' f a b c) dd = f (nth i a da) (nth i b db) (nth i c dc).
Proof. revert b c i; induction a as [|x a IH]; intros [|y b] [|z c] [|i] H1 H2 H3; simpl in *; try lia; auto. apply IH; lia. Qed.

Lemma forward_row_nth r n rows junk x i :
  constructed r n rows -> diagonal_scaling r n -> length junk = n -> length x = n -> (i < n)%nat ->
  exists u, forward_row r junk (map Fin x) = Ok u /\ length u = n /\
    let v := fwd1 (transform r) (nth i (map fst rows) NaN) (nth i (map snd rows) NaN) (Fin (nth i x 0)) in
    (is_fin v -> is_fin (nth i u NaN)) /\ (is_infinite v -> is_infinite (nth i u NaN)).
Proof.
  intros HC HS HJ HX Hi. destruct (constructed_facts r n rows HC) as [W [N [ELo [EHi HA]]]].
  assert (L1 : length (low r) = n) by (destruct W; congruence).
  assert (L2 : length (high r) = n) by (destruct W; congruence).
  unfold forward_row. rewrite forward0_row_spec by (auto; rewrite ?map_length; congruence). cbn [bind].
  set (w := map3' _ _ _ _).
  assert (Lw : length w = n) by (unfold w; apply map3'_length; rewrite ?map_length; auto).
  assert (Ew : nth i w NaN = fwd1 (transform r) (nth i (map fst rows) NaN) (nth i (map snd rows) NaN) (Fin (nth i x 0))).
  { unfold w. rewrite (map3'_nth _ _ _ _ NaN NaN (Fin 0)) by (rewrite ?map_length; lia). rewrite ELo, EHi. now rewrite map_nth. }
  destruct (scale r) eqn:Hs.
  2:{ exists w. rewrite Ew. auto. }
  destruct HS as [HS|[Hd [m [s [Hm [Hsg [Lm [Ls Hp]]]]]]]]; [congruence|].
  unfold forward_affine_row. rewrite Hm, Hd, Hsg. cbn [of_option bind]. eexists; split; [reflexivity|]. xnum.
  assert (Lv : length (vsub w (map Fin m)) = n) by (apply map2_length_eq; rewrite ?map_length; auto).
  split; [apply map2_length_eq; rewrite ?map_length; auto|].
  assert (E1 : nth i (vsub w (map Fin m)) NaN = nsub (nth i w NaN) (Fin (nth i m 0))).
  { unfold vsub. rewrite (map2_nth _ _ _ NaN (Fin 0)) by (rewrite ?map_length; lia). now rewrite map_nth. }
  rewrite (map2_nth _ (vsub w (map Fin m)) (map Fin s) NaN (Fin 0)) by (rewrite ?map_length; lia). rewrite map_nth, E1, Ew.
  assert (0 < nth i s 0) by (rewrite Forall_forall in Hp; apply Hp, nth_In; lia).
  cbv zeta. set (v := fwd1 _ _ _ _). xnum. change (@ndiv X XNum) with xdiv. change (@nsub X XNum) with xsub. split.
  - intros [q ->]. rewrite xsub_fin, xdiv_fin by lra. eexists; reflexivity.
  - unfold is_infinite. intros [-> | ->]; simpl; rewrite (proj2 (Rltb_false _ 0)) by lra; auto.
Qed.

Lemma boundary_infinite r n rows junk xs :
  constructed r n rows -> diagonal_scaling r n -> length junk = n ->
  Forall (fun x => length x = n /\ forall i, (i < n)%nat -> inside_closed (nth i (map fst rows) NaN) (nth i (map snd rows) NaN) (nth i x 0)) xs ->
  exists us, forward r junk (map (map Fin) xs) true = Ok us /\ length us = length xs /\
    forall j i, (j < length xs)%nat -> (i < n)%nat ->
      let x := nth i (nth j xs []) 0 in let u := nth i (nth j us []) NaN in
      (inside (nth i (map fst rows) NaN) (nth i (map snd rows) NaN) x -> exists v, u = Fin v) /\
      (~ inside (nth i (map fst rows) NaN) (nth i (map snd rows) NaN) x -> u = PInf \/ u = NInf).
Proof.
  intros HC HS HJ HX. destruct (constructed_facts r n rows HC) as [W [N [ELo [EHi HA]]]].
  assert (HL : length rows = n) by (destruct HC as [H _]; exact H).
  assert (HAD : forall i, (i < n)%nat -> admissible (nth i (map fst rows) NaN) (nth i (map snd rows) NaN)).
  { intros i Hi. rewrite <- ELo, <- EHi. apply Forall2_nth; auto. destruct W; congruence. }
  rewrite Forall_forall in HX.
  assert (HF : fitted r).
  { destruct HS as [HS|[Hd [m [s [Hm [Hsg _]]]]]]; [now left|right]. split; [eauto|]. rewrite Hd. eauto. }
  destruct (forward_check r n rows junk (map (map Fin) xs) HC HF HJ) as [K _].
  { apply Forall_forall. intros a Ha. apply in_map_iff in Ha as [x [<- Hx]]. rewrite map_length. now apply HX. }
  destruct K as [us E].
  { intros a Ha i Hi. apply in_map_iff in Ha as [x [<- Hx]]. rewrite map_length, HL in Hi. destruct (HX x Hx) as [Lx Hc].
    replace (nth i (map Fin x) NaN) with (Fin (nth i x 0)) by (rewrite (nth_indep (map Fin x) NaN (Fin 0)); [now rewrite map_nth|rewrite map_length; lia]).
    apply within_iff. specialize (HAD i Hi). xnum. rewrite (proj2 (within_fin _ _ _ HAD)); auto. }
  exists us. split; auto.
  assert (M : mapM (forward_row r junk) (map (map Fin) xs) = Ok us).
  { unfold forward in E. destruct (assert_array_within_interval _ _ _ _ _) in E; [exact E|discriminate]. }
  split; [apply mapM_length in M; now rewrite map_length in M|].
  intros j i Hj Hi. cbv zeta. apply mapM_Forall2 in M.
  assert (Mj := Forall2_nth _ _ _ (map Fin []) [] j M ltac:(rewrite map_length; exact Hj)). cbv beta in Mj. rewrite map_nth in Mj.
  assert (Hin : In (nth j xs []) xs) by (now apply nth_In). destruct (HX _ Hin) as [Lx Hc].
  destruct (forward_row_nth r n rows junk (nth j xs []) i HC HS HJ Lx Hi) as [u [Eu [Lu [P1 P2]]]].
  rewrite Mj in Eu. injection Eu as <-. cbv zeta in P1, P2. split.
  - intros HI. apply P1. rewrite fwd1_fin by exact HI. eexists; reflexivity.
  - intros HI. apply P2. apply fwd1_boundary; auto.
Qed.

(** ** C09 *)
Lemma bounds_none_unusable f n per refl t sc dg r la junk xs check :
  init_reparam f n BNone per refl t sc dg = Ok r -> (1 <= n)%nat -> xs <> [] -> Forall (fun x => length x = n) xs -> check = true ->
  forward r junk (map (map Fin) xs) check = Err ValueError /\ fit la r junk (map (map Fin) xs) = Err ValueError.
Proof.
  intros HI Hn Hx HL ->.
  assert (EB : low r = repeat PInf n /\ high r = repeat PInf n).
  { unfold init_reparam in HI. cbn [bind] in HI. destruct t; try discriminate; cbn [bind] in HI;
      rewrite repeat_length, Nat.ltb_irrefl in HI; cbn [bind] in HI; injection HI as <-; cbn [low high];
      (split; clear; induction n; simpl; congruence). }
  destruct EB as [E1 E2].
  assert (EA : assert_array_within_interval (map (map Fin) xs) (low r) (high r) false false = Err ValueError).
  { rewrite E1, E2. destruct (interval_check false false (repeat PInf n) (repeat PInf n) (map (map Fin) xs)) as [_ I2].
    - reflexivity.
    - apply Forall_map. eapply Forall_impl; [|exact HL]. simpl. intros a Ha. now rewrite map_length, repeat_length.
    - apply I2. intros HA. destruct xs as [|x xs]; [contradiction|]. 
      specialize (HA (map Fin x) (or_introl eq_refl) 0%nat). rewrite repeat_length in HA. specialize (HA Hn).
      apply Forall_inv in HL. destruct n; [lia|]. destruct x as [|a x]; [simpl in HL; lia|].
      destruct HA as [HA _]. exact HA. }
  unfold forward, fit. xnum. rewrite EA. auto.
Qed.

(** ** C10, C11, C12 *)
Lemma fuel_rows (P : list R -> list R -> Prop) (f : nat -> vec X -> res (vec X)) xs :
  (forall x, In x xs -> exists y f0, P x y /\ forall fuel, (f0 <= fuel)%nat -> f fuel (map Fin x) = Ok (map Fin y)) ->
  exists ys f0, Forall2 P xs ys /\ forall fuel, (f0 <= fuel)%nat -> mapM (f fuel) (map (map Fin) xs) = Ok (map (map Fin) ys).
Proof.
  induction xs as [|x xs IH]; intros H.
  - exists [], 0%nat. split; [constructor|]. reflexivity.
  - destruct (H x) as [y [f0 [Py Ey]]]; [now left|]. destruct IH as [ys [f1 [Pys Eys]]]; [intros; apply H; now right|].
    exists (y :: ys), (Nat.max f0 f1). split; [now constructor|]. intros fuel Hf. cbn [map mapM].
    rewrite Ey by lia. cbn [bind]. rewrite Eys by lia. reflexivity.
Qed.

Lemma periodic_batch r n rows idx xs :
  constructed r n rows -> periodic r = Some idx -> reflective r = None ->
  Forall (valid_index n) idx ->
  (forall z, In z idx -> exists l h, nth (column_of n z) rows (NaN, NaN) = (Fin l, Fin h)) ->
  Forall (fun x => length x = n) xs ->
  exists ys fuel0,
    (forall fuel, (fuel0 <= fuel)%nat -> apply_boundary_conditions_x fuel r (map (map Fin) xs) = Ok (map (map Fin) ys)) /\
    Forall2 (fun x y => length y = n /\ forall i, (i < n)%nat ->
      if designated n idx i
      then forall l h, nth i rows (NaN, NaN) = (Fin l, Fin h) ->
        l <= nth i y 0 <= h /\ (exists k : Z, nth i y 0 = nth i x 0 + IZR k * (h - l)) /\ (l <= nth i x 0 <= h -> nth i y 0 = nth i x 0)
      else nth i y 0 = nth i x 0) xs ys.
Proof.
  intros HC Hp Hr HV HB HX. destruct (constructed_facts r n rows HC) as [W [N [ELo [EHi HA]]]].
  assert (HL : length rows = n) by (destruct HC as [H _]; exact H).
  assert (L1 : length (low r) = n) by (destruct W; congruence).
  assert (L2 : length (high r) = n) by (destruct W; congruence).
  assert (NL : forall i, (i < n)%nat -> nth i (low r) NaN = fst (nth i rows (NaN, NaN)) /\ nth i (high r) NaN = snd (nth i rows (NaN, NaN))).
  { intros i Hi. rewrite ELo, EHi. change NaN with (fst (NaN, NaN)) at 1. change NaN with (snd (NaN, NaN)) at 4.
    split; [exact (map_nth fst rows (NaN, NaN) i)|exact (map_nth snd rows (NaN, NaN) i)]. }
  assert (HF : Forall (fun z => fin_range (low r) (high r) (column_of n z)) idx).
  { apply Forall_forall. intros z Hz. rewrite Forall_forall in HV. destruct (col_index_designates n z (HV z Hz)) as [i [Hi [Ei _]]].
    destruct (HB z Hz) as [l [h E]]. rewrite Ei in *. destruct (NL i Hi) as [E1 E2]. rewrite E in E1, E2. exists l, h. repeat split; auto.
    assert (Hadm : admissible (nth i (low r) NaN) (nth i (high r) NaN)) by (apply Forall2_nth; auto; lia). rewrite E1, E2 in Hadm. exact Hadm. }
  destruct (fuel_rows (fun x y => length y = n /\ forall i, (i < n)%nat ->
      if designated n idx i
      then forall l h, nth i rows (NaN, NaN) = (Fin l, Fin h) ->
        l <= nth i y 0 <= h /\ (exists k : Z, nth i y 0 = nth i x 0 + IZR k * (h - l)) /\ (l <= nth i x 0 <= h -> nth i y 0 = nth i x 0)
      else nth i y 0 = nth i x 0) (fun fuel => wrap_row (wrap_periodic fuel) idx (low r) (high r)) xs) as [ys [f0 [P E]]].
  - intros x Hx. rewrite Forall_forall in HX. destruct (periodic_row (low r) (high r) n L1 L2 idx HV HF x (HX x Hx)) as [y [f0 [Ly [Py Ey]]]].
    exists y, f0. split; [|exact Ey]. split; auto. intros i Hi. specialize (Py i Hi). destruct (designated n idx i); auto.
    intros l h El. destruct (NL i Hi) as [E1 E2]. rewrite El in E1, E2. now apply Py.
  - exists ys, f0. split; auto. intros fuel Hf. unfold apply_boundary_conditions_x, apply_periodic. rewrite Hp, Hr. now apply E.
Qed.

Lemma reflective_batch r n rows idx xs :
  constructed r n rows -> periodic r = None -> reflective r = Some idx ->
  Forall (valid_index n) idx -> NoDup (map (column_of n) idx) ->
  (forall z, In z idx -> exists l h, nth (column_of n z) rows (NaN, NaN) = (Fin l, Fin h)) ->
  Forall (fun x => length x = n) xs ->
  exists ys,
    (forall fuel, (1 <= fuel)%nat -> apply_boundary_conditions_x fuel r (map (map Fin) xs) = Ok (map (map Fin) ys)) /\
    Forall2 (fun x y => length y = n /\ forall i, (i < n)%nat ->
      if designated n idx i
      then forall l h, nth i rows (NaN, NaN) = (Fin l, Fin h) ->
        let a := nth i x 0 in let b := nth i y 0 in
        (b = a \/ b = 2 * h - a \/ b = 2 * l - a \/ b = a - 2 * (h - l)) /\
        (l <= a <= h -> b = a) /\ (l <= b <= h <-> l - (h - l) <= a <= h + 2 * (h - l))
      else nth i y 0 = nth i x 0) xs ys.
Proof.
  intros HC Hp Hr HV HD HB HX. destruct (constructed_facts r n rows HC) as [W [N [ELo [EHi HA]]]].
  assert (HL : length rows = n) by (destruct HC as [H _]; exact H).
  assert (L1 : length (low r) = n) by (destruct W; congruence).
  assert (L2 : length (high r) = n) by (destruct W; congruence).
  assert (NL : forall i, (i < n)%nat -> nth i (low r) NaN = fst (nth i rows (NaN, NaN)) /\ nth i (high r) NaN = snd (nth i rows (NaN, NaN))).
  { intros i Hi. rewrite ELo, EHi. change NaN with (fst (NaN, NaN)) at 1. change NaN with (snd (NaN, NaN)) at 4.
    split; [exact (map_nth fst rows (NaN, NaN) i)|exact (map_nth snd rows (NaN, NaN) i)]. }
  assert (HF : Forall (fun z => fin_range (low r) (high r) (column_of n z)) idx).
  { apply Forall_forall. intros z Hz. rewrite Forall_forall in HV. destruct (col_index_designates n z (HV z Hz)) as [i [Hi [Ei _]]].
    destruct (HB z Hz) as [l [h E]]. rewrite Ei in *. destruct (NL i Hi) as [E1 E2]. rewrite E in E1, E2. exists l, h. repeat split; auto.
    assert (Hadm : admissible (nth i (low r) NaN) (nth i (high r) NaN)) by (apply Forall2_nth; auto; lia). rewrite E1, E2 in Hadm. exact Hadm. }
  destruct (fuel_rows (fun x y => length y = n /\ forall i, (i < n)%nat ->
      if designated n idx i
      then forall l h, nth i rows (NaN, NaN) = (Fin l, Fin h) ->
        let a := nth i x 0 in let b := nth i y 0 in
        (b = a \/ b = 2 * h - a \/ b = 2 * l - a \/ b = a - 2 * (h - l)) /\
        (l <= a <= h -> b = a) /\ (l <= b <= h <-> l - (h - l) <= a <= h + 2 * (h - l))
      else nth i y 0 = nth i x 0) (fun fuel => wrap_row (wrap_reflective (S fuel)) idx (low r) (high r)) xs) as [ys [f0 [P E]]].
  - intros x Hx. rewrite Forall_forall in HX. destruct (reflective_row (low r) (high r) n L1 L2 idx HV HF HD x (HX x Hx)) as [y [Ly [Py Ey]]].
    exists y, 0%nat. split; [|intros; apply Ey; lia]. split; auto. intros i Hi. specialize (Py i Hi). destruct (designated n idx i); auto.
    intros l h El a b. destruct (NL i Hi) as [E1 E2]. rewrite El in E1, E2. specialize (Py l h E1 E2). fold a b in Py.
    assert (Hlh : l < h).
    { assert (Hadm : admissible (nth i (low r) NaN) (nth i (high r) NaN)) by (apply Forall2_nth; auto; lia). rewrite E1, E2 in Hadm. exact Hadm. }
    rewrite Py. split; [now apply reflect_cases|]. split; [now apply reflect_inside|now apply reflect_range].
  - exists ys. split; auto. intros fuel Hf. unfold apply_boundary_conditions_x, apply_reflective. rewrite Hp, Hr.
    (* the result does not depend on the amount of fuel *)
    destruct fuel as [|fuel]; [lia|].
    assert (E0 := E (Nat.max f0 fuel) ltac:(lia)). cbv beta in E0.
    rewrite <- E0. apply mapM_ext_in. intros x Hx. apply in_map_iff in Hx as [x' [<- Hx']].
    rewrite Forall_forall in HX. destruct (reflective_row (low r) (high r) n L1 L2 idx HV HF HD x' (HX x' Hx')) as [y [Ly [Py Ey]]].
    rewrite !Ey by lia. reflexivity.
Qed.

Lemma boundary_noop r n rows xs fuel :
  constructed r n rows -> index_list_ok n (periodic r) -> index_list_ok n (reflective r) ->
  Forall (row_inside (map fst rows) (map snd rows)) xs ->
  apply_boundary_conditions_x fuel r (map (map Fin) xs) = Ok (map (map Fin) xs).
Proof.
  intros HC H1 H2 HX. destruct (constructed_facts r n rows HC) as [W [N [ELo [EHi HA]]]].
  assert (HL : length rows = n) by (destruct HC as [H _]; exact H).
  assert (L1 : length (low r) = n) by (destruct W; congruence).
  assert (L2 : length (high r) = n) by (destruct W; congruence).
  rewrite Forall_forall in HX.
  assert (HI : forall x, In x xs -> length x = n /\ forall i, (i < n)%nat ->
     inside_closed (nth i (low r) NaN) (nth i (high r) NaN) (nth i x 0) /\ admissible (nth i (low r) NaN) (nth i (high r) NaN)).
  { intros x Hx. destruct (HX x Hx) as [Lx Hc]. rewrite map_length, HL in Lx. split; auto. intros i Hi. split.
    - apply inside_is_closed. rewrite ELo, EHi. apply Hc. lia.
    - apply Forall2_nth; auto; lia. }
  assert (M : forall f idx, (forall lo hi x, inside_closed lo hi x -> admissible lo hi -> f lo hi (Fin x) = Ok (Fin x)) -> Forall (valid_index n) idx ->
    mapM (wrap_row f idx (low r) (high r)) (map (map Fin) xs) = Ok (map (map Fin) xs)).
  { intros f idx Hf Hidx. clear HX. induction xs as [|x l IH]; [reflexivity|]. cbn [map mapM].
    destruct (HI x) as [Lx Hc]; [now left|]. rewrite (wrap_row_noop (low r) (high r) n L1 L2) by auto. cbn [bind].
    rewrite IH by (intros; apply HI; now right). reflexivity. }
  assert (MP : apply_periodic fuel r (map (map Fin) xs) = Ok (map (map Fin) xs)).
  { unfold apply_periodic. destruct (periodic r); auto. apply M; auto. intros; now apply wrap_periodic_inside. }
  assert (MR : apply_reflective fuel r (map (map Fin) xs) = Ok (map (map Fin) xs)).
  { unfold apply_reflective. destruct (reflective r); auto. apply M; auto. intros; now apply wrap_reflective_inside. }
  unfold apply_boundary_conditions_x. destruct (periodic r), (reflective r); auto. rewrite MP. exact MR.
Qed.

Lemma boundary_conditions_no_effect r n rows junk us fuel :
  constructed r n rows -> scaling_ok r n -> length junk = n ->
  index_list_ok n (periodic r) -> index_list_ok n (reflective r) -> Forall (fun u => length u = n) us ->
  exists x ld, inverse r junk (map (map Fin) us) = Ok (x, ld) /\
    apply_boundary_conditions_x fuel r x = Ok x /\
    forward r junk x true = Ok (map (map Fin) us).
Proof.
  intros HC HS HJ H1 H2 HU. destruct (forward_of_inverse r n rows junk junk us true HC HS HJ HJ HU) as [xs [lds [E1 [E2 E3]]]].
  exists (map (map Fin) xs), lds. split; auto. split; auto. eapply boundary_noop; eauto.
Qed.

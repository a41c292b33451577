(** * Proofs about trim_weights in exact arithmetic *)
From Coq Require Import Reals ZArith List Bool Lra Lia Permutation Sorted.
From Verif Require Import Num PyBase XReal RList Tools ToolsFacts SpecTools.
Import ListNotations.
Open Scope R_scope.

(** ** Sorting *)
Fixpoint insertR (x : R) (l : list R) : list R :=
  match l with [] => [x] | y :: r => if Rleb x y then x :: l else y :: insertR x r end.
Definition sortR (l : list R) : list R := fold_right insertR [] l.

Lemma insert_sorted_fin x l : insert_sorted (Fin x) (map Fin l) = map Fin (insertR x l).
Proof. induction l; simpl; auto. destruct (Rleb x a); [reflexivity|]. now rewrite IHl. Qed.
Lemma np_sort_fin l : np_sort (map Fin l) = map Fin (sortR l).
Proof. induction l; simpl; auto. now rewrite IHl, insert_sorted_fin. Qed.
Lemma insertR_perm x l : Permutation (insertR x l) (x :: l).
Proof.
  induction l; simpl; auto. destruct (Rleb x a); auto.
  rewrite IHl. apply perm_swap.
Qed.
Lemma sortR_perm l : Permutation (sortR l) l.
Proof. induction l; simpl; auto. rewrite insertR_perm. now constructor. Qed.
Lemma sortR_length l : length (sortR l) = length l.
Proof. apply Permutation_length, sortR_perm. Qed.
Lemma insertR_sorted x l : StronglySorted Rle l -> StronglySorted Rle (insertR x l).
Proof.
  induction 1; simpl; [repeat constructor|].
  rcase.
  - constructor; [constructor; auto|]. constructor; auto.
    eapply Forall_impl; [|exact H0]. simpl; intros; lra.
  - constructor; auto.
    apply (Permutation_Forall (Permutation_sym (insertR_perm x l))).
    constructor; [lra|assumption].
Qed.
Lemma sortR_sorted l : StronglySorted Rle (sortR l).
Proof. induction l; simpl; [constructor|]. now apply insertR_sorted. Qed.

Lemma StronglySorted_nth l : StronglySorted Rle l -> forall i j, (i <= j < length l)%nat -> nth i l 0 <= nth j l 0.
Proof.
  induction 1; intros i j Hij; simpl in *; [lia|].
  destruct i, j; try lia; try lra.
  - rewrite Forall_forall in H0. apply H0. apply nth_In. lia.
  - apply IHStronglySorted. lia.
Qed.

Lemma sorted_perm_unique l1 l2 : StronglySorted Rle l1 -> StronglySorted Rle l2 -> Permutation l1 l2 -> l1 = l2.
Proof.
  intros H1; revert l2; induction H1 as [|a l1 H1 IH Ha]; intros l2 H2 HP.
  - now apply Permutation_nil in HP.
  - destruct H2 as [|b l2 H2 Hb]. { apply Permutation_sym, Permutation_nil in HP. discriminate. }
    assert (a = b).
    { assert (In a (b :: l2)) as [|Ia] by (eapply Permutation_in; [exact HP|now left]); auto.
      assert (In b (a :: l1)) as [|Ib] by (eapply Permutation_in; [apply Permutation_sym; exact HP|now left]); auto.
      rewrite Forall_forall in Ha, Hb. apply Rle_antisym; auto. }
    subst b. f_equal. apply IH; auto. now apply Permutation_cons_inv in HP.
Qed.

(** ** Percentile *)
Definition perc_pos (l : list R) (q : R) : R := (INR (length l) - 1) * (q / 100).
Definition percR (l : list R) (q : R) : R :=
  let s := sortR l in let h := perc_pos l q in
  let k := Z.to_nat (Int_part h) in
  nth k s 0 + (nth (Nat.min (S k) (length l - 1)) s 0 - nth k s 0) * (h - INR k).

Lemma Int_part_bounds x : IZR (Int_part x) <= x < IZR (Int_part x) + 1.
Proof. destruct (base_Int_part x). lra. Qed.
Lemma Int_part_unique x z : IZR z <= x < IZR z + 1 -> Int_part x = z.
Proof.
  intros [H1 H2]. destruct (Int_part_bounds x) as [H3 H4].
  assert (IZR z < IZR (Int_part x + 1)) by (rewrite plus_IZR; lra).
  assert (IZR (Int_part x) < IZR (z + 1)) by (rewrite plus_IZR; lra).
  apply lt_IZR in H, H0. lia.
Qed.
Lemma Int_part_nonneg x : 0 <= x -> (0 <= Int_part x)%Z.
Proof.
  intros H. destruct (Int_part_bounds x) as [H1 H2].
  assert (IZR 0 < IZR (Int_part x + 1)) by (rewrite plus_IZR; lra). apply lt_IZR in H0. lia.
Qed.

Lemma len_ge1 (l : list R) : l <> [] -> 1 <= INR (length l).
Proof. destruct l; [easy|]. cbn [length]. rewrite S_INR. pose proof (pos_INR (length l)). lra. Qed.

Section Perc.
  Context (l : list R) (q : R) (Hl : l <> []) (Hq : 0 <= q <= 100).
  Let h := perc_pos l q.
  Lemma perc_pos_bounds : 0 <= h <= INR (length l) - 1.
  Proof using Hl Hq. unfold h, perc_pos. pose proof (len_ge1 l Hl). split; nra. Qed.
  Lemma perc_k : INR (Z.to_nat (Int_part h)) <= h < INR (Z.to_nat (Int_part h)) + 1.
  Proof using Hl Hq.
    rewrite INR_IZR_INZ, Z2Nat.id.
    - apply Int_part_bounds.
    - apply Int_part_nonneg, perc_pos_bounds.
  Qed.
  Lemma perc_k_lt : (Z.to_nat (Int_part h) < length l)%nat.
  Proof using Hl Hq.
    apply INR_lt. pose proof perc_k. pose proof perc_pos_bounds. lra.
  Qed.

  Lemma percentile_fin : percentile (map Fin l) (Fin q) = Some (Fin (percR l q)).
  Proof using Hl Hq.
    unfold percentile. destruct (map Fin l) eqn:E; [destruct l; easy|]. rewrite <- E. clear E.
    replace (existsb nisnan (map Fin l)) with false
      by (clear; induction l; auto).
    rewrite map_length.
    assert (EH : nmul (nofZ (Z.of_nat (length l) - 1)) (ndiv (Fin q) (nofZ 100)) = Fin h).
    { change (nofZ 100 : X) with (Fin 100). change (nofZ (Z.of_nat (length l) - 1) : X) with (Fin (IZR (Z.of_nat (length l) - 1))).
      change (@ndiv X XNum) with xdiv. change (@nmul X XNum) with xmul.
      rewrite xdiv_fin by lra. rewrite xmul_fin. f_equal. unfold h, perc_pos.
      rewrite minus_IZR, <- INR_IZR_INZ. reflexivity. }
    rewrite EH.
    assert (ET : ntrunc (Fin h) = Some (Int_part h)).
    { cbn. destruct (Rltb h 0) eqn:E; auto. apply Rltb_true in E. pose proof perc_pos_bounds. lra. }
    rewrite ET. rewrite np_sort_fin.
    pose proof perc_k_lt as HK.
    assert (N : forall k, (k < length l)%nat -> nth_error (map Fin (sortR l)) k = Some (Fin (nth k (sortR l) 0))).
    { intros k Hk. rewrite nth_error_map. rewrite (nth_error_nth' _ 0) by (rewrite sortR_length; exact Hk). reflexivity. }
    rewrite !N by lia. f_equal.
    change (nofZ (Int_part h) : X) with (Fin (IZR (Int_part h))).
    unfold percR. fold h. rewrite INR_IZR_INZ, Z2Nat.id by (apply Int_part_nonneg, perc_pos_bounds). reflexivity.
  Qed.

  Lemma percR_spec : is_percentile l q (percR l q).
  Proof using Hl Hq.
    exists (sortR l). split; [apply sortR_perm|]. split; [apply sortR_sorted|].
    exists (Z.to_nat (Int_part h)). split; [apply perc_k|]. reflexivity.
  Qed.

  Lemma is_percentile_unique v : is_percentile l q v -> v = percR l q.
  Proof using Hl Hq.
    intros [s [HP [HS [k [Hk ->]]]]].
    assert (s = sortR l).
    { apply sorted_perm_unique; auto using sortR_sorted. rewrite HP. apply Permutation_sym, sortR_perm. }
    subst s. assert (k = Z.to_nat (Int_part h)).
    { rewrite INR_IZR_INZ in Hk. apply Nat2Z.inj. rewrite Z2Nat.id by (apply Int_part_nonneg, perc_pos_bounds).
      symmetry. apply Int_part_unique. exact Hk. }
    subst k. reflexivity.
  Qed.

  Lemma percR_le_max : exists m, In m l /\ percR l q <= m.
  Proof using Hl Hq.
    set (k := Z.to_nat (Int_part h)). pose proof perc_k_lt as HK. fold k in HK.
    set (k2 := Nat.min (S k) (length l - 1)).
    exists (nth k2 (sortR l) 0). split.
    - apply (Permutation_in _ (sortR_perm l)). apply nth_In. rewrite sortR_length. unfold k2. lia.
    - unfold percR. fold h. fold k. fold k2.
      assert (nth k (sortR l) 0 <= nth k2 (sortR l) 0).
      { apply StronglySorted_nth; [apply sortR_sorted|]. rewrite sortR_length. unfold k2. lia. }
      pose proof perc_k as HB. fold k in HB. nra.
  Qed.
End Perc.

Lemma percR_0_le l x : In x l -> percR l 0 <= x.
Proof.
  intros Hin. assert (l <> []) by (destruct l; easy).
  unfold percR, perc_pos. replace ((INR (length l) - 1) * (0 / 100)) with 0 by field.
  replace (Int_part 0) with 0%Z by (symmetry; apply Int_part_unique; lra).
  simpl Z.to_nat. simpl INR. rewrite Rminus_0_r, Rmult_0_r, Rplus_0_r.
  apply (Permutation_in _ (Permutation_sym (sortR_perm l))) in Hin.
  apply (In_nth _ _ 0) in Hin as [i [Hi <-]]. apply StronglySorted_nth; [apply sortR_sorted|lia].
Qed.

(** ** Effect of a threshold on the ESS *)
Definition keep (t : R) (l : list R) : list R := filter (fun w => Rleb t w) l.

Lemma keep_pos t l m : Forall (fun w => 0 <= w) l -> In m l -> t <= m -> 0 < Rsum l -> 0 < Rsum (keep t l).
Proof.
  intros Hn Hin Ht Hp.
  assert (F : Forall (fun w => 0 <= w) (keep t l)).
  { apply Forall_forall. intros x Hx. apply filter_In in Hx as [Hx _]. rewrite Forall_forall in Hn. auto. }
  destruct (Rlt_dec 0 m) as [Hm|Hm].
  - apply (Rsum_exists_pos _ m); auto. apply filter_In. split; auto. now apply Rleb_true.
  - destruct (Rsum_pos_exists l Hn Hp) as [x [Hx Hx']].
    apply (Rsum_exists_pos _ x); auto. apply filter_In. split; auto. apply Rleb_true. lra.
Qed.

Lemma Rsum_filter_split (f : R -> bool) (g : R -> R) l :
  Rsum (map g l) = Rsum (map g (filter f l)) + Rsum (map g (filter (fun x => negb (f x)) l)).
Proof. induction l; simpl; [lra|]. destruct (f a); simpl; lra. Qed.

Lemma keep_ess_le t l : Forall (fun w => 0 <= w) l -> 0 < Rsum (keep t l) -> essR (keep t l) <= essR l.
Proof.
  intros Hn HA. set (K := keep t l) in *. set (D := filter (fun x => negb (Rleb t x)) l).
  assert (ES : Rsum l = Rsum K + Rsum D).
  { rewrite (Rsum_as_map l), (Rsum_as_map K), (Rsum_as_map D). apply Rsum_filter_split. }
  assert (EQ : Rsumsq l = Rsumsq K + Rsumsq D) by apply Rsum_filter_split.
  assert (HD0 : 0 <= Rsum D).
  { apply Rsum_nonneg, Forall_forall. intros x Hx. apply filter_In in Hx as [Hx _]. rewrite Forall_forall in Hn; auto. }
  assert (Hb : Rsumsq D <= t * Rsum D).
  { unfold Rsumsq. rewrite (Rsum_as_map D), <- Rsum_map_scal. apply Rsum_map_le. intros x Hx.
    apply filter_In in Hx as [Hx Ht]. apply negb_true_iff, Rleb_false in Ht.
    rewrite Forall_forall in Hn. specialize (Hn x Hx). simpl in Hn. nra. }
  assert (Ha : t * Rsum K <= Rsumsq K).
  { unfold Rsumsq. rewrite (Rsum_as_map K), <- Rsum_map_scal. apply Rsum_map_le. intros x Hx.
    apply filter_In in Hx as [Hx Ht]. apply Rleb_true in Ht.
    rewrite Forall_forall in Hn. specialize (Hn x Hx). simpl in Hn. nra. }
  pose proof (Rsumsq_pos K HA) as HB. pose proof (Rsumsq_nonneg D).
  unfold essR. rewrite ES, EQ.
  set (A := Rsum K) in *. set (a := Rsum D) in *. set (B := Rsumsq K) in *. set (b := Rsumsq D) in *.
  apply (Rmult_le_reg_r (B * (B + b))). { nra. }
  replace (A * A / B * (B * (B + b))) with (A * A * (B + b)) by (field; lra).
  replace ((A + a) * (A + a) / (B + b) * (B * (B + b))) with ((A + a) * (A + a) * B) by (field; lra).
  assert (A * A * b <= A * A * (t * a)) by (apply Rmult_le_compat_l; nra).
  assert (A * a * (t * A) <= A * a * B) by (apply Rmult_le_compat_l; nra).
  nra.
Qed.

Lemma keep_all t l : (forall x, In x l -> t <= x) -> keep t l = l.
Proof.
  intros H. unfold keep. induction l; simpl; auto.
  replace (Rleb t a) with true by (symmetry; apply Rleb_true, H; now left).
  f_equal. apply IHl. intros; apply H; now right.
Qed.

(** ** The loop *)
Definition gridR (bins i : nat) : R := if Nat.eqb bins 1 then 0 else INR i * (99 / INR (bins - 1)).

Lemma gridR_grid_point bins i : (1 <= bins)%nat -> gridR bins i = grid_point bins i.
Proof.
  intros H. unfold gridR, grid_point. destruct (Nat.eqb_spec bins 1); auto.
  field. apply Rgt_not_eq. apply (lt_INR 0). lia.
Qed.
Lemma gridR_bounds bins i : (i < bins)%nat -> 0 <= gridR bins i <= 100.
Proof.
  intros H. unfold gridR. destruct (Nat.eqb_spec bins 1); [lra|].
  assert (0 < INR (bins - 1)) by (apply (lt_INR 0); lia).
  assert (INR i <= INR (bins - 1)) by (apply le_INR; lia).
  pose proof (pos_INR i).
  assert (0 <= 99 / INR (bins - 1)) by (apply Rmult_le_pos; [lra|]; left; now apply Rinv_0_lt_compat).
  split; [nra|].
  apply Rle_trans with (INR (bins - 1) * (99 / INR (bins - 1))); [nra|].
  replace (INR (bins - 1) * (99 / INR (bins - 1))) with 99 by (field; lra). lra.
Qed.
Lemma gridR_0 bins : gridR bins 0 = 0.
Proof. unfold gridR. destruct (Nat.eqb bins 1); simpl; lra. Qed.

Lemma linspace_fin bins : (1 <= bins)%nat ->
  linspace_0_99 bins = map Fin (map (gridR bins) (seq 0 bins)).
Proof.
  intros H. unfold linspace_0_99. destruct bins as [|[|b]]; [lia| |].
  - reflexivity.
  - rewrite map_map. apply map_ext. intros i. unfold gridR.
    replace (Nat.eqb (S (S b)) 1) with false by reflexivity.
    change (nofZ 99 : X) with (Fin 99).
    change (@ndiv X XNum) with xdiv. change (@nmul X XNum) with xmul.
    change (nofZ (Z.of_nat (S (S b)) - 1) : X) with (Fin (IZR (Z.of_nat (S (S b)) - 1))).
    change (nofZ (Z.of_nat i) : X) with (Fin (IZR (Z.of_nat i))).
    replace (Z.of_nat (S (S b)) - 1)%Z with (Z.of_nat (S (S b) - 1)) by lia.
    rewrite <- !INR_IZR_INZ. rewrite xdiv_fin.
    + reflexivity.
    + apply Rgt_not_eq. apply (lt_INR 0). lia.
Qed.

Lemma linspace_index bins (i : Z) : (1 <= bins)%nat -> (- Z.of_nat bins <= i < Z.of_nat bins)%Z ->
  py_index (linspace_0_99 (T:=X) bins) i =
  Some (Fin (gridR bins (Z.to_nat (if (0 <=? i)%Z then i else (i + Z.of_nat bins)%Z)))).
Proof.
  intros Hb Hi. rewrite linspace_fin by assumption. unfold py_index. rewrite !map_length, seq_length.
  assert (E : forall k, (k < bins)%nat -> nth_error (map Fin (map (gridR bins) (seq 0 bins))) k = Some (Fin (gridR bins k))).
  { intros k Hk. rewrite !nth_error_map.
    rewrite (nth_error_nth' _ 0%nat) by (now rewrite seq_length). rewrite seq_nth by assumption. reflexivity. }
  destruct (Z.leb_spec 0 i).
  - rewrite E by lia. reflexivity.
  - destruct (Z.leb_spec 0 (i + Z.of_nat bins)); [|lia]. rewrite E by lia. reflexivity.
Qed.
Lemma linspace_index_out bins (i : Z) : (1 <= bins)%nat -> (i < - Z.of_nat bins)%Z ->
  py_index (linspace_0_99 (T:=X) bins) i = None.
Proof.
  intros Hb Hi. rewrite linspace_fin by assumption. unfold py_index. rewrite !map_length, seq_length.
  destruct (Z.leb_spec 0 i); [lia|]. destruct (Z.leb_spec 0 (i + Z.of_nat bins)); [lia|reflexivity].
Qed.

Section Trim.
  Context (l : list R) (bins : nat) (ess : R).
  Context (Hn : Forall (fun w => 0 <= w) l) (Hs : Rsum l = 1) (Hb : (1 <= bins)%nat).
  Let thr (j : nat) : R := percR l (gridR bins j).
  Let ratio (j : nat) : R := essR (keep (thr j) l) / essR l.

  Lemma trim_ne : l <> [].
  Proof using Hs. intros E. pose proof Hs as H. rewrite E in H. simpl in H. lra. Qed.
  Lemma thr_keep_pos j : (j < bins)%nat -> 0 < Rsum (keep (thr j) l).
  Proof using Hn Hs.
    intros Hj. destruct (percR_le_max l (gridR bins j) trim_ne (gridR_bounds bins j Hj)) as [m [Hin Hm]].
    apply (keep_pos _ _ m); auto. lra.
  Qed.
  Lemma essR_l_pos : 0 < essR l.
  Proof using Hn Hs. pose proof (essR_ge_1 l Hn). lra. Qed.

  (** one pass through the loop body at grid index j *)
  Lemma trim_step fuel i j : (- Z.of_nat bins <= i < Z.of_nat bins)%Z ->
    j = Z.to_nat (if (0 <=? i)%Z then i else (i + Z.of_nat bins)%Z) ->
    trim_loop (S fuel) i (linspace_0_99 bins) (map Fin l) (Fin (essR l)) (Fin ess) =
    if Rleb ess (ratio j)
    then Ok (map (fun w => Rleb (thr j) w) l,
             map Fin (map (fun w => w / Rsum (keep (thr j) l)) (keep (thr j) l)))
    else trim_loop fuel (i - 1) (linspace_0_99 bins) (map Fin l) (Fin (essR l)) (Fin ess).
  Proof using Hn Hs Hb.
    intros Hi Hj.
    assert (Hjb : (j < bins)%nat).
    { subst j. destruct (Z.leb_spec 0 i); lia. }
    cbn [trim_loop]. rewrite linspace_index by assumption. rewrite <- Hj. cbn [of_option bind].
    rewrite percentile_fin; [|apply trim_ne|now apply gridR_bounds]. cbn [of_option bind].
    fold (thr j).
    assert (EM : map (fun w : X => nleb (Fin (thr j)) w) (map Fin l) = map (fun w => Rleb (thr j) w) l).
    { rewrite map_map. reflexivity. }
    rewrite EM. rewrite compress_map_Fin, compress_filter. fold (keep (thr j) l).
    pose proof (thr_keep_pos j Hjb) as HK.
    rewrite normalise_fin by lra.
    change (@ndiv X XNum) with xdiv. change (nofZ 1 : X) with (Fin 1).
    rewrite ess_normalised_fin by exact HK.
    pose proof essR_l_pos. rewrite xdiv_fin by lra. reflexivity.
  Qed.

  Lemma ratio_0 : ratio 0 = 1.
  Proof using Hn Hs.
    unfold ratio. rewrite keep_all.
    - field. pose proof essR_l_pos. lra.
    - intros x Hx. unfold thr. rewrite gridR_0. now apply percR_0_le.
  Qed.
  Lemma ratio_le_1 j : (j < bins)%nat -> ratio j <= 1.
  Proof using Hn Hs.
    intros Hj. unfold ratio. pose proof (keep_ess_le (thr j) l Hn (thr_keep_pos j Hj)).
    pose proof essR_l_pos. apply (Rmult_le_reg_r (essR l)); [lra|].
    unfold Rdiv. rewrite Rmult_assoc, Rinv_l; lra.
  Qed.

  Lemma trim_loop_ok : ess <= 1 ->
    forall i fuel, (i < bins)%nat -> (fuel > i)%nat ->
    exists j, (j <= i)%nat /\
      trim_loop fuel (Z.of_nat i) (linspace_0_99 bins) (map Fin l) (Fin (essR l)) (Fin ess) =
      Ok (map (fun w => Rleb (thr j) w) l, map Fin (map (fun w => w / Rsum (keep (thr j) l)) (keep (thr j) l))) /\
      ess <= ratio j /\ forall j', (j < j' <= i)%nat -> ratio j' < ess.
  Proof using Hn Hs Hb.
    intros He. induction i; intros fuel Hi Hf; destruct fuel as [|fuel]; try lia.
    - rewrite (trim_step fuel _ 0) by (try reflexivity; lia).
      pose proof ratio_0. rewrite (proj2 (Rleb_true _ _)) by lra.
      exists 0%nat. split; [lia|]. split; [reflexivity|]. split; [lra|]. intros; lia.
    - rewrite (trim_step fuel _ (S i)).
      2: lia.
      2:{ destruct (Z.leb_spec 0 (Z.of_nat (S i))); lia. }
      rcase.
      + exists (S i). split; [lia|]. split; [reflexivity|]. split; [lra|]. intros; lia.
      + replace (Z.of_nat (S i) - 1)%Z with (Z.of_nat i) by lia.
        destruct (IHi fuel) as [j [Hj [HE [HR HM]]]]; [lia|lia|].
        exists j. split; [lia|]. split; [exact HE|]. split; [exact HR|].
        intros j' Hj'. destruct (Nat.eq_dec j' (S i)); [subst; lra|]. apply HM. lia.
  Qed.

  Lemma trim_loop_index_error : 1 < ess ->
    forall k fuel, (k <= 2 * bins)%nat -> (fuel > k)%nat ->
    trim_loop fuel (Z.of_nat k - Z.of_nat bins - 1) (linspace_0_99 bins) (map Fin l) (Fin (essR l)) (Fin ess) = Err IndexError.
  Proof using Hn Hs Hb.
    intros He. induction k; intros fuel Hk Hf; destruct fuel as [|fuel]; try lia.
    - cbn [trim_loop]. rewrite linspace_index_out by lia. reflexivity.
    - erewrite trim_step; [|lia|reflexivity].
      rewrite (proj2 (Rleb_false _ _)).
      + replace (Z.of_nat (S k) - Z.of_nat bins - 1 - 1)%Z with (Z.of_nat k - Z.of_nat bins - 1)%Z by lia.
        apply IHk; lia.
      + match goal with |- ratio ?j < _ => assert (ratio j <= 1) end.
        { apply ratio_le_1. destruct (Z.leb_spec 0 (Z.of_nat (S k) - Z.of_nat bins - 1)); lia. }
        lra.
  Qed.
End Trim.

Lemma essR_normalised ws : 0 < Rsum ws -> essR (map (fun w => w / Rsum ws) ws) = essR ws.
Proof.
  intros H. replace (map (fun w => w / Rsum ws) ws) with (map (fun w => (/ Rsum ws) * w) ws).
  - apply essR_scale; auto. apply Rgt_not_eq. now apply Rinv_0_lt_compat.
  - apply map_ext. intros; unfold Rdiv; ring.
Qed.

Lemma trim_weights_unfold {A} (samples : list A) ws ess bins : 0 < Rsum ws ->
  trim_weights samples (map Fin ws) (Fin ess) bins =
  bind (trim_loop (2 * bins + 1) (Z.of_nat bins - 1) (linspace_0_99 bins)
         (map Fin (map (fun w => w / Rsum ws) ws)) (Fin (essR (map (fun w => w / Rsum ws) ws))) (Fin ess))
       (fun r => Ok (compress (fst r) samples, snd r, map Fin (map (fun w => w / Rsum ws) ws))).
Proof.
  intros H. unfold trim_weights. rewrite normalise_fin by lra.
  change (@ndiv X XNum) with xdiv. change (nofZ 1 : X) with (Fin 1).
  rewrite ess_normalised_fin by exact H. rewrite essR_normalised by exact H.
  destruct (trim_loop _ _ _ _ _ _) as [[m w]|e]; reflexivity.
Qed.

Lemma norm_nonneg ws : Forall (fun w => 0 <= w) ws -> 0 < Rsum ws ->
  Forall (fun w => 0 <= w) (map (fun w => w / Rsum ws) ws).
Proof.
  intros Hn Hp. apply Forall_map. eapply Forall_impl; [|exact Hn]. simpl. intros w Hw.
  apply Rmult_le_pos; [exact Hw|]. left. now apply Rinv_0_lt_compat.
Qed.

Lemma compress_map_combine {A} (f : R -> bool) (s : list A) l : length s = length l ->
  combine (compress (map f l) s) (filter f l) = filter (fun p => f (snd p)) (combine s l).
Proof.
  revert s; induction l; intros [|x s] HL; simpl in *; try lia; auto.
  destruct (f a); simpl; [f_equal|]; apply IHl; lia.
Qed.
Lemma compress_map_length {A} (f : R -> bool) (s : list A) l : length s = length l ->
  length (compress (map f l) s) = length (filter f l).
Proof.
  revert s; induction l; intros [|x s] HL; simpl in *; try lia; auto.
  destruct (f a); simpl; [f_equal|]; apply IHl; lia.
Qed.
Lemma map_fst_combine {A B} (a : list A) (b : list B) : length a = length b -> map fst (combine a b) = a.
Proof. revert b; induction a; intros [|y b] H; simpl in *; try lia; auto. f_equal. apply IHa. lia. Qed.
Lemma map_snd_combine {A B} (a : list A) (b : list B) : length a = length b -> map snd (combine a b) = b.
Proof. revert b; induction a; intros [|y b] H; simpl in *; try lia; auto. f_equal. apply IHa. lia. Qed.

Lemma total_Rsum l : total l = Rsum l.
Proof.
  assert (G : forall l a, fold_left Rplus l a = a + Rsum l).
  { induction l0; intros b; simpl; [lra|]. rewrite IHl0. lra. }
  unfold total. rewrite G. lra.
Qed.
Lemma kish_essR l : kish_ess l = essR l.
Proof.
  unfold kish_ess, essR, Rsumsq. rewrite !total_Rsum.
  rewrite (Rsum_map_ext (fun x => x ^ 2) (fun x => x * x)) by (intros; ring).
  simpl. now rewrite Rmult_1_r.
Qed.

(** C16 *)
Lemma trim_weights_ok {A} (samples : list A) ws ess bins :
  Forall (fun w => 0 <= w) ws -> 0 < total ws -> length samples = length ws ->
  (1 <= bins)%nat -> ess <= 1 ->
  let p := map (fun w => w / total ws) ws in
  exists (j : nat) (tau : R),
    (j < bins)%nat /\ is_percentile p (grid_point bins j) tau /\
    let kept := filter (fun sw => Rleb tau (snd sw)) (combine samples p) in
    let kw := map snd kept in
    trim_weights samples (map Fin ws) (Fin ess) bins =
      Ok (map fst kept, map Fin (map (fun w => w / total kw) kw), map Fin p) /\
    0 < total kw /\
    ess * kish_ess ws <= kish_ess kw <= kish_ess ws /\
    (forall j' tau', (j < j' < bins)%nat -> is_percentile p (grid_point bins j') tau' ->
       kish_ess (filter (Rleb tau') p) < ess * kish_ess ws).
Proof.
  rewrite total_Rsum. intros Hn Hp HL Hb He p.
  pose proof (norm_nonneg ws Hn Hp) as Hn'. pose proof (Rsum_norm ws Hp) as Hs'. fold p in Hn', Hs'.
  destruct (trim_loop_ok p bins ess Hn' Hs' Hb He (bins - 1) (2 * bins + 1)) as [j [Hj [HE [HR HM]]]]; [lia|lia|].
  assert (Hne : p <> []) by (intros E; rewrite E in Hs'; simpl in Hs'; lra).
  assert (HLp : length samples = length p) by (unfold p; now rewrite map_length).
  exists j, (percR p (gridR bins j)). split; [lia|]. split.
  { rewrite <- gridR_grid_point by assumption. apply percR_spec; auto. apply gridR_bounds. lia. }
  set (tau := percR p (gridR bins j)) in *.
  intros kept kw.
  assert (EK : kept = combine (compress (map (fun w => Rleb tau w) p) samples) (keep tau p)).
  { unfold kept, keep. rewrite (compress_map_combine (fun w => Rleb tau w)); auto. }
  assert (ELen : length (compress (map (fun w => Rleb tau w) p) samples) = length (keep tau p)).
  { apply compress_map_length; auto. }
  assert (EW : kw = keep tau p). { unfold kw. rewrite EK. now apply map_snd_combine. }
  assert (EF : map fst kept = compress (map (fun w => Rleb tau w) p) samples).
  { rewrite EK. now apply map_fst_combine. }
  assert (HKp : 0 < Rsum (keep tau p)) by (apply thr_keep_pos; auto; lia).
  rewrite !kish_essR. rewrite !total_Rsum. rewrite EW.
  assert (HEp : essR p = essR ws) by (now apply essR_normalised).
  assert (Hep : 0 < essR ws) by (pose proof (essR_ge_1 ws Hn Hp); lra).
  split; [|split; [exact HKp|split; [split|]]].
  - rewrite trim_weights_unfold by exact Hp. fold p.
    replace (Z.of_nat bins - 1)%Z with (Z.of_nat (bins - 1)) by lia. rewrite HE. cbn [bind fst snd].
    rewrite EF. reflexivity.
  - rewrite <- HEp in *. apply (Rmult_le_compat_r (essR p)) in HR; [|lra].
    unfold Rdiv in HR. rewrite Rmult_assoc, Rinv_l in HR by lra. fold tau in HR. lra.
  - rewrite <- HEp. now apply keep_ess_le.
  - intros j' tau' Hj' Ht'. rewrite kish_essR.
    rewrite <- gridR_grid_point in Ht' by assumption.
    apply is_percentile_unique in Ht'; auto; [|apply gridR_bounds; lia]. subst tau'.
    specialize (HM j'). assert (HM' : essR (keep (percR p (gridR bins j')) p) / essR p < ess) by (apply HM; lia).
    rewrite HEp in HM'. apply (Rmult_lt_compat_r (essR ws)) in HM'; [|lra].
    unfold Rdiv in HM'. rewrite Rmult_assoc, Rinv_l in HM' by lra.
    change (filter (Rleb (percR p (gridR bins j'))) p) with (keep (percR p (gridR bins j')) p). lra.
Qed.

(** C17 *)
Lemma trim_weights_unattainable {A} (samples : list A) ws ess bins :
  Forall (fun w => 0 <= w) ws -> 0 < total ws -> (1 <= bins)%nat -> 1 < ess ->
  trim_weights samples (map Fin ws) (Fin ess) bins = Err IndexError.
Proof.
  rewrite total_Rsum. intros Hn Hp Hb He.
  pose proof (norm_nonneg ws Hn Hp) as Hn'. pose proof (Rsum_norm ws Hp) as Hs'.
  rewrite trim_weights_unfold by exact Hp.
  pose proof (trim_loop_index_error _ bins ess Hn' Hs' Hb He (2 * bins) (2 * bins + 1)) as H.
  replace (Z.of_nat (2 * bins) - Z.of_nat bins - 1)%Z with (Z.of_nat bins - 1)%Z in H by lia.
  rewrite H by lia. reflexivity.
Qed.

(** a NaN among the weights *)
Lemma nsum_nan (l : list X) : In NaN l -> nsum l = NaN.
Proof.
  induction l; [easy|]. intros [->|H]; cbn -[xadd].
  - reflexivity.
  - change (nadd a (nsum l) = NaN). rewrite IHl by assumption. destruct a; reflexivity.
Qed.
Lemma normalise_nan (ws : list X) : In NaN ws -> normalise ws = map (fun _ => NaN) ws.
Proof. intros H. unfold normalise. rewrite nsum_nan by assumption. apply map_ext. intros []; reflexivity. Qed.

Lemma trim_loop_nan (l : list X) bins ess : l <> [] -> (1 <= bins)%nat ->
  forall k fuel, (k <= 2 * bins)%nat -> (fuel > k)%nat ->
  trim_loop fuel (Z.of_nat k - Z.of_nat bins - 1) (linspace_0_99 bins) (map (fun _ => NaN) l) NaN ess = Err IndexError.
Proof.
  intros Hne Hb. induction k; intros fuel Hk Hf; destruct fuel as [|fuel]; try lia.
  - cbn [trim_loop]. rewrite linspace_index_out by lia. reflexivity.
  - cbn [trim_loop]. rewrite linspace_index by lia. cbn [of_option bind].
    assert (EP : forall q, percentile (map (fun _ => NaN) l) q = Some NaN).
    { intros q. destruct l as [|a l']; [easy|].
      unfold percentile. simpl map. cbn -[xdiv]. f_equal. cbn.
      destruct (Reqb 0 0) eqn:E0; [|apply Reqb_false in E0; lra].
      destruct (Rltb 0 0) eqn:E; [apply Rltb_true in E; lra|reflexivity]. }
    rewrite EP. cbn [of_option bind].
    assert (EC : compress (map (fun w : X => nleb NaN w) (map (fun _ : X => NaN) l)) (map (fun _ : X => NaN) l) = []).
    { clear. induction l; auto. }
    rewrite EC. unfold normalise. cbn [map].
    replace (nleb ess (ndiv (ndiv (nofZ 1) (nsum [])) NaN)) with false.
    2:{ destruct ess; cbn; destruct (Reqb 0 0); cbn; try destruct (Rltb 0 1); try destruct (Rltb 1 0); reflexivity. }
    replace (Z.of_nat (S k) - Z.of_nat bins - 1 - 1)%Z with (Z.of_nat k - Z.of_nat bins - 1)%Z by lia.
    apply IHk; lia.
Qed.

Lemma trim_weights_nan {A} (samples : list A) (ws : list X) ess bins :
  In NaN ws -> (1 <= bins)%nat -> trim_weights samples ws ess bins = Err IndexError.
Proof.
  intros Hin Hb. unfold trim_weights. rewrite normalise_nan by assumption.
  assert (Hne : ws <> []) by (destruct ws; easy).
  replace (ndiv (nofZ 1) (nsum (map nsqr (map (fun _ : X => NaN) ws)))) with NaN.
  - pose proof (trim_loop_nan ws bins ess Hne Hb (2 * bins) (2 * bins + 1)) as H.
    replace (Z.of_nat (2 * bins) - Z.of_nat bins - 1)%Z with (Z.of_nat bins - 1)%Z in H by lia.
    rewrite H by lia. reflexivity.
  - rewrite nsum_nan; [reflexivity|]. destruct ws; [easy|]. left. reflexivity.
Qed.

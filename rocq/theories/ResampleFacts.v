(** * Proofs about systematic_resample in exact arithmetic *)
From Coq Require Import Reals ZArith List Bool Lra Lia Permutation Sorted.
From Coquelicot Require Import Coquelicot.
From Coq Require Import List.
From Verif Require Import Num PyBase XReal RList Tools ToolsFacts SpecTools TrimFacts.
Import ListNotations.
Open Scope R_scope.

(** cumulative sum of the first k weights *)
Definition cum (ws : list R) (k : nat) : R := Rsum (firstn k ws).

Lemma cum_0 ws : cum ws 0 = 0. Proof. reflexivity. Qed.
Lemma cum_S ws k : (k < length ws)%nat -> cum ws (S k) = cum ws k + nth k ws 0.
Proof.
  unfold cum. revert k; induction ws; intros k Hk; simpl in Hk; [lia|].
  destruct k; [simpl; lra|]. change (a + Rsum (firstn (S k) ws) = a + Rsum (firstn k ws) + nth k ws 0). rewrite IHws by lia. lra.
Qed.
Lemma cum_all ws k : (length ws <= k)%nat -> cum ws k = Rsum ws.
Proof. intros; unfold cum. now rewrite firstn_all2. Qed.
Lemma cum_mono ws : Forall (fun w => 0 <= w) ws -> forall j k, (j <= k)%nat -> cum ws j <= cum ws k.
Proof.
  intros Hn j k H. induction H; [lra|].
  destruct (Nat.lt_ge_cases m (length ws)).
  - rewrite cum_S by assumption.
    assert (0 <= nth m ws 0). { rewrite Forall_forall in Hn. apply Hn, nth_In. assumption. } lra.
  - rewrite (cum_all ws (S m)) by lia. rewrite (cum_all ws m) in IHle by lia. assumption.
Qed.
Lemma cum_nonneg ws : Forall (fun w => 0 <= w) ws -> forall k, 0 <= cum ws k.
Proof. intros Hn k. rewrite <- (cum_0 ws). apply cum_mono; auto. lia. Qed.
Lemma cum_le_sum ws : Forall (fun w => 0 <= w) ws -> forall k, cum ws k <= Rsum ws.
Proof. intros Hn k. rewrite <- (cum_all ws (Nat.max k (length ws))) by lia. apply cum_mono; auto. lia. Qed.

Lemma skipn_nth {A} (l : list A) k d : (k < length l)%nat -> skipn k l = nth k l d :: skipn (S k) l.
Proof.
  revert k; induction l; intros k Hk; simpl in Hk; [lia|]. destruct k; [reflexivity|].
  cbn [nth]. rewrite skipn_cons. rewrite IHl by lia. reflexivity.
Qed.

(** position [p] selects index [j]: the first j with p <= cum (j+1) *)
Definition selects (ws : list R) (p : R) (j : nat) : Prop :=
  (j < length ws)%nat /\ p <= cum ws (S j) /\ (j = 0%nat \/ cum ws j < p).

Lemma advance_fin ws pos : forall m j, (length ws - S j = m)%nat -> (j < length ws)%nat ->
  (pos <= Rsum ws ->
   exists j', (j <= j' < length ws)%nat /\
     advance (Fin pos) j (Fin (cum ws (S j))) (map Fin (skipn (S j) ws)) =
       Ok (j', Fin (cum ws (S j')), map Fin (skipn (S j') ws)) /\
     pos <= cum ws (S j') /\ (j' = j \/ cum ws j' < pos)) /\
  (Rsum ws < pos -> Forall (fun w => 0 <= w) ws ->
     advance (Fin pos) j (Fin (cum ws (S j))) (map Fin (skipn (S j) ws)) = Err IndexError).
Proof.
  induction m; intros j Hm Hj.
  - assert (length ws <= S j)%nat by lia. split.
    + intros Hp. exists j. split; [lia|]. rewrite skipn_all2 by assumption. cbn [map advance].
      rewrite cum_all by assumption. cbn. rewrite (proj2 (Rltb_false _ _)) by lra.
      split; [reflexivity|]. split; [assumption|now left].
    + intros Hp _. rewrite skipn_all2 by assumption. cbn [map advance].
      rewrite cum_all by assumption. cbn. now rewrite (proj2 (Rltb_true _ _)) by lra.
  - assert (S j < length ws)%nat by lia.
    rewrite (skipn_nth ws (S j) 0) by assumption. cbn [map advance].
    change (nltb (Fin (cum ws (S j))) (Fin pos)) with (Rltb (cum ws (S j)) pos).
    change (nadd (Fin (cum ws (S j))) (Fin (nth (S j) ws 0))) with (Fin (cum ws (S j) + nth (S j) ws 0)).
    rewrite <- cum_S by assumption.
    destruct (IHm (S j)) as [I1 I2]; [lia|lia|]. split.
    + intros Hp. destruct (Rltb (cum ws (S j)) pos) eqn:E.
      * apply Rltb_true in E. destruct (I1 Hp) as [j' [Hj' [HE [HP HL]]]].
        exists j'. split; [lia|]. split; [exact HE|]. split; [exact HP|].
        right. destruct HL as [->|]; auto.
      * apply Rltb_false in E. exists j. split; [lia|]. split; [|split; [lra|now left]].
        now rewrite (skipn_nth ws (S j) 0) by assumption.
    + intros Hp Hn. rewrite (proj2 (Rltb_true _ _)).
      * now apply I2.
      * pose proof (cum_le_sum ws Hn (S j)). lra.
Qed.

Lemma systematic_loop_fin ws : Forall (fun w => 0 <= w) ws ->
  forall ps j, StronglySorted Rle ps -> (j < length ws)%nat ->
  (j = 0%nat \/ Forall (fun p => cum ws j < p) ps) ->
  (Forall (fun p => p <= Rsum ws) ps ->
   exists idx, systematic_loop (map Fin ps) j (Fin (cum ws (S j))) (map Fin (skipn (S j) ws)) = Ok idx /\
     Forall2 (selects ws) ps idx /\ StronglySorted le (j :: idx)) /\
  (Exists (fun p => Rsum ws < p) ps ->
   systematic_loop (map Fin ps) j (Fin (cum ws (S j))) (map Fin (skipn (S j) ws)) = Err IndexError).
Proof.
  intros Hn. induction ps as [|p ps IH]; intros j Hs Hj HL.
  - split.
    + intros _. exists []. split; [reflexivity|]. split; repeat constructor.
    + intros H; inversion H.
  - inversion Hs as [|? ? Hs' Hp']; subst.
    destruct (advance_fin ws p (length ws - S j) j eq_refl Hj) as [A1 A2].
    cbn [map systematic_loop].
    split.
    + intros HF. inversion HF as [|? ? HF1 HF2]; subst.
      destruct (A1 HF1) as [j' [Hj' [-> [HP HL']]]]. cbn [bind].
      assert (HLn : j' = 0%nat \/ Forall (fun p0 => cum ws j' < p0) ps).
      { destruct (Nat.eq_dec j' 0); auto. right.
        assert (cum ws j' < p). { destruct HL' as [->|]; auto. destruct HL as [|HL]; [contradiction|]. now inversion HL. }
        eapply Forall_impl; [|exact Hp']. simpl; intros; lra. }
      destruct (IH j' Hs' ltac:(lia) HLn) as [I1 _].
      destruct (I1 HF2) as [idx [-> [HI HS]]]. cbn [bind].
      exists (j' :: idx). split; [reflexivity|]. split.
      * constructor; auto. split; [lia|]. split; [exact HP|].
        destruct (Nat.eq_dec j' 0); auto. right.
        destruct HL' as [->|]; auto. destruct HL as [|HL]; [contradiction|]. now inversion HL.
      * constructor; auto. constructor; [lia|]. inversion HS; subst.
        eapply Forall_impl; [|eassumption]. simpl; intros; lia.
    + intros HE. destruct (Rlt_dec (Rsum ws) p) as [Hgt|Hle].
      * rewrite A2 by assumption. reflexivity.
      * destruct (A1 ltac:(lra)) as [j' [Hj' [-> [HP HL']]]]. cbn [bind].
        assert (HLn : j' = 0%nat \/ Forall (fun p0 => cum ws j' < p0) ps).
        { destruct (Nat.eq_dec j' 0); auto. right.
          assert (cum ws j' < p). { destruct HL' as [->|]; auto. destruct HL as [|HL]; [contradiction|]. now inversion HL. }
          eapply Forall_impl; [|exact Hp']. simpl; intros; lra. }
        destruct (IH j' Hs' ltac:(lia) HLn) as [_ I2]. rewrite I2; [reflexivity|].
        inversion HE; subst; [contradiction|assumption].
Qed.

(** ** Positions *)
Definition posR (u : R) (N i : nat) : R := (u + INR i) / INR N.
Definition positionsR (u : R) (N : nat) : list R := map (posR u N) (seq 0 N).

Lemma posR_mono u N i j : (1 <= N)%nat -> (i <= j)%nat -> posR u N i <= posR u N j.
Proof.
  intros HN H. unfold posR, Rdiv. apply Rmult_le_compat_r.
  - left. apply Rinv_0_lt_compat, (lt_INR 0). lia.
  - apply le_INR in H. lra.
Qed.
Lemma positions_sorted u N : StronglySorted Rle (positionsR u N).
Proof.
  unfold positionsR. destruct N as [|N]; [constructor|].
  assert (G : forall m s, StronglySorted Rle (map (posR u (S N)) (seq s m))).
  { induction m; intros s; simpl; constructor; auto.
    apply Forall_map, Forall_forall. intros i Hi. apply in_seq in Hi. apply posR_mono; lia. }
  apply G.
Qed.

Definition norm_step (ws : list R) : list R :=
  if Rltb (/ 2 ^ 26) (Rabs (Rsum ws - 1)) then map (fun w => w / Rsum ws) ws else ws.

Lemma SQRTEPS_fin : (SQRTEPS : X) = Fin (/ 2 ^ 26).
Proof.
  unfold SQRTEPS. change (@ndiv X XNum) with xdiv.
  change (nofZ 1 : X) with (Fin 1). change (nofZ (2 ^ 26) : X) with (Fin (IZR (2 ^ 26))).
  replace (IZR (2 ^ 26)) with (2 ^ 26) by (rewrite pow_IZR; f_equal).
  rewrite xdiv_fin by (apply pow_nonzero; lra). f_equal. unfold Rdiv. ring.
Qed.

Lemma systematic_unfold u N ws : Rsum ws <> 0 -> (1 <= N)%nat ->
  systematic_resample (Fin u) N (map Fin ws) =
  systematic_loop (map Fin (positionsR u N)) 0 (Fin (cum (norm_step ws) 1)) (map Fin (skipn 1 (norm_step ws))).
Proof.
  intros HS HN. unfold systematic_resample. rewrite nsum_fin. rewrite SQRTEPS_fin.
  change (nltb (Fin (/ 2 ^ 26)) (nabs (nsub (Fin (Rsum ws)) (nofZ 1)))) with (Rltb (/ 2 ^ 26) (Rabs (Rsum ws - 1))).
  rewrite normalise_fin by assumption.
  assert (E : map (fun i : nat => ndiv (nadd (Fin u) (nofZ (Z.of_nat i))) (nofZ (Z.of_nat N))) (seq 0 N) = map Fin (positionsR u N)).
  { unfold positionsR. rewrite map_map. apply map_ext. intros i.
    change (nofZ (Z.of_nat i) : X) with (Fin (IZR (Z.of_nat i))).
    change (nofZ (Z.of_nat N) : X) with (Fin (IZR (Z.of_nat N))).
    change (@ndiv X XNum) with xdiv. change (@nadd X XNum) with xadd.
    rewrite xadd_fin, <- !INR_IZR_INZ, xdiv_fin. { reflexivity. }
    apply Rgt_not_eq, (lt_INR 0). lia. }
  rewrite E.
  assert (E2 : (if Rltb (/ 2 ^ 26) (Rabs (Rsum ws - 1)) then map Fin (map (fun w => w / Rsum ws) ws) else map Fin ws) = map Fin (norm_step ws)).
  { unfold norm_step. now destruct (Rltb _ _). }
  rewrite E2. clear E E2.
  destruct (norm_step ws) as [|w0 rest] eqn:EN.
  - exfalso. unfold norm_step in EN. destruct (Rltb _ _); [apply map_eq_nil in EN|]; subst; simpl in HS; lra.
  - cbn [map]. replace (cum (w0 :: rest) 1) with w0 by (unfold cum; simpl; lra). reflexivity.
Qed.

Lemma norm_step_nonneg ws : Forall (fun w => 0 <= w) ws -> 0 < Rsum ws -> Forall (fun w => 0 <= w) (norm_step ws).
Proof. intros. unfold norm_step. destruct (Rltb _ _); auto. now apply norm_nonneg. Qed.
Lemma norm_step_length ws : length (norm_step ws) = length ws.
Proof. unfold norm_step. destruct (Rltb _ _); auto. now rewrite map_length. Qed.

(** the general statement for whatever the loop sees *)
Lemma systematic_core u N ws : Forall (fun w => 0 <= w) ws -> 0 < Rsum ws -> (1 <= N)%nat ->
  let v := norm_step ws in
  (Forall (fun p => p <= Rsum v) (positionsR u N) ->
   exists idx, systematic_resample (Fin u) N (map Fin ws) = Ok idx /\
     Forall2 (selects v) (positionsR u N) idx /\ StronglySorted le idx) /\
  (Exists (fun p => Rsum v < p) (positionsR u N) ->
     systematic_resample (Fin u) N (map Fin ws) = Err IndexError).
Proof.
  intros Hn Hp HN v. rewrite systematic_unfold by (try lra; assumption). fold v.
  assert (Hl : (0 < length v)%nat).
  { unfold v. rewrite norm_step_length. destruct ws; simpl in *; [lra|lia]. }
  destruct (systematic_loop_fin v (norm_step_nonneg ws Hn Hp) (positionsR u N) 0 (positions_sorted u N) Hl ltac:(now left)) as [A B].
  split; [|exact B].
  intros H. destruct (A H) as [idx [H1 [H2 H3]]]. exists idx. repeat split; auto. now inversion H3.
Qed.

(** ** Counting *)
Definition cnt (u : R) (N : nat) (x : R) : nat := length (filter (fun i => Rleb (u + INR i) x) (seq 0 N)).

Lemma cnt_closed u N x : 0 <= u ->
  Z.of_nat (cnt u N x) = Z.max 0 (Z.min (Z.of_nat N) (Int_part (x - u) + 1)).
Proof.
  intros Hu. unfold cnt. induction N.
  - simpl. lia.
  - rewrite seq_S, filter_app, app_length, Nat.add_0_l. cbn [filter].
    destruct (Rleb (u + INR N) x) eqn:E.
    + apply Rleb_true in E. cbn [length].
      assert (Z.of_nat N <= Int_part (x - u))%Z.
      { destruct (Int_part_bounds (x - u)) as [H1 H2].
        assert (IZR (Z.of_nat N) < IZR (Int_part (x - u) + 1)).
        { rewrite plus_IZR, <- INR_IZR_INZ. lra. }
        apply lt_IZR in H. lia. }
      lia.
    + apply Rleb_false in E. cbn [length].
      assert (Int_part (x - u) < Z.of_nat N)%Z.
      { destruct (Int_part_bounds (x - u)) as [H1 H2].
        apply lt_IZR. rewrite <- INR_IZR_INZ. lra. }
      lia.
Qed.

Lemma cnt_pos_offset u N x : 0 < u < 1 -> 0 <= x <= INR N ->
  Z.of_nat (cnt u N x) = (Int_part (x - u) + 1)%Z.
Proof.
  intros Hu Hx. rewrite cnt_closed by lra. destruct (Int_part_bounds (x - u)) as [H1 H2].
  assert (IZR (-1) < IZR (Int_part (x - u) + 1)) by (rewrite plus_IZR; lra). apply lt_IZR in H.
  assert (IZR (Int_part (x - u)) < IZR (Z.of_nat N)) by (rewrite <- INR_IZR_INZ; lra). apply lt_IZR in H0. lia.
Qed.

Lemma cnt_bounds u N x : 0 <= u < 1 -> 0 <= x <= INR N -> x - u <= INR (cnt u N x) <= x - u + 1.
Proof.
  intros Hu Hx. destruct (Req_dec u 0) as [->|Hne].
  - rewrite INR_IZR_INZ, cnt_closed by lra. rewrite Rminus_0_r. destruct (Int_part_bounds x) as [H1 H2].
    pose proof (Int_part_nonneg x ltac:(lra)).
    destruct (Z.min_spec (Z.of_nat N) (Int_part x + 1)) as [[Hlt ->]|[Hle ->]]; rewrite Z.max_r by lia.
    + rewrite <- INR_IZR_INZ. 
      assert (IZR (Z.of_nat N) <= IZR (Int_part x)) by (apply IZR_le; lia). rewrite <- INR_IZR_INZ in H0. lra.
    + rewrite plus_IZR. lra.
  - rewrite INR_IZR_INZ, cnt_pos_offset by lra. rewrite plus_IZR. destruct (Int_part_bounds (x - u)). lra.
Qed.
Lemma cnt_bounds_strict u N x : 0 < u < 1 -> 0 <= x <= INR N -> x - u < INR (cnt u N x) <= x - u + 1.
Proof.
  intros Hu Hx. rewrite INR_IZR_INZ, cnt_pos_offset by lra. rewrite plus_IZR. destruct (Int_part_bounds (x - u)). lra.
Qed.

Definition selb (ws : list R) (p : R) (j : nat) : bool :=
  Rleb p (cum ws (S j)) && (Nat.eqb j 0 || Rltb (cum ws j) p).

Lemma selects_functional ws p i j : Forall (fun w => 0 <= w) ws -> selects ws p i -> selects ws p j -> i = j.
Proof.
  intros Hn. assert (G : forall i j, selects ws p i -> selects ws p j -> (i < j)%nat -> False).
  { intros a b [Ha [Pa La]] [Hb [Pb Lb]] Hab. destruct Lb as [->|Lb]; [lia|].
    assert (cum ws (S a) <= cum ws b) by (apply cum_mono; auto). lra. }
  intros Hi Hj. destruct (Nat.lt_total i j) as [|[|]]; auto; exfalso; eauto.
Qed.

Lemma selb_spec ws p j : (j < length ws)%nat -> (selb ws p j = true <-> selects ws p j).
Proof.
  intros Hj. unfold selb, selects. rewrite andb_true_iff, orb_true_iff, Rleb_true, Rltb_true, Nat.eqb_eq. tauto.
Qed.

Lemma copies_selected ws ps idx j : Forall (fun w => 0 <= w) ws -> (j < length ws)%nat ->
  Forall2 (selects ws) ps idx -> copies j idx = length (filter (fun p => selb ws p j) ps).
Proof.
  intros Hn Hj. unfold copies. induction 1; [reflexivity|]. cbn [filter count_occ].
  destruct (Nat.eq_dec y j).
  - subst. rewrite (proj2 (selb_spec ws x j Hj)) by assumption. simpl. now f_equal.
  - destruct (selb ws x j) eqn:E; auto. apply selb_spec in E; auto.
    exfalso. apply n. eapply selects_functional; eauto.
Qed.

Lemma filter_map_length {A B} (f : B -> bool) (g : A -> B) l :
  length (filter f (map g l)) = length (filter (fun a => f (g a)) l).
Proof. induction l; simpl; auto. destruct (f (g a)); simpl; now rewrite IHl. Qed.

Lemma filter_diff_length {A} (f g : A -> bool) l : (forall a, f a = true -> g a = true) ->
  (length (filter (fun a => g a && negb (f a)) l) + length (filter f l) = length (filter g l))%nat.
Proof.
  intros H. induction l; simpl; auto. specialize (H a).
  destruct (f a); [rewrite H by auto|destruct (g a)]; simpl; lia.
Qed.
Open Scope nat_scope.
Lemma filter_ext_length {A} (f g : A -> bool) l : (forall a, f a = g a) -> length (filter f l) = length (filter g l).
Proof. intros H. now rewrite (filter_ext f g H). Qed.
Open Scope R_scope.

Lemma posR_le u N i x : (1 <= N)%nat -> Rleb (posR u N i) x = Rleb (u + INR i) (INR N * x).
Proof.
  intros HN. assert (0 < INR N) by (apply (lt_INR 0); lia). unfold posR.
  destruct (Rleb (u + INR i) (INR N * x)) eqn:E; [apply Rleb_true in E; apply Rleb_true | apply Rleb_false in E; apply Rleb_false].
  - apply (Rmult_le_reg_l (INR N)); auto. replace (INR N * ((u + INR i) / INR N)) with (u + INR i) by (field; lra). lra.
  - apply (Rmult_lt_reg_l (INR N)); auto. replace (INR N * ((u + INR i) / INR N)) with (u + INR i) by (field; lra). lra.
Qed.

Lemma copies_cnt u N ws idx j : Forall (fun w => 0 <= w) ws -> (1 <= N)%nat -> (j < length ws)%nat ->
  Forall2 (selects ws) (positionsR u N) idx ->
  (copies j idx + (if Nat.eqb j 0 then 0 else cnt u N (INR N * cum ws j)) = cnt u N (INR N * cum ws (S j)))%nat.
Proof.
  intros Hn HN Hj HF. rewrite (copies_selected ws _ idx j Hn Hj HF). unfold positionsR.
  rewrite filter_map_length. unfold cnt.
  destruct (Nat.eqb_spec j 0).
  - rewrite Nat.add_0_r. apply filter_ext_length. intros i. unfold selb.
    replace (Nat.eqb j 0) with true by (symmetry; now apply Nat.eqb_eq). simpl. rewrite andb_true_r. now apply posR_le.
  - rewrite <- (filter_diff_length (fun i => Rleb (u + INR i) (INR N * cum ws j)) (fun i => Rleb (u + INR i) (INR N * cum ws (S j)))).
    + f_equal. apply filter_ext_length. intros i. unfold selb.
      replace (Nat.eqb j 0) with false by (symmetry; now apply Nat.eqb_neq). simpl.
      rewrite posR_le by assumption. f_equal. rewrite <- posR_le by assumption.
      destruct (Rleb (posR u N i) (cum ws j)) eqn:E; simpl.
      * apply Rleb_true in E. apply Rltb_false. assumption.
      * apply Rleb_false in E. apply Rltb_true. assumption.
    + intros i H. apply Rleb_true in H. apply Rleb_true.
      assert (cum ws j <= cum ws (S j)) by (apply cum_mono; auto).
      assert (0 < INR N) by (apply (lt_INR 0); lia). nra.
Qed.

(** ** Weights that the code normalises, or whose sum is exactly 1 *)
Definition exact_weights (ws : list R) : Prop :=
  Forall (fun w => 0 <= w) ws /\ 0 < total ws /\
  (total ws = 1 \/ Rabs (total ws - 1) > / 2 ^ 26).

Lemma norm_step_exact ws : exact_weights ws -> norm_step ws = map (fun w => w / Rsum ws) ws.
Proof.
  intros [_ [_ H]]. rewrite total_Rsum in H. unfold norm_step. destruct (Rltb _ _) eqn:E; auto.
  apply Rltb_false in E. destruct H as [H|H]; [|lra].
  rewrite <- (map_id ws) at 1. apply map_ext. intros; rewrite H. field.
Qed.

Lemma positions_le_1 u N : (1 <= N)%nat -> u < 1 -> Forall (fun p => p <= 1) (positionsR u N).
Proof.
  intros HN Hu. apply Forall_map, Forall_forall. intros i Hi. apply in_seq in Hi. unfold posR.
  assert (0 < INR N) by (apply (lt_INR 0); lia).
  assert (INR (S i) <= INR N) by (apply le_INR; lia). rewrite S_INR in H0.
  apply (Rmult_le_reg_r (INR N)); auto. unfold Rdiv. rewrite Rmult_assoc, Rinv_l by lra. lra.
Qed.

Lemma nth_norm ws j s : nth j (map (fun w => w / s) ws) 0 = nth j ws 0 / s.
Proof.
  revert j; induction ws; intros [|j]; simpl; auto; unfold Rdiv; try ring.
Qed.

Lemma Forall2_length' {A B} (P : A -> B -> Prop) l1 l2 : Forall2 P l1 l2 -> length l1 = length l2.
Proof. induction 1; simpl; auto. Qed.

(** C18 *)
Lemma systematic_counts u N ws : exact_weights ws -> 0 <= u < 1 -> (1 <= N)%nat ->
  exists idx, systematic_resample (Fin u) N (map Fin ws) = Ok idx /\
    length idx = N /\ StronglySorted le idx /\ Forall (fun i => (i < length ws)%nat) idx /\
    (forall i, (i < length ws)%nat ->
       Rabs (INR (copies i idx) - INR N * (nth i ws 0 / total ws)) <= 1) /\
    (0 < u -> forall i, (i < length ws)%nat ->
       Rabs (INR (copies i idx) - INR N * (nth i ws 0 / total ws)) < 1).
Proof.
  intros HE Hu HN. pose proof HE as [Hn [Hp _]]. rewrite total_Rsum in *.
  destruct (systematic_core u N ws Hn Hp HN) as [H _].
  pose proof (norm_step_nonneg ws Hn Hp) as Hnv. pose proof (norm_step_length ws) as HLv.
  rewrite norm_step_exact in * by assumption. cbn zeta in H.
  set (v := map (fun w => w / Rsum ws) ws) in *.
  assert (HS : Rsum v = 1) by (now apply Rsum_norm).
  destruct H as [idx [HR [HF HSort]]]. { rewrite HS. apply positions_le_1; auto. lra. }
  exists idx. split; [exact HR|]. split; [|split; [exact HSort|split; [|split]]].
  - apply Forall2_length' in HF. unfold positionsR in HF. rewrite map_length, seq_length in HF. auto.
  - clear -HF HLv. rewrite <- HLv. induction HF; constructor; auto. apply H.
  - intros i Hi. rewrite <- HLv in Hi. pose proof (copies_cnt u N v idx i Hnv HN Hi HF) as HC.
    pose proof (cum_S v i Hi) as HCS. unfold v in HCS at 3. rewrite nth_norm in HCS.
    assert (0 < INR N) by (apply (lt_INR 0); lia).
    assert (B : forall k, 0 <= INR N * cum v k <= INR N).
    { intros k. pose proof (cum_nonneg v Hnv k). pose proof (cum_le_sum v Hnv k). split; nra. }
    pose proof (cnt_bounds u N (INR N * cum v (S i)) Hu (B (S i))) as B1.
    replace (INR N * (nth i ws 0 / Rsum ws)) with (INR N * cum v (S i) - INR N * cum v i) by (rewrite HCS; ring).
    apply Rabs_le. destruct (Nat.eqb_spec i 0).
    + subst i. rewrite Nat.add_0_r in HC. rewrite HC, cum_0. rewrite Rmult_0_r. lra.
    + apply (f_equal INR) in HC. rewrite plus_INR in HC.
      pose proof (cnt_bounds u N (INR N * cum v i) Hu (B i)) as B2. lra.
  - intros Hu0 i Hi. rewrite <- HLv in Hi. pose proof (copies_cnt u N v idx i Hnv HN Hi HF) as HC.
    pose proof (cum_S v i Hi) as HCS. unfold v in HCS at 3. rewrite nth_norm in HCS.
    assert (0 < INR N) by (apply (lt_INR 0); lia).
    assert (B : forall k, 0 <= INR N * cum v k <= INR N).
    { intros k. pose proof (cum_nonneg v Hnv k). pose proof (cum_le_sum v Hnv k). split; nra. }
    pose proof (cnt_bounds_strict u N (INR N * cum v (S i)) ltac:(lra) (B (S i))) as B1.
    replace (INR N * (nth i ws 0 / Rsum ws)) with (INR N * cum v (S i) - INR N * cum v i) by (rewrite HCS; ring).
    apply Rabs_def1; destruct (Nat.eqb_spec i 0).
    + subst i. rewrite Nat.add_0_r in HC. rewrite HC, cum_0. rewrite Rmult_0_r. lra.
    + apply (f_equal INR) in HC. rewrite plus_INR in HC.
      pose proof (cnt_bounds_strict u N (INR N * cum v i) ltac:(lra) (B i)) as B2. lra.
    + subst i. rewrite Nat.add_0_r in HC. rewrite HC, cum_0. rewrite Rmult_0_r. lra.
    + apply (f_equal INR) in HC. rewrite plus_INR in HC.
      pose proof (cnt_bounds_strict u N (INR N * cum v i) ltac:(lra) (B i)) as B2. lra.
Qed.

(** ** C19: unbiasedness *)
Lemma is_RInt_floor x : is_RInt (fun u => IZR (Int_part (x - u))) 0 1 (x - 1).
Proof.
  set (n := Int_part x). set (f := x - IZR n).
  assert (Hf : 0 <= f < 1) by (unfold f, n; destruct (Int_part_bounds x); lra).
  assert (H1 : is_RInt (fun u => IZR (Int_part (x - u))) 0 f (scal (f - 0) (IZR n))).
  { apply (is_RInt_ext (fun _ => IZR n)).
    - rewrite Rmin_left, Rmax_right by lra. intros u Hu. f_equal. symmetry. apply Int_part_unique. unfold f in *. lra.
    - apply @is_RInt_const. }
  assert (H2 : is_RInt (fun u => IZR (Int_part (x - u))) f 1 (scal (1 - f) (IZR (n - 1)))).
  { apply (is_RInt_ext (fun _ => IZR (n - 1))).
    - rewrite Rmin_left, Rmax_right by lra. intros u Hu. f_equal. symmetry. apply Int_part_unique.
      rewrite minus_IZR. unfold f in *. lra.
    - apply @is_RInt_const. }
  replace (x - 1) with (plus (scal (f - 0) (IZR n)) (scal (1 - f) (IZR (n - 1)))).
  - exact (is_RInt_Chasles (V:=R_NormedModule) _ 0 f 1 _ _ H1 H2).
  - unfold plus, scal; simpl. unfold mult; simpl. rewrite minus_IZR. unfold f. ring.
Qed.

Definition copies_of (i : nat) (r : res (list nat)) : R :=
  match r with Ok idx => INR (copies i idx) | Err _ => 0 end.

Lemma systematic_unbiased N ws i : exact_weights ws -> (1 <= N)%nat -> (i < length ws)%nat ->
  is_RInt (fun u => copies_of i (systematic_resample (Fin u) N (map Fin ws))) 0 1
          (INR N * (nth i ws 0 / total ws)).
Proof.
  intros HE HN Hi. pose proof HE as [Hn [Hp _]]. rewrite total_Rsum in *.
  pose proof (norm_step_nonneg ws Hn Hp) as Hnv. pose proof (norm_step_length ws) as HLv.
  rewrite norm_step_exact in * by assumption.
  set (v := map (fun w => w / Rsum ws) ws) in *.
  assert (HS : Rsum v = 1) by (now apply Rsum_norm).
  rewrite <- HLv in Hi.
  pose proof (cum_S v i Hi) as HCS. unfold v in HCS at 3. rewrite nth_norm in HCS.
  apply (is_RInt_ext (fun u => minus (IZR (Int_part (INR N * cum v (S i) - u))) (IZR (Int_part (INR N * cum v i - u))))).
  - rewrite Rmin_left, Rmax_right by lra. intros u Hu.
    destruct (systematic_core u N ws Hn Hp HN) as [H _]. rewrite norm_step_exact in H by assumption. cbn zeta in H. fold v in H.
    destruct H as [idx [-> [HF HSort]]]. { rewrite HS. apply positions_le_1; auto. lra. }
    cbn [copies_of].
    pose proof (copies_cnt u N v idx i Hnv HN Hi HF) as HC.
    assert (0 < INR N) by (apply (lt_INR 0); lia).
    assert (B : forall k, 0 <= INR N * cum v k <= INR N).
    { intros k. pose proof (cum_nonneg v Hnv k). pose proof (cum_le_sum v Hnv k). split; nra. }
    pose proof (cnt_pos_offset u N _ Hu (B (S i))) as C1. pose proof (cnt_pos_offset u N _ Hu (B i)) as C2.
    assert (E0 : (if Nat.eqb i 0 then 0 else cnt u N (INR N * cum v i))%nat = cnt u N (INR N * cum v i)).
    { destruct (Nat.eqb_spec i 0); auto. subst i. rewrite cum_0, Rmult_0_r in *.
      apply Nat2Z.inj. rewrite C2. simpl. rewrite (Int_part_unique (0 - u) (-1)) by (simpl; lra). reflexivity. }
    rewrite E0 in HC. unfold minus, plus, opp; simpl.
    rewrite (INR_IZR_INZ (copies i idx)).
    replace (Z.of_nat (copies i idx)) with (Int_part (INR N * cum v (S i) - u) - Int_part (INR N * cum v i - u))%Z by lia.
    rewrite minus_IZR. ring.
  - replace (INR N * (nth i ws 0 / Rsum ws)) with (minus (INR N * cum v (S i) - 1) (INR N * cum v i - 1)).
    + apply @is_RInt_minus; apply is_RInt_floor.
    + unfold minus, plus, opp; simpl. rewrite HCS. ring.
Qed.

(** ** C20 *)
Lemma last_position u N x : (1 <= N)%nat ->
  (Exists (fun p => x < p) (positionsR u N) <-> INR N * x < u + INR N - 1).
Proof.
  intros HN. assert (HNp : 0 < INR N) by (apply (lt_INR 0); lia).
  assert (EQ : forall i, x < posR u N i <-> INR N * x < u + INR i).
  { intros i. unfold posR. split; intros H.
    - apply (Rmult_lt_compat_l (INR N)) in H; auto. replace (INR N * ((u + INR i) / INR N)) with (u + INR i) in H by (field; lra). exact H.
    - apply (Rmult_lt_reg_l (INR N)); auto. replace (INR N * ((u + INR i) / INR N)) with (u + INR i) by (field; lra). exact H. }
  unfold positionsR. split.
  - intros H. apply Exists_exists in H as [p [Hp Hx]]. apply in_map_iff in Hp as [i [<- Hi]]. apply in_seq in Hi.
    apply EQ in Hx. assert (INR (S i) <= INR N) by (apply le_INR; lia). rewrite S_INR in H. lra.
  - intros H. apply Exists_exists. exists (posR u N (N - 1)). split.
    + apply in_map, in_seq. lia.
    + apply EQ. rewrite minus_INR by lia. simpl. lra.
Qed.

Lemma systematic_crash u N ws : Forall (fun w => 0 <= w) ws -> 0 < total ws -> (1 <= N)%nat -> 0 <= u < 1 ->
  (systematic_resample (Fin u) N (map Fin ws) = Err IndexError <->
   (Rabs (total ws - 1) <= / 2 ^ 26 /\ total ws < 1 /\ 1 - INR N * (1 - total ws) < u)) /\
  (forall e, systematic_resample (Fin u) N (map Fin ws) = Err e -> e = IndexError).
Proof.
  rewrite total_Rsum. intros Hn Hp HN Hu.
  assert (HNp : 1 <= INR N) by (apply (le_INR 1); lia).
  destruct (systematic_core u N ws Hn Hp HN) as [HOk HErr]. cbn zeta in *.
  destruct (Exists_dec (fun p => Rsum (norm_step ws) < p) (positionsR u N)) as [HX|HX].
  { intros; apply Rlt_dec. }
  - rewrite (HErr HX). apply last_position in HX; auto.
    split; [|intros e He; now inversion He]. split; auto. intros _.
    unfold norm_step in HX. destruct (Rltb _ _) eqn:E.
    + rewrite Rsum_norm in HX by assumption. lra.
    + apply Rltb_false in E. split; [lra|].
      destruct (Rlt_dec (Rsum ws) 1).
      * split; [assumption|lra].
      * exfalso. assert (INR N * 1 <= INR N * Rsum ws) by (apply Rmult_le_compat_l; lra). lra.
  - assert (HF : Forall (fun p => p <= Rsum (norm_step ws)) (positionsR u N)).
    { apply Forall_Exists_neg in HX. eapply Forall_impl; [|exact HX]. simpl; intros; lra. }
    destruct (HOk HF) as [idx [-> _]]. split; [|discriminate]. split; [discriminate|].
    intros [H1 [H2 H3]]. exfalso. apply HX. apply last_position; auto.
    unfold norm_step. rewrite (proj2 (Rltb_false _ _)) by lra. lra.
Qed.

Lemma systematic_crash_exists N ws : Forall (fun w => 0 <= w) ws -> 0 < total ws < 1 -> 1 - / 2 ^ 26 <= total ws -> (1 <= N)%nat ->
  exists u0, 0 <= u0 < 1 /\ forall u, u0 < u < 1 -> systematic_resample (Fin u) N (map Fin ws) = Err IndexError.
Proof.
  intros Hn [Hp Hlt] Htol HN. assert (HNp : 1 <= INR N) by (apply (le_INR 1); lia).
  exists (Rmax 0 (1 - INR N * (1 - total ws))). split.
  - split; [apply Rmax_l|]. apply Rmax_lub_lt; [lra|]. nra.
  - intros u [H1 H2]. pose proof (Rmax_l 0 (1 - INR N * (1 - total ws))). pose proof (Rmax_r 0 (1 - INR N * (1 - total ws))).
    apply systematic_crash; auto; [lra|]. split; [|split; lra]. rewrite Rabs_left by lra. lra.
Qed.

(** ** C21 *)
Lemma systematic_positive_weight u N ws idx : Forall (fun w => 0 <= w) ws -> 0 < total ws -> (1 <= N)%nat -> 0 < u < 1 ->
  systematic_resample (Fin u) N (map Fin ws) = Ok idx -> Forall (fun i => (i < length ws)%nat /\ 0 < nth i ws 0) idx.
Proof.
  rewrite total_Rsum. intros Hn Hp HN Hu HR.
  destruct (systematic_core u N ws Hn Hp HN) as [HOk HErr]. cbn zeta in *.
  destruct (Exists_dec (fun p => Rsum (norm_step ws) < p) (positionsR u N)) as [HX|HX].
  { intros; apply Rlt_dec. }
  { rewrite HErr in HR by assumption. discriminate. }
  assert (HF : Forall (fun p => p <= Rsum (norm_step ws)) (positionsR u N)).
  { apply Forall_Exists_neg in HX. eapply Forall_impl; [|exact HX]. simpl; intros; lra. }
  destruct (HOk HF) as [idx' [E [HS _]]]. rewrite E in HR. injection HR as <-.
  assert (HPos : Forall (fun p => 0 < p) (positionsR u N)).
  { apply Forall_map, Forall_forall. intros i _. unfold posR. apply Rdiv_lt_0_compat.
    - pose proof (pos_INR i). lra.
    - apply (lt_INR 0). lia. }
  clear E HX HF HOk HErr. revert HPos. induction HS; intros HPos; constructor.
  - inversion HPos; subst. destruct H as [Hy [G1 G2]]. rewrite norm_step_length in Hy. split; [exact Hy|].
    assert (0 < nth y (norm_step ws) 0).
    { rewrite cum_S in G1 by (now rewrite norm_step_length). destruct G2 as [->|G2]; [rewrite cum_0 in G1|]; lra. }
    unfold norm_step in H. destruct (Rltb _ _); auto. rewrite nth_norm in H.
    apply (Rmult_lt_compat_r (Rsum ws)) in H; auto. unfold Rdiv in H. rewrite Rmult_assoc, Rinv_l in H by lra. lra.
  - inversion HPos; auto.
Qed.

Lemma systematic_zero_offset N ws idx : Forall (fun w => 0 <= w) ws -> 0 < total ws -> (1 <= N)%nat ->
  systematic_resample (Fin 0) N (map Fin ws) = Ok idx -> hd_error idx = Some 0%nat.
Proof.
  rewrite total_Rsum. intros Hn Hp HN HR.
  destruct (systematic_core 0 N ws Hn Hp HN) as [HOk HErr]. cbn zeta in *.
  destruct (Exists_dec (fun p => Rsum (norm_step ws) < p) (positionsR 0 N)) as [HX|HX].
  { intros; apply Rlt_dec. }
  { rewrite HErr in HR by assumption. discriminate. }
  assert (HF : Forall (fun p => p <= Rsum (norm_step ws)) (positionsR 0 N)).
  { apply Forall_Exists_neg in HX. eapply Forall_impl; [|exact HX]. simpl; intros; lra. }
  destruct (HOk HF) as [idx' [E [HS _]]]. rewrite E in HR. injection HR as <-.
  destruct N; [lia|]. unfold positionsR in HS. cbn [seq map] in HS. inversion HS as [|? y ? ? Hsel Hrest]; subst.
  simpl. f_equal. destruct Hsel as [Hy [H1 [H2|H2]]]; auto.
  exfalso. pose proof (cum_nonneg _ (norm_step_nonneg ws Hn Hp) y). unfold posR in H2. simpl in H2.
  replace ((0 + 0) / (match N with 0%nat => 1 | S _ => INR N + 1 end)) with 0 in H2 by (unfold Rdiv; ring). lra.
Qed.

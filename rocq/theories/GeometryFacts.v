(** * Facts about geometry.py and student.py *)
From Coq Require Import Reals ZArith Bool Lia Lra Permutation Classical.
From Coquelicot Require Import Coquelicot.
From Coq Require Import List.
From Verif Require Import Num PyBase PyBaseFacts XReal RList Tools TrimFacts Scaler ScalerFitFacts Geometry SpecGeometry Mcmc.
Import ListNotations.
Open Scope R_scope.

(** ** Sums *)
Lemma sum_lt_Rsum d f : sum_lt d f = Rsum (map f (seq 0 d)).
Proof. reflexivity. Qed.
Lemma sum_lt_ext d f g : (forall i, (i < d)%nat -> f i = g i) -> sum_lt d f = sum_lt d g.
Proof. intros H. rewrite !sum_lt_Rsum. apply Rsum_map_ext. intros i Hi. apply in_seq in Hi. apply H. lia. Qed.
Lemma sum_lt_plus d f g : sum_lt d (fun i => f i + g i) = sum_lt d f + sum_lt d g.
Proof. rewrite !sum_lt_Rsum. apply Rsum_map_plus. Qed.
Lemma sum_lt_scal d c f : sum_lt d (fun i => c * f i) = c * sum_lt d f.
Proof. rewrite !sum_lt_Rsum. apply Rsum_map_scal. Qed.
Lemma sum_lt_0 d : sum_lt d (fun _ => 0) = 0.
Proof. rewrite sum_lt_Rsum, Rsum_map_const. ring. Qed.
Lemma sum_lt_nonneg d f : (forall i, (i < d)%nat -> 0 <= f i) -> 0 <= sum_lt d f.
Proof. intros H. rewrite sum_lt_Rsum. apply Rsum_map_fst_nonneg. intros i Hi. apply in_seq in Hi. apply H. lia. Qed.
Lemma sum_lt_diag d i a : (i < d)%nat -> sum_lt d (fun j => if Nat.eqb i j then a j else 0) = a i.
Proof.
  unfold sum_lt, sum_over. change (fold_right Rplus 0) with Rsum. intros Hi.
  assert (G : forall k n, (k <= i < k + n)%nat -> Rsum (map (fun j => if Nat.eqb i j then a j else 0) (seq k n)) = a i).
  { intros k n. revert k. induction n as [|n IH]; intros k Hk; [lia|]. cbn [seq map Rsum].
    destruct (Nat.eqb_spec i k) as [->|Hne].
    - rewrite (Rsum_map_ext _ (fun _ => 0)).
      + rewrite Rsum_map_const. ring.
      + intros j Hj. apply in_seq in Hj. destruct (Nat.eqb_spec k j); [lia|reflexivity].
    - rewrite IH by lia. ring. }
  apply G. lia.
Qed.

(** ** Matrices given entry by entry *)
Definition mk (d : nat) (e : nat -> nat -> R) : list (list R) := map (fun i => map (fun j => e i j) (seq 0 d)) (seq 0 d).
Lemma mk_square d e : square d (mk d e).
Proof.
  unfold mk. split; [now rewrite map_length, seq_length|]. apply Forall_map, Forall_forall. intros i _. now rewrite map_length, seq_length.
Qed.
Lemma nth_map_seq {A} (f : nat -> A) d i k : (i < d)%nat -> nth i (map f (seq 0 d)) k = f i.
Proof.
  intros Hi. rewrite (nth_indep _ k (f 0%nat)) by (now rewrite map_length, seq_length). rewrite map_nth, seq_nth by lia. reflexivity.
Qed.
Lemma mk_entry d e i j : (i < d)%nat -> (j < d)%nat -> entry (mk d e) i j = e i j.
Proof. intros Hi Hj. unfold entry, mk. rewrite (nth_map_seq _ d i) by exact Hi. now apply nth_map_seq. Qed.
Lemma mk_quad d e z : quad d (mk d e) z = sum_lt d (fun i => sum_lt d (fun j => z i * e i j * z j)).
Proof. apply sum_lt_ext. intros i Hi. apply sum_lt_ext. intros j Hj. now rewrite mk_entry. Qed.
Lemma mk_ext d e e' : (forall i j, (i < d)%nat -> (j < d)%nat -> e i j = e' i j) -> mk d e = mk d e'.
Proof.
  intros H. unfold mk. apply map_ext_in. intros i Hi. apply in_seq in Hi. apply map_ext_in. intros j Hj. apply in_seq in Hj. apply H; lia.
Qed.

(** ** Weighted sums of squares *)
Definition gram (L : list (R * list R)) (i j : nat) : R := Rsum (map (fun p => fst p * nth i (snd p) 0 * nth j (snd p) 0) L).
Lemma gram_quad d L c z :
  sum_lt d (fun i => sum_lt d (fun j => z i * (gram L i j / c) * z j)) = Rsum (map (fun p => fst p * (lin d z (snd p)) ^ 2) L) / c.
Proof.
  unfold gram. induction L as [|[w x] L IH]; cbn [map Rsum fst snd].
  - rewrite (sum_lt_ext d _ (fun _ => 0)); [rewrite sum_lt_0; unfold Rdiv; ring|].
    intros i _. rewrite (sum_lt_ext d _ (fun _ => 0)); [apply sum_lt_0|]. intros j _. unfold Rdiv. ring.
  - replace ((w * lin d z x ^ 2 + Rsum (map (fun p => fst p * lin d z (snd p) ^ 2) L)) / c)
      with (w / c * (lin d z x * lin d z x) + Rsum (map (fun p => fst p * lin d z (snd p) ^ 2) L) / c) by (unfold Rdiv; ring).
    rewrite <- IH. unfold lin at 1. rewrite Rmult_comm with (r1 := sum_lt d (fun i => z i * nth i x 0)).
    rewrite <- sum_lt_scal. rewrite <- sum_lt_scal. rewrite <- sum_lt_plus. apply sum_lt_ext. intros i _.
    unfold lin. replace (w / c * (sum_lt d (fun i0 => z i0 * nth i0 x 0) * (z i * nth i x 0)))
      with ((w / c * (z i * nth i x 0)) * sum_lt d (fun i0 => z i0 * nth i0 x 0)) by ring.
    rewrite <- sum_lt_scal, <- sum_lt_plus. apply sum_lt_ext. intros j _. unfold Rdiv. ring.
Qed.
Lemma gram_sym L i j : gram L i j = gram L j i.
Proof. unfold gram. apply Rsum_map_ext. intros p _. ring. Qed.
Lemma gram_psd d L c : 0 < c -> Forall (fun p => 0 <= fst p) L -> psd d (mk d (fun i j => gram L i j / c)).
Proof.
  intros Hc HL z. rewrite mk_quad, gram_quad. apply Rmult_le_pos; [|left; now apply Rinv_0_lt_compat].
  apply Rsum_map_fst_nonneg. intros p Hp. apply Rmult_le_pos; [now apply (proj1 (Forall_forall _ _) HL)|apply pow2_ge_0].
Qed.
Lemma gram_zero d L z : Forall (fun p => 0 < fst p) L -> Rsum (map (fun p => fst p * (lin d z (snd p)) ^ 2) L) = 0 ->
  forall p, In p L -> lin d z (snd p) = 0.
Proof.
  intros HL H0 p Hp.
  assert (N : Forall (fun x => 0 <= x) (map (fun p => fst p * lin d z (snd p) ^ 2) L)).
  { apply Forall_map, Forall_forall. intros q Hq. apply Rmult_le_pos; [left; now apply (proj1 (Forall_forall _ _) HL)|apply pow2_ge_0]. }
  pose proof (Rsum_zero_all _ N H0) as A. rewrite Forall_map, Forall_forall in A. specialize (A p Hp).
  pose proof (proj1 (Forall_forall _ _) HL p Hp). cbv beta in H.
  apply Rmult_integral in A. destruct A as [A|A]; [lra|]. destruct (Req_dec (lin d z (snd p)) 0) as [E|E]; [exact E|].
  now apply (pow_nonzero _ 2) in E.
Qed.
Lemma spanning_pd d xs S : spanning d xs -> psd d S ->
  (forall z, quad d S z = 0 -> exists c, forall x, In x xs -> lin d z x = c) -> pd d S.
Proof.
  intros Hs Hp H0 z (i & Hi & Hz). destruct (Rle_lt_or_eq_dec 0 (quad d S z) (Hp z)) as [h|h]; [exact h|]. exfalso.
  destruct (H0 z (eq_sym h)) as (c & Hc). exact (Hz (Hs z c Hc i Hi)).
Qed.

(** ** The matrices of the code *)
Definition shift (d : nat) (m : nat -> R) (x : list R) : list R := map (fun i => nth i x 0 - m i) (seq 0 d).
Lemma lin_shift d m z x : lin d z (shift d m x) = lin d z x - sum_lt d (fun i => z i * m i).
Proof.
  unfold lin. replace (sum_lt d (fun i => z i * nth i x 0) - sum_lt d (fun i => z i * m i))
    with (sum_lt d (fun i => z i * nth i x 0) + (-1) * sum_lt d (fun i => z i * m i)) by ring.
  rewrite <- sum_lt_scal, <- sum_lt_plus. apply sum_lt_ext. intros i Hi. unfold shift. rewrite nth_map_seq by exact Hi. ring.
Qed.

Lemma map2_seq {A B} (f : nat -> A -> B) (g : nat -> A) d : map2 f (seq 0 d) (map g (seq 0 d)) = map (fun i => f i (g i)) (seq 0 d).
Proof. generalize 0%nat. induction d as [|d IH]; intros k; cbn; [reflexivity|]. now rewrite IH. Qed.
Lemma INR_pos_length {A} (l : list A) : l <> [] -> 0 < INR (length l).
Proof. apply INR_length_pos. Qed.
Lemma IZR_length {A} (l : list A) : IZR (Z.of_nat (length l)) = INR (length l).
Proof. symmetry. apply INR_IZR_INZ. Qed.

Section Fin.
  Variables (d : nat) (xs : list (list R)).
  Hypothesis Hn : (2 <= length xs)%nat.
  Hypothesis Hd : Forall (fun x => length x = d) xs.

  Let n := INR (length xs).
  Lemma n_ge_2 : 2 <= n.
  Proof. unfold n. change 2 with (INR 2). now apply le_INR. Qed.

  Definition mean_of (i : nat) : R := meanR (colR xs i).
  Definition centred : list (R * list R) := map (fun x => (1, shift d mean_of x)) xs.
  Lemma xs_nonempty : xs <> [].
  Proof. intros E. rewrite E in Hn. cbn in Hn. lia. Qed.
  Lemma colR_nonempty i : colR xs i <> [].
  Proof. unfold colR. pose proof xs_nonempty. destruct xs; [congruence|discriminate]. Qed.

  Lemma cov_sum i j : (i < d)%nat -> (j < d)%nat ->
    @nsum X XNum (map2 (fun a b => @nmul X XNum (@nsub X XNum a (Fin (mean_of i))) (@nsub X XNum b (Fin (mean_of j)))) (map Fin (colR xs i)) (map Fin (colR xs j)))
    = Fin (gram centred i j).
  Proof.
    intros Hi Hj. unfold gram, centred.
    transitivity (@nsum X XNum (map Fin (map (fun p => fst p * nth i (snd p) 0 * nth j (snd p) 0) (map (fun x => (1, shift d mean_of x)) xs)))); [|apply nsum_fin].
    f_equal. unfold colR. generalize mean_of. clear Hn Hd n. intros m. induction xs as [|x r IH]; cbn [map map2]; [reflexivity|]. rewrite IH. f_equal.
    cbn [fst snd]. unfold shift. rewrite !nth_map_seq by assumption. cbn. f_equal. ring.
  Qed.

  Lemma cov_fin : cov_cols d (fin_mat xs) = fin_mat (mk d (fun i j => gram centred i j / (n - 1))).
  Proof.
    unfold cov_cols, fin_mat, mk. rewrite map_map. apply map_ext_in. intros i Hi. rewrite map_map. apply map_ext_in. intros j Hj.
    apply in_seq in Hi, Hj. cbv zeta. xnum. rewrite !col_fin, !nmean_fin by apply colR_nonempty.
    fold (mean_of i) (mean_of j). rewrite cov_sum by lia.
    change (xdiv (Fin (gram centred i j)) (Fin (IZR (Z.of_nat (length (map (map Fin) xs)) - 1))) = Fin (gram centred i j / (n - 1))).
    rewrite map_length, minus_IZR, IZR_length. fold n. pose proof n_ge_2. apply xdiv_fin. lra.
  Qed.
  Lemma centred_nonneg : Forall (fun p => 0 <= fst p) centred.
  Proof. apply Forall_map, Forall_forall. intros x _. cbn. lra. Qed.
  Lemma centred_pos : Forall (fun p => 0 < fst p) centred.
  Proof. apply Forall_map, Forall_forall. intros x _. cbn. lra. Qed.
  Lemma centred_zero z : Rsum (map (fun p => fst p * (lin d z (snd p)) ^ 2) centred) = 0 ->
    exists c, forall x, In x xs -> lin d z x = c.
  Proof.
    intros H. exists (sum_lt d (fun i => z i * mean_of i)). intros x Hx.
    pose proof (gram_zero d centred z centred_pos H (1, shift d mean_of x)) as G. cbn [snd] in G. rewrite lin_shift in G.
    assert (In (1, shift d mean_of x) centred) by (unfold centred; apply in_map_iff; eauto). specialize (G H0). lra.
  Qed.

  Definition good_sym (S : list (list R)) : Prop := square d S /\ symmetric d S /\ psd d S /\ (spanning d xs -> pd d S).
  Lemma cov_good : good_sym (mk d (fun i j => gram centred i j / (n - 1))).
  Proof.
    pose proof n_ge_2 as H2. assert (P : psd d (mk d (fun i j => gram centred i j / (n - 1)))) by (apply gram_psd; [lra|apply centred_nonneg]).
    split; [apply mk_square|]. split; [intros i j Hi Hj; rewrite !mk_entry by assumption; now rewrite gram_sym|]. split; [exact P|].
    intros Hs. apply (spanning_pd d xs _ Hs P). intros z Hz. rewrite mk_quad, gram_quad in Hz. apply centred_zero.
    apply Rmult_integral in Hz. destruct Hz as [Hz|Hz]; [exact Hz|]. exfalso. assert (0 < n - 1) by lra. apply Rinv_0_lt_compat in H. lra.
  Qed.

  Definition var_of (i : nat) : R := meanR (map (fun a => (a - mean_of i) * (a - mean_of i)) (colR xs i)).
  Lemma var_fin i : @var_axis X XNumT (map Fin (colR xs i)) = Fin (var_of i).
  Proof.
    unfold var_axis. xnum. rewrite nmean_fin by apply colR_nonempty. fold (mean_of i).
    replace (map (fun a => @nsqr X XNum (@nsub X XNum a (Fin (mean_of i)))) (map Fin (colR xs i)))
      with (map Fin (map (fun a => (a - mean_of i) * (a - mean_of i)) (colR xs i))) by (now rewrite !map_map).
    apply nmean_fin. pose proof (colR_nonempty i). destruct (colR xs i); [congruence|discriminate].
  Qed.
  Definition Sigma0 : list (list R) := mk d (fun i j => gram centred i j / n + (if Nat.eqb i j then var_of i / n else 0)).
  Lemma Sigma0_fin : mvstud_Sigma0 d (fin_mat xs) = fin_mat Sigma0.
  Proof.
    unfold mvstud_Sigma0. rewrite cov_fin. unfold fin_mat, mk at 1. rewrite map_map. unfold Sigma0, mk. rewrite map2_seq, map_map.
    apply map_ext_in. intros i Hi. rewrite !map_map, map2_seq. apply map_ext_in. intros j Hj. apply in_seq in Hi, Hj.
    pose proof n_ge_2. rewrite !map_length. xnum. rewrite col_fin, var_fin.
    change (@nofZ X XNum (Z.of_nat (length xs))) with (Fin (IZR (Z.of_nat (length xs)))).
    change (@nofZ X XNum (Z.of_nat (length xs) - 1)) with (Fin (IZR (Z.of_nat (length xs) - 1))).
    rewrite minus_IZR, IZR_length. fold n. cbn [nadd nmul ndiv nofZ XNum xmul]. rewrite !xdiv_fin by lra.
    destruct (Nat.eqb i j); cbn [xadd xmul nofZ XNum]; f_equal; field; lra.
  Qed.
  Lemma Sigma0_quad z : quad d Sigma0 z = Rsum (map (fun p => fst p * (lin d z (snd p)) ^ 2) centred) / n + sum_lt d (fun i => z i ^ 2 * (var_of i / n)).
  Proof.
    unfold Sigma0. rewrite mk_quad, <- gram_quad, <- sum_lt_plus. apply sum_lt_ext. intros i Hi.
    rewrite <- (sum_lt_diag d i (fun j => z j ^ 2 * (var_of j / n))) by exact Hi. rewrite <- sum_lt_plus. apply sum_lt_ext. intros j Hj.
    destruct (Nat.eqb_spec i j) as [->|]; ring.
  Qed.
  Lemma var_nonneg i : 0 <= var_of i.
  Proof. apply (meansq_nonneg (fun a => a - mean_of i)). Qed.
  Lemma Sigma0_good : good_sym Sigma0.
  Proof.
    pose proof n_ge_2 as H2. assert (Hi : 0 < / n) by (apply Rinv_0_lt_compat; lra).
    assert (A : forall z, 0 <= Rsum (map (fun p => fst p * (lin d z (snd p)) ^ 2) centred)).
    { intros z. apply Rsum_map_fst_nonneg. intros p Hp. apply Rmult_le_pos; [exact (proj1 (Forall_forall _ _) centred_nonneg p Hp)|apply pow2_ge_0]. }
    assert (B : forall z, 0 <= sum_lt d (fun i => z i ^ 2 * (var_of i / n))).
    { intros z. apply sum_lt_nonneg. intros i _. apply Rmult_le_pos; [apply pow2_ge_0|]. apply Rmult_le_pos; [apply var_nonneg|lra]. }
    assert (P : psd d Sigma0).
    { intros z. rewrite Sigma0_quad. specialize (A z). specialize (B z). pose proof (Rmult_le_pos _ _ A (Rlt_le _ _ Hi)). unfold Rdiv at 1. lra. }
    split; [apply mk_square|]. split.
    { intros i j Hi' Hj. unfold Sigma0. rewrite !mk_entry by assumption. rewrite gram_sym. rewrite (Nat.eqb_sym j i). destruct (Nat.eqb_spec i j) as [->|]; reflexivity. }
    split; [exact P|]. intros Hs. apply (spanning_pd d xs _ Hs P). intros z Hz. apply centred_zero. rewrite Sigma0_quad in Hz.
    specialize (A z). specialize (B z). pose proof (Rmult_le_pos _ _ A (Rlt_le _ _ Hi)). unfold Rdiv at 1 in Hz.
    assert (E : Rsum (map (fun p => fst p * (lin d z (snd p)) ^ 2) centred) * / n = 0) by lra.
    apply Rmult_integral in E. destruct E as [E|E]; [exact E|lra].
  Qed.

  (** ** One EM update *)
  Definition ds_of (mu : list R) : list (list R) := map (shift d (fun i => nth i mu 0)) xs.
  Lemma vsub_fin x mu : length x = d -> length mu = d -> @vsub X XNum (map Fin x) (map Fin mu) = map Fin (shift d (fun i => nth i mu 0) x).
  Proof.
    clear. unfold shift, vsub. revert d mu. induction x as [|a x IH]; intros d [|b mu] Hx Hm; cbn in Hx, Hm; subst d; try discriminate; [reflexivity|].
    injection Hm as Hm. cbn [map map2 seq length]. rewrite <- seq_shift, !map_map. cbn [nth]. f_equal. rewrite (IH (length x) mu eq_refl Hm), map_map. reflexivity.
  Qed.
  Lemma diffs_fin mu : length mu = d -> diffs (map Fin mu) (fin_mat xs) = fin_mat (ds_of mu).
  Proof.
    intros Hm. unfold diffs, fin_mat, ds_of. rewrite !map_map. apply map_ext_in. intros x Hx. apply vsub_fin; [|exact Hm].
    exact (proj1 (Forall_forall _ _) Hd x Hx).
  Qed.
  Lemma ds_length mu : Forall (fun x => length x = d) (ds_of mu).
  Proof. apply Forall_map, Forall_forall. intros x _. unfold shift. now rewrite map_length, seq_length. Qed.

  Lemma dot_fin x y : @nsum X XNum (map2 (@nmul X XNum) (map Fin x) (map Fin y)) = Fin (Rsum (map2 Rmult x y)).
  Proof.
    rewrite <- nsum_fin. f_equal. clear. revert y. induction x as [|a x IH]; intros [|b y]; cbn; try reflexivity. now rewrite IH.
  Qed.
  Lemma map2_mult_sum x y : length x = d -> length y = d -> Rsum (map2 Rmult x y) = sum_lt d (fun i => nth i x 0 * nth i y 0).
  Proof.
    clear. rewrite sum_lt_Rsum. revert d y. induction x as [|a x IH]; intros d [|b y] Hx Hy; cbn in Hx, Hy; subst d; try discriminate; [reflexivity|].
    injection Hy as Hy. cbn [map2 Rsum length seq map nth]. rewrite <- seq_shift, map_map. cbn [nth]. now rewrite (IH (length x) y eq_refl Hy).
  Qed.

  Lemma delta_fin o S ds dl : good_solve d o -> good_sym S -> Forall (fun x => length x = d) ds ->
    delta_iobs o (fin_mat S) (fin_mat ds) = Ok dl -> exists del, dl = map Fin del /\ length del = length ds /\ Forall (fun x => 0 <= x) del.
  Proof.
    intros Ho (HS & _ & HP & _) Hds. unfold delta_iobs, fin_mat at 2. revert dl. induction Hds as [|x ds Hx Hds IH]; intros dl H.
    - injection H as <-. exists []. auto.
    - cbn [map mapM] in H. destruct (o_solve o (fin_mat S) (map Fin x)) as [y|] eqn:Ey; cbn [bind] in H; [|discriminate].
      match type of H with bind ?m _ = _ => destruct m as [r|] eqn:Er; cbn [bind] in H; [|discriminate] end. injection H as <-.
      destruct (IH _ eq_refl) as (del & -> & Hl & Hp). destruct (Ho S x y HS Hx Ey) as (y' & -> & Hy & Hsol).
      exists (Rsum (map2 Rmult x y') :: del). cbn [map length]. split; [f_equal; xnum; apply dot_fin|]. split; [now rewrite Hl|]. constructor; [|exact Hp].
      rewrite (map2_mult_sum x y' Hx Hy). specialize (HP (fun i => nth i y' 0)). unfold quad in HP.
      rewrite (sum_lt_ext d _ (fun i => nth i x 0 * nth i y' 0)) in HP; [exact HP|].
      intros i Hi. rewrite <- (Hsol i Hi). rewrite Rmult_comm, <- sum_lt_scal. apply sum_lt_ext. intros j _. ring.
  Qed.
  Lemma delta_total o S ds : total_solve d o -> square d S -> pd d S -> Forall (fun x => length x = d) ds -> exists dl, delta_iobs o (fin_mat S) (fin_mat ds) = Ok dl.
  Proof.
    intros Ho HS HP Hds. unfold delta_iobs, fin_mat at 2. induction Hds as [|x ds Hx Hds (dl & IH)]; [eexists; reflexivity|].
    cbn [map mapM]. destruct (Ho S x HS HP Hx) as (y & ->). cbn [bind]. rewrite IH. eexists. reflexivity.
  Qed.

  Definition em_w (nu : R) (del : list R) : list R := map (fun dl => (nu + INR d) / (nu + dl)) del.
  Lemma em_w_fin nu del : 0 < nu -> Forall (fun x => 0 <= x) del ->
    map (fun dl => @ndiv X XNum (@nadd X XNum (Fin nu) (@nofZ X XNum (Z.of_nat d))) (@nadd X XNum (Fin nu) dl)) (map Fin del) = map Fin (em_w nu del).
  Proof.
    intros Hnu Hp. unfold em_w. rewrite !map_map. apply map_ext_in. intros a Ha. pose proof (proj1 (Forall_forall _ _) Hp a Ha) as H. cbv beta in H.
    cbn [nofZ nadd ndiv XNum xadd]. rewrite <- INR_IZR_INZ. apply xdiv_fin. lra.
  Qed.
  Lemma em_w_pos nu del : 0 < nu -> Forall (fun x => 0 <= x) del -> Forall (fun w => 0 < w) (em_w nu del).
  Proof.
    intros Hnu Hp. apply Forall_map. eapply Forall_impl; [|exact Hp]. intros a Ha. cbv beta in *. pose proof (pos_INR d). apply Rdiv_lt_0_compat; lra.
  Qed.
  Lemma em_Sigma_fin w ds : ds <> [] -> em_Sigma d (map Fin w) (fin_mat ds) = fin_mat (mk d (fun i j => gram (combine w ds) i j / INR (length ds))).
  Proof.
    intros Hne. unfold em_Sigma, fin_mat, mk. rewrite map_map. apply map_ext_in. intros i Hi. rewrite map_map. apply map_ext_in. intros j Hj.
    xnum. rewrite !col_fin, map_length. pose proof (INR_length_pos ds Hne).
    replace (@nsum X XNum (map2 (@nmul X XNum) (map2 (@nmul X XNum) (map Fin w) (map Fin (colR ds i))) (map Fin (colR ds j)))) with (Fin (gram (combine w ds) i j)).
    - change (xdiv (Fin (gram (combine w ds) i j)) (Fin (IZR (Z.of_nat (length ds)))) = Fin (gram (combine w ds) i j / INR (length ds))).
      rewrite IZR_length. apply xdiv_fin. lra.
    - unfold gram. rewrite <- nsum_fin. f_equal. unfold colR. clear. revert ds. induction w as [|a w IH]; intros [|x ds]; cbn; try reflexivity. now rewrite IH.
  Qed.
  Lemma em_good mu w : length w = length xs -> Forall (fun a => 0 < a) w -> good_sym (mk d (fun i j => gram (combine w (ds_of mu)) i j / INR (length (ds_of mu)))).
  Proof.
    intros Hl Hw. unfold ds_of. rewrite map_length. fold n. pose proof n_ge_2 as H2.
    set (L := combine w (map (shift d (fun i => nth i mu 0)) xs)).
    assert (HL : Forall (fun p => 0 < fst p) L).
    { apply Forall_forall. intros [a x] Hp. apply in_combine_l in Hp. exact (proj1 (Forall_forall _ _) Hw a Hp). }
    assert (P : psd d (mk d (fun i j => gram L i j / n))).
    { apply gram_psd; [lra|]. eapply Forall_impl; [|exact HL]. intros p Hp. cbv beta in *. lra. }
    split; [apply mk_square|]. split; [intros i j Hi Hj; rewrite !mk_entry by assumption; now rewrite gram_sym|]. split; [exact P|].
    intros Hs. apply (spanning_pd d xs _ Hs P). intros z Hz. rewrite mk_quad, gram_quad in Hz.
    assert (0 < / n) by (apply Rinv_0_lt_compat; lra).
    apply Rmult_integral in Hz. destruct Hz as [Hz|Hz]; [|lra].
    exists (sum_lt d (fun i => z i * nth i mu 0)). intros x Hx.
    apply (In_nth _ _ []) in Hx. destruct Hx as (k & Hk & Hx).
    assert (Hin : In (nth k w 0, shift d (fun i => nth i mu 0) x) L).
    { unfold L. subst x. rewrite <- (map_nth (shift d (fun i => nth i mu 0)) xs [] k). rewrite <- combine_nth by now rewrite map_length.
      apply nth_In. rewrite combine_length, map_length. lia. }
    pose proof (gram_zero d L z HL Hz _ Hin) as G. cbn [snd] in G. rewrite lin_shift in G. lra.
  Qed.

  (** ** The location *)
  Definition bounded_by_data (mu : list R) : Prop := forall i lo hi, (i < d)%nat -> (forall x, In x xs -> lo <= nth i x 0 <= hi) -> lo <= nth i mu 0 <= hi.
  Definition em_mur (w : list R) : list R := map (fun j => Rsum (map2 Rmult w (colR xs j)) / Rsum w) (seq 0 d).
  Lemma sum_pos w : length w = length xs -> Forall (fun a => 0 < a) w -> 0 < Rsum w.
  Proof.
    intros Hl Hw. pose proof xs_nonempty. destruct w as [|a w]; [destruct xs; [congruence|discriminate]|].
    inversion Hw as [|? ? Ha Hw']; subst. apply (Rsum_exists_pos _ a); [|now left|exact Ha].
    eapply Forall_impl; [|exact Hw]. intros b Hb. cbv beta in *. lra.
  Qed.
  Lemma em_mu_fin w : length w = length xs -> Forall (fun a => 0 < a) w -> em_mu d (map Fin w) (fin_mat xs) = map Fin (em_mur w).
  Proof.
    intros Hl Hw. pose proof (sum_pos w Hl Hw). unfold em_mu, em_mur, fin_mat. rewrite map_map. apply map_ext. intros j. xnum.
    rewrite col_fin, dot_fin, nsum_fin. apply xdiv_fin. lra.
  Qed.
  Lemma em_mu_bounded w : length w = length xs -> Forall (fun a => 0 < a) w -> bounded_by_data (em_mur w).
  Proof.
    intros Hl Hw i lo hi Hi Hb. unfold em_mur. rewrite nth_map_seq by exact Hi. pose proof (sum_pos w Hl Hw) as Hs.
    assert (G : lo * Rsum w <= Rsum (map2 Rmult w (colR xs i)) <= hi * Rsum w).
    { clear Hs Hn Hd n. unfold colR. revert w Hl Hw. induction xs as [|x r IH]; intros [|a w] Hl Hw; try discriminate; cbn [map map2 Rsum].
      - lra.
      - injection Hl as Hl. inversion Hw as [|? ? Ha Hw']; subst. specialize (IH (fun y Hy => Hb y (or_intror Hy)) w Hl Hw').
        specialize (Hb x (or_introl eq_refl)). nra. }
    split; [apply Rle_div_r|apply Rle_div_l]; try assumption; lra.
  Qed.
  Lemma median_fin i : exists m, @median X XNumT (map Fin (colR xs i)) = Fin m /\
    forall lo hi, (forall x, In x xs -> lo <= nth i x 0 <= hi) -> lo <= m <= hi.
  Proof.
    unfold median. rewrite map_length.
    assert (E : existsb (@nisnan X XNum) (map Fin (colR xs i)) = false) by (induction (colR xs i); auto). xnum. rewrite E, np_sort_fin.
    change (@nofZ X XNum 0) with (Fin 0). rewrite !map_nth.
    assert (Hin : forall k, (k < length (colR xs i))%nat -> In (nth k (sortR (colR xs i)) 0) (colR xs i)).
    { intros k Hk. apply (Permutation_in _ (sortR_perm (colR xs i))). apply nth_In. now rewrite sortR_length. }
    assert (HB : forall k lo hi, (k < length (colR xs i))%nat -> (forall x, In x xs -> lo <= nth i x 0 <= hi) -> lo <= nth k (sortR (colR xs i)) 0 <= hi).
    { intros k lo hi Hk Hb. specialize (Hin k Hk). unfold colR at 2 in Hin. apply in_map_iff in Hin. destruct Hin as (x & <- & Hx). now apply Hb. }
    assert (Hlen : (2 <= length (colR xs i))%nat) by (unfold colR; now rewrite map_length).
    assert (H2 : (Nat.div (length (colR xs i)) 2 < length (colR xs i))%nat) by (apply Nat.div_lt; lia).
    destruct (Nat.even _).
    - eexists. split.
      + cbn [nadd ndiv nofZ XNum xadd]. apply xdiv_fin. lra.
      + intros lo hi Hb. pose proof (HB _ lo hi H2 Hb). assert (H3 : (Nat.div (length (colR xs i)) 2 - 1 < length (colR xs i))%nat) by lia.
        pose proof (HB _ lo hi H3 Hb). lra.
    - eexists. split; [reflexivity|]. intros lo hi Hb. now apply HB.
  Qed.
  Lemma mu0_fin : exists mu, mvstud_mu0 d (fin_mat xs) = map Fin mu /\ length mu = d /\ bounded_by_data mu.
  Proof.
    assert (G : forall l, (forall i, In i l -> (i < d)%nat) -> exists mu, map (fun j => @median X XNumT (col (fin_mat xs) j)) l = map Fin mu /\ length mu = length l /\
       forall k i, nth_error l k = Some i -> forall lo hi, (forall x, In x xs -> lo <= nth i x 0 <= hi) -> lo <= nth k mu 0 <= hi).
    { induction l as [|j l IH]; intros Hl; [exists []; split; [reflexivity|split; [reflexivity|intros [|k0]; discriminate]]|].
      destruct IH as (mu & E & L & B); [intros; apply Hl; now right|]. destruct (median_fin j) as (m & Em & Bm). exists (m :: mu).
      cbn [map length]. unfold fin_mat in *. xnum. rewrite col_fin, Em, E, L. split; [reflexivity|]. split; [reflexivity|].
      intros [|k] i Hk; cbn in Hk |- *; [injection Hk as <-; exact Bm|exact (B k i Hk)]. }
    destruct (G (seq 0 d)) as (mu & E & L & B); [intros i Hi; apply in_seq in Hi; lia|]. rewrite seq_length in L.
    exists mu. split; [exact E|]. split; [exact L|]. intros i lo hi Hi. apply (B i i).
    rewrite (nth_error_nth' _ 0%nat) by now rewrite seq_length. rewrite seq_nth by lia. reflexivity.
  Qed.

  (** ** The loop *)
  Definition good_nu (nu : X) : Prop := nu = PInf \/ exists r, nu = Fin r /\ 0 < r.
  Lemma opt_nu_good o del nu : good_bisect o -> opt_nu o d (length xs) del = Ok nu -> good_nu nu.
  Proof.
    intros Hb. unfold opt_nu. destruct (_ <=? _)%num; [intros H; injection H as <-; now left|]. intros H. destruct (Hb _ _ H) as (r & -> & Hr & _).
    right. exists r. split; [reflexivity|]. assert (0 < / IZR (10 ^ 300)) by (apply Rinv_0_lt_compat, IZR_lt; reflexivity). lra.
  Qed.
  Lemma em_loop_good o tol : good_solve d o -> good_bisect o -> forall fuel last_nu nu mu S k mu' S' nu' k',
    length mu = d -> good_sym S -> bounded_by_data mu -> good_nu nu ->
    em_loop o d (fin_mat xs) tol fuel last_nu nu (map Fin mu) (fin_mat S) k = Ok (mu', S', nu', k') ->
    (k' <= k + fuel)%nat /\ good_nu nu' /\
    exists mur Sr, mu' = map Fin mur /\ S' = fin_mat Sr /\ length mur = d /\ good_sym Sr /\ bounded_by_data mur.
  Proof.
    intros Ho Hb. induction fuel as [|fuel IH]; intros last_nu nu mu S k mu' S' nu' k' Hm HS HB Hnu H; cbn [em_loop] in H.
    - assert (E : Ok (map Fin mu, fin_mat S, nu, k) = Ok (mu', S', nu', k')) by (destruct (_ <? _)%num; exact H).
      injection E as <- <- <- <-. split; [lia|]. split; [exact Hnu|]. exists mu, S. auto 6.
    - destruct (_ <? _)%num.
      2:{ injection H as <- <- <- <-. split; [lia|]. split; [exact Hnu|]. exists mu, S. auto 6. }
      unfold fin_mat at 3 in H. rewrite map_length in H. rewrite (diffs_fin mu Hm) in H.
      destruct (delta_iobs o (fin_mat S) (fin_mat (ds_of mu))) as [dl|] eqn:Ed; cbn [bind] in H; [|discriminate].
      destruct (delta_fin o S (ds_of mu) dl Ho HS (ds_length mu) Ed) as (del & -> & Hl & Hp).
      destruct (opt_nu o d (length xs) (map Fin del)) as [nu1|] eqn:En; cbn [bind] in H; [|discriminate].
      pose proof (opt_nu_good o _ nu1 Hb En) as Hn1. destruct Hn1 as [-> | (r & -> & Hr)].
      + cbn in H. injection H as <- <- <- <-. split; [lia|]. split; [now left|]. exists mu, S. auto 6.
      + change (@neqb X (@numT_Num X XNumT) (Fin r) (@ninf X (@numT_Num X XNumT))) with false in H. cbv iota zeta in H.
        assert (Lw : length (em_w r del) = length xs) by (unfold em_w; rewrite map_length, Hl; unfold ds_of; apply map_length).
        pose proof (em_w_pos r del Hr Hp) as Pw. xnum. rewrite (em_w_fin r del Hr Hp) in H.
        rewrite em_mu_fin in H by assumption. rewrite em_Sigma_fin in H by (unfold ds_of; pose proof xs_nonempty; destruct xs; [congruence|discriminate]).
        apply IH in H.
        * destruct H as (H1 & H2). split; [lia|exact H2].
        * unfold em_mur. now rewrite map_length, seq_length.
        * now apply em_good.
        * now apply em_mu_bounded.
        * right. eauto.
  Qed.
  Lemma fit_good o tol max_iter mu S nu k : good_solve d o -> good_bisect o ->
    fit_mvstud o d (fin_mat xs) tol max_iter = Ok (mu, S, nu, k) ->
    (k <= max_iter)%nat /\ good_nu nu /\
    exists mur Sr, mu = map Fin mur /\ S = fin_mat Sr /\ length mur = d /\ good_sym Sr /\ bounded_by_data mur.
  Proof.
    intros Ho Hb. unfold fit_mvstud. destruct mu0_fin as (mu0 & -> & L & B). rewrite Sigma0_fin. intros H.
    assert (H20 : good_nu (@nofZ X XNum 20)) by (right; exists 20; split; [reflexivity|lra]).
    exact (em_loop_good o tol Ho Hb max_iter _ _ mu0 Sigma0 0 mu S nu k L Sigma0_good B H20 H).
  Qed.

  (** with non-degenerate samples nothing raises *)
  Lemma em_loop_total o tol : good_solve d o -> good_bisect o -> total_solve d o -> (forall f, exists v, o_bisect o f = Ok v) -> spanning d xs ->
    forall fuel last_nu nu mu S k, length mu = d -> good_sym S -> exists r, em_loop o d (fin_mat xs) tol fuel last_nu nu (map Fin mu) (fin_mat S) k = Ok r.
  Proof.
    intros Ho Hb Ht Htb Hs. induction fuel as [|fuel IH]; intros last_nu nu mu S k Hm HS; cbn [em_loop].
    - destruct (_ <? _)%num; eauto.
    - destruct (_ <? _)%num; [|eauto]. unfold fin_mat at 3. rewrite map_length, (diffs_fin mu Hm).
      destruct (delta_total o S (ds_of mu) Ht (proj1 HS) (proj2 (proj2 (proj2 HS)) Hs) (ds_length mu)) as (dl & Ed). rewrite Ed. cbn [bind].
      destruct (delta_fin o S (ds_of mu) dl Ho HS (ds_length mu) Ed) as (del & -> & Hl & Hp).
      assert (exists nu1, opt_nu o d (length xs) (map Fin del) = Ok nu1) as (nu1 & En).
      { unfold opt_nu. destruct (_ <=? _)%num; [eauto|apply Htb]. }
      rewrite En. cbn [bind]. destruct (opt_nu_good o _ nu1 Hb En) as [-> | (r & -> & Hr)]; [cbn; eauto|].
      change (@neqb X (@numT_Num X XNumT) (Fin r) (@ninf X (@numT_Num X XNumT))) with false. cbv iota zeta.
      assert (Lw : length (em_w r del) = length xs) by (unfold em_w; rewrite map_length, Hl; unfold ds_of; apply map_length).
      pose proof (em_w_pos r del Hr Hp) as Pw. xnum. rewrite (em_w_fin r del Hr Hp).
      rewrite em_mu_fin by assumption. rewrite em_Sigma_fin by (unfold ds_of; pose proof xs_nonempty; destruct xs; [congruence|discriminate]).
      apply IH; [unfold em_mur; now rewrite map_length, seq_length|now apply em_good].
  Qed.
  Lemma fit_total o tol max_iter : good_solve d o -> good_bisect o -> total_solve d o -> (forall f, exists v, o_bisect o f = Ok v) -> spanning d xs ->
    exists r, fit_mvstud o d (fin_mat xs) tol max_iter = Ok r.
  Proof.
    intros Ho Hb Ht Htb Hs. unfold fit_mvstud. destruct mu0_fin as (mu0 & -> & L & B). rewrite Sigma0_fin.
    apply em_loop_total; auto. apply Sigma0_good.
  Qed.
End Fin.

(** ** Weighted covariance *)
Section Weighted.
  Variables (d : nat) (xs : list (list R)) (ws : list R).
  Hypothesis Hl : length ws = length xs.
  Hypothesis Hw : Forall (fun w => 0 <= w) ws.
  Hypothesis Hs : 0 < Rsum ws.

  Definition wmean (i : nat) : R := Rsum (map2 Rmult (colR xs i) ws) / Rsum ws.
  Lemma average_fin : average d (map Fin ws) (fin_mat xs) = Ok (map Fin (map wmean (seq 0 d))).
  Proof.
    unfold average. xnum. rewrite nsum_fin. change (@neqb X XNum (Fin (Rsum ws)) (@nofZ X XNum 0)) with (Reqb (Rsum ws) 0).
    rewrite (proj2 (Reqb_false (Rsum ws) 0)) by lra. f_equal. rewrite map_map. apply map_ext. intros j. unfold fin_mat. rewrite col_fin, dot_fin.
    apply xdiv_fin. lra.
  Qed.
  Definition wfactor : R := Rsum ws - Rsumsq ws / Rsum ws.
  Lemma wfactor_nonneg : 0 <= wfactor.
  Proof.
    unfold wfactor. pose proof (Rsumsq_le_sq ws Hw). apply (Rmult_le_reg_r (Rsum ws)); [exact Hs|].
    replace ((Rsum ws - Rsumsq ws / Rsum ws) * Rsum ws) with (Rsum ws * Rsum ws - Rsumsq ws) by (field; lra). lra.
  Qed.
  (** at least two samples have positive weight *)
  Hypothesis Hf : 0 < wfactor.
  Definition wcentred : list (R * list R) := combine ws (map (shift d wmean) xs).
  Lemma wcov_fin : wcov d (map Fin ws) (fin_mat xs) = Ok (fin_mat (mk d (fun i j => gram wcentred i j / wfactor))).
  Proof.
    unfold wcov. assert (E : existsb (fun a => @nltb X XNum a (@nofZ X XNum 0)) (map Fin ws) = false).
    { clear -Hw. induction ws as [|a l IH]; [reflexivity|]. inversion Hw as [|? ? Ha Hl']; subst. cbn [map existsb]. change (@nltb X XNum (Fin a) (@nofZ X XNum 0)) with (Rltb a 0).
      rewrite (proj2 (Rltb_false a 0)) by lra. exact (IH Hl'). }
    xnum. rewrite E, average_fin. cbn [bind]. f_equal.
    replace (map (@nsqr X XNum) (map Fin ws)) with (map Fin (map (fun x => x * x) ws)) by (now rewrite !map_map).
    rewrite !nsum_fin. fold (Rsumsq ws). cbn [nsub ndiv XNum]. rewrite xdiv_fin by lra.
    assert (EF : xsub (Fin (Rsum ws)) (Fin (Rsumsq ws / Rsum ws)) = Fin wfactor) by (unfold wfactor; cbn; f_equal; ring).
    rewrite EF.
    change (@nleb X XNum (Fin wfactor) (@nofZ X XNum 0)) with (Rleb wfactor 0). rewrite (proj2 (Rleb_false wfactor 0)) by exact Hf.
    change (@nofZ X XNum 1) with (Fin 1). cbn [ndiv XNum]. rewrite xdiv_fin by lra.
    unfold fin_mat, mk. apply (f_equal (@Ok (mat X))). rewrite (map_map _ (map Fin)). apply map_ext_in. intros i Hi. rewrite (map_map (fun j => gram wcentred i j / wfactor) Fin). apply map_ext_in. intros j Hj. apply in_seq in Hi, Hj.
    rewrite !col_fin. rewrite !map_map, !nth_map_seq by lia.
    match goal with |- context [@nsum X XNum ?l] => replace (@nsum X XNum l) with (Fin (gram wcentred i j)) end.
    - cbn. f_equal. unfold Rdiv. ring.
    - unfold gram. rewrite <- nsum_fin. f_equal. unfold wcentred, colR. generalize wmean. intros m. clear -Hl Hi Hj. revert ws Hl.
      induction xs as [|x r IH]; intros [|a ws] Hl; try discriminate; cbn [map map2 combine]; [reflexivity|].
      injection Hl as Hl. rewrite (IH ws Hl). cbn [fst snd]. unfold shift. rewrite !nth_map_seq by lia. f_equal. cbn. f_equal. ring.
  Qed.
  Lemma wcov_good : let S := mk d (fun i j => gram wcentred i j / wfactor) in square d S /\ symmetric d S /\ psd d S.
  Proof.
    cbv zeta. split; [apply mk_square|]. split; [intros i j Hi Hj; rewrite !mk_entry by assumption; now rewrite gram_sym|].
    apply gram_psd; [exact Hf|]. apply Forall_forall. intros [a x] Hp. apply in_combine_l in Hp. exact (proj1 (Forall_forall _ _) Hw a Hp).
  Qed.
End Weighted.

Lemma systematic_loop_length {T} {NT : Num T} ps : forall j c r idx, systematic_loop ps j c r = Ok idx -> length idx = length ps.
Proof.
  induction ps as [|p ps IH]; intros j c r idx H; cbn [systematic_loop] in H; [now injection H as <-|].
  match type of H with bind ?m _ = _ => destruct m as [[[j' c'] r']|] eqn:E; cbn [bind] in H; [|discriminate] end.
  match type of H with bind ?m _ = _ => destruct m as [l|] eqn:E2; cbn [bind] in H; [|discriminate] end.
  injection H as <-. cbn. now rewrite (IH _ _ _ _ E2).
Qed.
Lemma systematic_resample_length {T} {NT : Num T} u n (w : list T) idx : systematic_resample u n w = Ok idx -> length idx = n.
Proof.
  unfold systematic_resample. match goal with |- match ?m with _ => _ end = _ -> _ => destruct m as [|w0 r]; [discriminate|] end. intros H. apply systematic_loop_length in H.
  now rewrite map_length, seq_length in H.
Qed.

Lemma two_weights_factor ws : Forall (fun w => 0 <= w) ws -> two_weights ws -> 0 < Rsum ws /\ 0 < wfactor ws.
Proof.
  intros Hw (i & j & Hij & Hi & Hj).
  assert (Hs : 0 < Rsum ws) by (apply (Rsum_exists_pos _ (nth i ws 0) Hw); [apply nth_In; lia|exact Hi]).
  split; [exact Hs|]. unfold wfactor. apply (Rmult_lt_reg_r (Rsum ws)); [exact Hs|].
  replace ((Rsum ws - Rsumsq ws / Rsum ws) * Rsum ws) with (Rsum ws * Rsum ws - Rsumsq ws) by (field; lra). rewrite Rmult_0_l.
  assert (G : Rsumsq ws < Rsum ws * Rsum ws); [|lra].
  clear Hs. revert i j Hij Hi Hj. induction Hw as [|a l Ha Hl IH]; intros i j Hij Hi Hj; [cbn in Hij; lia|].
  unfold Rsumsq in *. cbn [map Rsum]. pose proof (Rsumsq_le_sq l Hl) as Q. unfold Rsumsq in Q.
  assert (0 <= Rsum l) by (now apply Rsum_nonneg).
  destruct i as [|i].
  - cbn [nth] in Hi. destruct j as [|j]; [lia|]. cbn [nth length] in Hj, Hij.
    assert (0 < Rsum l) by (apply (Rsum_exists_pos _ (nth j l 0) Hl); [apply nth_In; lia|exact Hj]). nra.
  - destruct j as [|j]; [lia|]. cbn [nth length] in *. specialize (IH i j ltac:(lia) Hi Hj). nra.
Qed.

Lemma gather_in {A} (l : list A) idx r : gather l idx = Ok r -> length r = length idx /\ (forall x, In x r -> In x l).
Proof.
  revert r. induction idx as [|i idx IH]; intros r H; cbn in H; [injection H as <-; split; [reflexivity|contradiction]|].
  destruct (nth_error l i) as [a|] eqn:E; cbn in H; [|discriminate].
  match type of H with bind ?m _ = _ => destruct m as [s|] eqn:E2; cbn [bind] in H; [|discriminate] end. injection H as <-.
  destruct (IH s E2) as [L I]. split; [cbn; now rewrite L|]. intros x [<-|Hx]; [now apply nth_error_In in E|auto].
Qed.
Lemma gather_fin_mat xs idx r : gather (fin_mat xs) idx = Ok r -> exists ys, r = fin_mat ys /\ gather xs idx = Ok ys.
Proof.
  unfold fin_mat. revert r. induction idx as [|i idx IH]; intros r H; cbn in H |- *; [injection H as <-; exists []; auto|].
  rewrite nth_error_map in H. destruct (nth_error xs i) as [a|]; cbn in H |- *; [|discriminate].
  match type of H with bind ?m _ = _ => destruct m as [s|] eqn:E2; cbn [bind] in H; [|discriminate] end. injection H as <-.
  destruct (IH s E2) as (ys & -> & E). unfold gather in E. rewrite E. exists (a :: ys). auto.
Qed.

Lemma finite_nu nu : exists r, (if negb (@nisfinite X XNum nu) then @nofZ X XNum 1000000 else nu) = Fin r /\ (good_nu nu -> 0 < r) /\
   (forall r', nu = Fin r' -> r = r') /\ (nu = PInf -> r = 1000000).
Proof.
  destruct nu as [r| | |]; cbn; eexists; (split; [reflexivity|]); (split; [intros [h|(q & h & Hq)]; try discriminate; try lra; injection h as ->; exact Hq|]);
    (split; [intros; congruence|intros; congruence || reflexivity]).
Qed.
Lemma geometry_fit_good o offset d (xs : list (list R)) (ws : option (list R)) g :
  good_solve d o -> good_bisect o -> (2 <= length xs)%nat -> Forall (fun x => length x = d) xs ->
  match ws with None => True | Some ws => length ws = length xs /\ Forall (fun w => 0 <= w) ws /\ two_weights ws end ->
  geometry_fit o offset d (fin_mat xs) (option_map (map Fin) ws) = Ok g ->
  (exists nu, t_nu g = Some (Fin nu) /\ 0 < nu) /\
  (exists S, t_cov g = Some (fin_mat S) /\ square d S /\ symmetric d S /\ psd d S /\ (ws = None -> spanning d xs -> pd d S)) /\
  (exists S, normal_cov g = Some (squeeze (fin_mat S)) /\ square d S /\ symmetric d S /\ psd d S /\ (ws = None -> spanning d xs -> pd d S)) /\
  (exists mu, t_mean g = Some (map Fin mu) /\ length mu = d /\
     forall i lo hi, (i < d)%nat -> (forall x, In x xs -> lo <= nth i x 0 <= hi) -> lo <= nth i mu 0 <= hi).
Proof.
  intros Ho Hb Hn Hd Hw H. unfold geometry_fit in H.
  match type of H with bind ?m _ = _ => assert (C : exists S, m = Ok (match ws with None => mean_axis0 d (fin_mat xs) | Some w => map Fin (map (wmean xs w) (seq 0 d)) end, fin_mat S) /\
     square d S /\ symmetric d S /\ psd d S /\ (ws = None -> spanning d xs -> pd d S)) end.
  { destruct ws as [ws|]; cbn [option_map].
    - destruct Hw as (Hl & Hw & H2). destruct (two_weights_factor ws Hw H2) as [Hs Hf]. xnum.
      rewrite (average_fin d xs ws Hs). cbn [bind]. rewrite (wcov_fin d xs ws Hl Hw Hs Hf). cbn [bind]. destruct (wcov_good d xs ws Hw Hf) as (A & B & C).
      eexists. split; [reflexivity|]. split; [exact A|]. split; [exact B|]. split; [exact C|discriminate].
    - xnum. rewrite (cov_fin d xs Hn Hd). destruct (cov_good d xs Hn) as (A & B & C & D). eexists. split; [reflexivity|]. split; [exact A|]. split; [exact B|]. split; [exact C|intros _; exact D]. }
  destruct C as (S & E & C1 & C2 & C3 & C4). rewrite E in H. cbn [bind] in H. clear E.
  match type of H with bind ?m _ = _ => assert (G : exists ys, m = Ok (fin_mat ys) /\ length ys = length xs /\ (forall x, In x ys -> In x xs) /\ (ws = None -> ys = xs)) end.
  { match goal with |- exists ys, ?m = _ /\ _ => destruct m as [r|] eqn:E; cbn [bind] in H; [|discriminate] end.
    destruct ws as [ws|]; cbn [option_map] in E; [|injection E as <-; eauto].
    match type of E with bind ?m _ = _ => destruct m as [idx|] eqn:Ei; cbn [bind] in E; [|discriminate] end.
    apply gather_fin_mat in E. destruct E as (ys & -> & E). apply gather_in in E. destruct E as [L I].
    exists ys. split; [reflexivity|]. split; [|split; [exact I|discriminate]]. rewrite L. apply systematic_resample_length in Ei. unfold fin_mat in Ei. now rewrite map_length in Ei. }
  destruct G as (ys & E & G1 & G2 & G3). rewrite E in H. cbn [bind] in H. clear E.
  match type of H with bind ?m _ = _ => destruct m as [[[[tm tc] nu] k]|] eqn:Ef; cbn [bind] in H; [|discriminate] end. injection H as <-.
  assert (Hn' : (2 <= length ys)%nat) by (rewrite G1; exact Hn).
  assert (Hd' : Forall (fun x => length x = d) ys) by (apply Forall_forall; intros x Hx; exact (proj1 (Forall_forall _ _) Hd x (G2 x Hx))).
  destruct (fit_good d ys Hn' Hd' o _ _ tm tc nu k Ho Hb Ef) as (_ & Hnu & mur & Sr & -> & -> & Lm & (S1 & S2 & S3 & S4) & Bm).
  cbn [t_nu t_cov normal_cov t_mean]. destruct (finite_nu nu) as (r & En & Hr & _). xnum.
  split; [exists r; split; [exact (f_equal Some En)|auto]|]. split.
  { exists Sr. split; [reflexivity|]. split; [exact S1|]. split; [exact S2|]. split; [exact S3|]. intros Ew Hs. apply S4. now rewrite (G3 Ew). }
  split; [exists S; auto 6|]. exists mur. split; [reflexivity|]. split; [exact Lm|]. intros i lo hi Hi Hx. apply (Bm i lo hi Hi). auto.
Qed.

(** the degrees of freedom are finite for every number type *)
Lemma geometry_fit_nu {T} {NT : NumT T} (o : fit_oracles T) offset d theta ws g :
  nisfinite (@nofZ T _ 1000000) = true -> geometry_fit o offset d theta ws = Ok g ->
  exists nu, t_nu g = Some nu /\ nisfinite nu = true.
Proof.
  intros Hz H. unfold geometry_fit in H.
  repeat match type of H with bind ?m _ = _ => destruct m as [?|]; cbn [bind] in H; [|discriminate] end.
  repeat match type of H with (let (_, _) := ?p in _) = _ => destruct p; cbn [bind] in H end.
  repeat match type of H with bind ?m _ = _ => destruct m as [?|]; cbn [bind] in H; [|discriminate] end.
  repeat match type of H with (let (_, _) := ?p in _) = _ => destruct p; cbn [bind] in H end.
  injection H as <-. cbn [t_nu]. eexists. split; [reflexivity|]. match goal with |- context [negb (nisfinite ?n)] => destruct (nisfinite n) eqn:E end; cbn [negb]; [exact E|exact Hz].
Qed.

(** ** One dimension *)
Section OneDim.
  Context {T : Type} {NT : NumT T}.
  Lemma cov_shape (o : fit_oracles T) offset d theta ws g : geometry_fit o offset d theta ws = Ok g ->
    exists c : mat T, normal_cov g = Some (squeeze c) /\ length c = d /\ Forall (fun r => length r = d) c.
  Proof.
    intros H. unfold geometry_fit in H.
    match type of H with bind ?m _ = _ => destruct m as [[m0 c]|] eqn:E; cbn [bind] in H; [|discriminate] end.
    assert (Hc : length c = d /\ Forall (fun r => length r = d) c).
    { assert (M : forall f : nat -> nat -> T, let c := map (fun i => map (f i) (seq 0 d)) (seq 0 d) in length c = d /\ Forall (fun r => length r = d) c).
      { intros f. cbv zeta. split; [now rewrite map_length, seq_length|]. apply Forall_map, Forall_forall. intros i _. now rewrite map_length, seq_length. }
      destruct ws as [w|].
      - match type of E with bind ?m _ = _ => destruct m as [m1|] eqn:E1; cbn [bind] in E; [|discriminate] end.
        match type of E with bind ?m _ = _ => destruct m as [c'|] eqn:E2; cbn [bind] in E; [|discriminate] end. injection E as <- <-.
        unfold wcov in E2. destruct (existsb _ _); [discriminate|].
        match type of E2 with bind ?m _ = _ => destruct m as [a'|]; cbn [bind] in E2; [|discriminate] end. injection E2 as <-.
        refine (M _).
      - injection E as <- <-. unfold cov_cols. refine (M _). }
    match type of H with bind ?m _ = _ => destruct m as [data|] eqn:E1; cbn [bind] in H; [|discriminate] end.
    match type of H with bind ?m _ = _ => destruct m as [[[[tm tc] nu] k]|] eqn:Ef; cbn [bind] in H; [|discriminate] end.
    injection H as <-. exists c. cbn [normal_cov]. auto.
  Qed.
  Lemma cov_kind (o : fit_oracles T) offset d theta ws g : geometry_fit o offset d theta ws = Ok g ->
    (d = 1%nat <-> exists c, normal_cov g = Some (Cov0 c)).
  Proof.
    intros H. destruct (cov_shape o offset d theta ws g H) as (c & -> & L & F). split.
    - intros ->. destruct c as [|r [|r' c]]; try discriminate. inversion F as [|? ? Hr _]; subst. destruct r as [|v [|v' r]]; try discriminate. exists v. reflexivity.
    - intros (v & E). injection E as E. destruct c as [|[|a [|b r]] [|r' c]]; cbn in E; try discriminate. now cbn in L.
  Qed.
  Lemma t_cov_shape (o : fit_oracles T) offset d theta ws g : geometry_fit o offset d theta ws = Ok g ->
    exists m tm nu, t_cov g = Some m /\ length m = d /\ Forall (fun r => length r = d) m /\ t_mean g = Some tm /\ length tm = d /\ t_nu g = Some nu.
  Proof.
    intros H. unfold geometry_fit in H.
    match type of H with bind ?m _ = _ => destruct m as [[m0 c]|] eqn:E; cbn [bind] in H; [|discriminate] end.
    match type of H with bind ?m _ = _ => destruct m as [data|] eqn:E1; cbn [bind] in H; [|discriminate] end.
    match type of H with bind ?m _ = _ => destruct m as [[[[tm tc] nu] k]|] eqn:Ef; cbn [bind] in H; [|discriminate] end.
    injection H as <-. cbn [t_cov t_mean t_nu].
    assert (G : forall fuel ln nu0 mu S k0, length mu = d -> length S = d -> Forall (fun r => length r = d) S ->
       em_loop o d data (nfrac 1 1000000) fuel ln nu0 mu S k0 = Ok (tm, tc, nu, k) -> length tm = d /\ length tc = d /\ Forall (fun r => length r = d) tc).
    { induction fuel as [|fuel IH]; intros ln nu0 mu S k0 H1 H2 H3 H; cbn [em_loop] in H.
      - destruct (_ <? _)%num; injection H as <- <- <- <-; auto.
      - destruct (_ <? _)%num; [|injection H as <- <- <- <-; auto].
        match type of H with bind ?m _ = _ => destruct m as [dl|]; cbn [bind] in H; [|discriminate] end.
        match type of H with bind ?m _ = _ => destruct m as [nu1|]; cbn [bind] in H; [|discriminate] end.
        destruct (_ =? _)%num; [injection H as <- <- <- <-; auto|]. cbv zeta in H. apply IH in H; auto.
        + unfold em_mu. now rewrite map_length, seq_length.
        + unfold em_Sigma. now rewrite map_length, seq_length.
        + unfold em_Sigma. apply Forall_map, Forall_forall. intros i _. now rewrite map_length, seq_length. }
    assert (LS : length (mvstud_Sigma0 d data) = d /\ Forall (fun r => length r = d) (mvstud_Sigma0 d data)).
    { unfold mvstud_Sigma0, cov_cols. rewrite map2_seq. split; [now rewrite map_length, seq_length|].
      apply Forall_map, Forall_forall. intros i _. rewrite map2_seq. now rewrite map_length, seq_length. }
    destruct (G 100%nat (nofZ 0) (nofZ 20) (mvstud_mu0 d data) (mvstud_Sigma0 d data) 0%nat) as (A & B & C).
    - unfold mvstud_mu0. now rewrite map_length, seq_length.
    - apply LS.
    - apply LS.
    - exact Ef.
    - exists tc, tm. eexists. split; [reflexivity|]. split; [exact B|]. split; [exact C|]. split; [reflexivity|]. split; [exact A|reflexivity].
  Qed.
End OneDim.

(** ** A concrete fit in one dimension *)
Definition solve1 : mat X -> vec X -> res (vec X) := fun m x =>
  match m, x with [[Fin s]], [Fin a] => if Reqb s 0 then Err LinAlgError else Ok [Fin (a / s)] | _, _ => Err LinAlgError end.
Definition oracles1 : fit_oracles X := {| o_solve := solve1; o_psi := fun x => x; o_bisect := fun _ => Ok (Fin 5) |}.
Definition points1 : list (list R) := [[0]; [1]; [3]].
Lemma square1 S : square 1 S -> exists s, S = [[s]].
Proof.
  intros [L F]. destruct S as [|r [|]]; try discriminate. inversion F as [|? ? Hr _]; subst. destruct r as [|s [|]]; try discriminate. eauto.
Qed.
Lemma oracles1_good : good_solve 1 oracles1 /\ good_bisect oracles1 /\ total_solve 1 oracles1 /\ (forall f, exists v, o_bisect oracles1 f = Ok v).
Proof.
  split; [|split; [|split]].
  - intros S x y HS Hx H. destruct (square1 S HS) as (s & ->). destruct x as [|a [|]]; try discriminate. cbn in H.
    destruct (Reqb s 0) eqn:E; [discriminate|]. injection H as <-. exists [a / s]. split; [reflexivity|]. split; [reflexivity|].
    intros i Hi. assert (i = 0%nat) as -> by lia. unfold sum_lt, sum_over, entry. cbn. apply Reqb_false in E. field. exact E.
  - intros f v H. injection H as <-. exists 5. split; [reflexivity|].
    assert (1 <= IZR (10 ^ 300)) by (apply IZR_le; now vm_compute).
    assert (5 <= IZR (10 ^ 300)) by (apply IZR_le; now vm_compute).
    split; [|assumption]. apply Rle_trans with 1; [|lra]. rewrite <- Rinv_1. apply Rinv_le_contravar; lra.
  - intros S x HS HP Hx. destruct (square1 S HS) as (s & ->). destruct x as [|a [|]]; try discriminate. cbn.
    assert (0 < s).
    { specialize (HP (fun _ => 1)). unfold quad, sum_lt, sum_over, entry in HP. cbn in HP. assert (0 < 1 * s * 1 + 0 + 0) by (apply HP; exists 0%nat; split; [lia|lra]). lra. }
    rewrite (proj2 (Reqb_false s 0)) by lra. eauto.
  - intros f. eexists. reflexivity.
Qed.
Lemma points1_spanning : spanning 1 points1.
Proof.
  intros z c H i Hi. assert (i = 0%nat) as -> by lia. pose proof (H [0] ltac:(cbn; auto)) as H0. pose proof (H [1] ltac:(cbn; auto)) as H1.
  unfold lin, sum_lt, sum_over in H0, H1. cbn in H0, H1. lra.
Qed.
Lemma points1_fit : exists r, fit_mvstud oracles1 1 (fin_mat points1) (Fin (1/1000000)) 100 = Ok r.
Proof.
  destruct oracles1_good as (A & B & C & D). apply fit_total; auto; [cbn; lia|repeat constructor|apply points1_spanning].
Qed.
Lemma points1_geometry : exists g, geometry_fit oracles1 (Fin 0) 1 (fin_mat points1) None = Ok g.
Proof.
  unfold geometry_fit. cbn [bind]. destruct oracles1_good as (A & B & C & D).
  destruct (fit_total 1 points1 ltac:(cbn; lia) ltac:(repeat constructor) oracles1 (nfrac 1 1000000) 100 A B C D points1_spanning) as ([[[tm tc] nu] k] & E).
  match goal with |- exists g, bind ?m _ = _ => change m with (fit_mvstud oracles1 1 (fin_mat points1) (nfrac 1 1000000) 100) end. xnum. rewrite E. cbn [bind]. eauto.
Qed.

Lemma rwm_1d {T B} {NT : NumT T} (env : kernel_env T B) o offset theta ws g scale s rand :
  geometry_fit o offset 1 theta ws = Ok g ->
  rwm env g scale s rand = Err LinAlgError /\ preconditioned_rwm env g scale s rand = Err LinAlgError.
Proof.
  intros H. destruct (proj1 (cov_kind o offset 1 theta ws g H) eq_refl) as (c & E). unfold rwm, preconditioned_rwm, need_cov. rewrite E. split; reflexivity.
Qed.

(** * Reversibility of the two moves *)
From Coq Require Import Reals ZArith List Lia Lra.
From Coquelicot Require Import Coquelicot.
From Coq Require Import List.
From Verif Require Import Num PyBase PyBaseFacts XReal RList ToolsFacts Scaler SpecScaler ScalerFacts Geometry SpecGeometry GeometryFacts McmcFacts Mcmc SpecMcmc SpecBalance.
Import ListNotations.
Open Scope R_scope.

(** ** Coordinates *)
Lemma vplus_length a b n : length a = n -> length b = n -> length (vplus a b) = n.
Proof. intros. unfold vplus. now rewrite (map2_length_eq _ _ _ n). Qed.
Lemma vminus_length a b n : length a = n -> length b = n -> length (vminus a b) = n.
Proof. intros. unfold vminus. now rewrite (map2_length_eq _ _ _ n). Qed.
Lemma vmult_length c a : length (vmult c a) = length a.
Proof. apply map_length. Qed.
Lemma matvec_length m v : length (Rmatvec m v) = length m.
Proof. apply map_length. Qed.
Lemma nth_vplus a b n i : length a = n -> length b = n -> (i < n)%nat -> nth i (vplus a b) 0 = nth i a 0 + nth i b 0.
Proof. intros. unfold vplus. apply nth_map2; lia. Qed.
Lemma nth_vminus a b n i : length a = n -> length b = n -> (i < n)%nat -> nth i (vminus a b) 0 = nth i a 0 - nth i b 0.
Proof. intros. unfold vminus. apply nth_map2; lia. Qed.
Lemma nth_vmult c a i : nth i (vmult c a) 0 = c * nth i a 0.
Proof. unfold vmult. rewrite <- (Rmult_0_r c) at 1. apply (map_nth (Rmult c)). Qed.
Lemma nth_vneg a i : nth i (vneg a) 0 = - nth i a 0.
Proof. unfold vneg. rewrite <- Ropp_0 at 1. apply (map_nth Ropp). Qed.
Lemma Rdot_sum d a b : length a = d -> length b = d -> Rdot a b = sum_lt d (fun i => nth i a 0 * nth i b 0).
Proof.
  intros Ha Hb. unfold Rdot, sum_lt, sum_over. change (fold_right Rplus 0) with Rsum. f_equal.
  revert a b Ha Hb. induction d as [|d IH]; intros [|x a] [|y b] Ha Hb; try discriminate; [reflexivity|].
  cbn [combine map seq]. f_equal. rewrite <- seq_shift, map_map. apply IH; cbn in *; lia.
Qed.
Lemma nth_matvec d m v i : square d m -> length v = d -> (i < d)%nat -> nth i (Rmatvec m v) 0 = sum_lt d (fun j => entry m i j * nth j v 0).
Proof.
  intros [L F] Hv Hi. unfold Rmatvec. rewrite (nth_map_f _ _ _ []) by lia. unfold entry. apply Rdot_sum; auto.
  rewrite Forall_forall in F. apply F, nth_In. lia.
Qed.
Lemma sum_lt_swap d e f : sum_lt d (fun i => sum_lt e (fun j => f i j)) = sum_lt e (fun j => sum_lt d (fun i => f i j)).
Proof. unfold sum_lt, sum_over. exact (Rsum_swap f (seq 0 d) (seq 0 e)). Qed.
Lemma sum_lt_scal_r d c f : sum_lt d (fun i => f i * c) = sum_lt d f * c.
Proof. rewrite (sum_lt_ext d _ (fun i => c * f i)) by (intros; ring). rewrite sum_lt_scal. ring. Qed.
Lemma vec_ext (a b : list R) n : length a = n -> length b = n -> (forall i, (i < n)%nat -> nth i a 0 = nth i b 0) -> a = b.
Proof. intros La Lb H. apply (nth_ext _ _ 0 0); [lia|]. intros i Hi. apply H. lia. Qed.
Lemma matvec_linear d m a b v w : square d m -> length v = d -> length w = d ->
  Rmatvec m (vplus (vmult a v) (vmult b w)) = vplus (vmult a (Rmatvec m v)) (vmult b (Rmatvec m w)).
Proof.
  intros Sm Hv Hw. pose proof (proj1 Sm) as Lm.
  apply (vec_ext _ _ d).
  - now rewrite matvec_length.
  - apply vplus_length; now rewrite vmult_length, matvec_length.
  - intros i Hi. rewrite (nth_matvec d) by (auto; apply vplus_length; now rewrite vmult_length).
    rewrite (nth_vplus _ _ d) by (auto; now rewrite vmult_length, matvec_length). rewrite !nth_vmult, !(nth_matvec d) by auto.
    rewrite <- !sum_lt_scal, <- sum_lt_plus. apply sum_lt_ext. intros j Hj.
    rewrite (nth_vplus _ _ d) by (auto; now rewrite vmult_length). rewrite !nth_vmult. ring.
Qed.

(** ** Whitening: v = L w and v^T C^-1 v = |w|^2 *)
Section White.
  Variable d : nat.
  Variables L C Ci : list (list R).
  Hypothesis HL : cholesky_of d L C.
  Hypothesis HI : inverse_of d Ci C.

  Notation white := (white d L Ci).
  Lemma white_length v : length (white v) = d.
  Proof. unfold SpecBalance.white. now rewrite map_length, seq_length. Qed.
  Lemma nth_white v i : (i < d)%nat -> nth i (white v) 0 = sum_lt d (fun k => entry L k i * nth k (Rmatvec Ci v) 0).
  Proof. intros. unfold SpecBalance.white. exact (nth_map_seq (fun i => sum_lt d (fun k => entry L k i * nth k (Rmatvec Ci v) 0)) d i 0 H). Qed.

  Lemma white_correct v : length v = d -> Rmatvec L (white v) = v.
  Proof.
    intros Hv. destruct HL as [SL [SC [_ [_ EC]]]]. destruct HI as [SI [_ EI]]. rewrite <- (proj1 (EI v Hv)) at 2.
    assert (LI : length (Rmatvec Ci v) = d) by (rewrite matvec_length; apply SI).
    apply (vec_ext _ _ d); [rewrite matvec_length; apply SL|rewrite matvec_length; apply SC|].
    intros i Hi. rewrite (nth_matvec d) by (auto using white_length). rewrite (nth_matvec d) by auto.
    rewrite (sum_lt_ext d _ (fun j => sum_lt d (fun k => entry L i j * entry L k j * nth k (Rmatvec Ci v) 0))).
    2:{ intros j Hj. rewrite nth_white by auto. rewrite <- sum_lt_scal. apply sum_lt_ext. intros; ring. }
    rewrite sum_lt_swap. apply sum_lt_ext. intros k Hk. rewrite EC by auto. now rewrite sum_lt_scal_r.
  Qed.

  (** L is one-to-one *)
  Lemma L_injective v w : length v = d -> length w = d -> Rmatvec L v = Rmatvec L w -> v = w.
  Proof.
    intros Hv Hw E. destruct HL as [SL [SC [LT [LD _]]]].
    assert (K : forall n i, (i < n)%nat -> (i < d)%nat -> nth i v 0 = nth i w 0).
    { induction n as [|n IH]; intros i Hi Hd; [lia|]. destruct (Nat.eq_dec i n) as [->|]; [|apply IH; lia].
      assert (En : nth n (Rmatvec L v) 0 = nth n (Rmatvec L w) 0) by now rewrite E.
      rewrite !(nth_matvec d) in En by auto.
      assert (S : forall u, sum_lt d (fun j => entry L n j * nth j u 0) =
        entry L n n * nth n u 0 + sum_lt d (fun j => if (j <? n)%nat then entry L n j * nth j u 0 else 0)).
      { intros u. rewrite <- (sum_lt_diag d n (fun j => entry L n j * nth j u 0) Hd).
        rewrite <- sum_lt_plus. apply sum_lt_ext. intros j Hj. destruct (Nat.eqb_spec n j) as [->|].
        - rewrite (proj2 (Nat.ltb_ge j j)) by lia. ring.
        - destruct (Nat.ltb_spec j n); [ring|]. rewrite LT by lia. ring. }
      rewrite !S in En.
      assert (R0 : sum_lt d (fun j => if (j <? n)%nat then entry L n j * nth j v 0 else 0) = sum_lt d (fun j => if (j <? n)%nat then entry L n j * nth j w 0 else 0)).
      { apply sum_lt_ext. intros j Hj. destruct (Nat.ltb_spec j n); [|reflexivity]. rewrite IH by lia. reflexivity. }
      rewrite R0 in En. specialize (LD n Hd). apply (Rmult_eq_reg_l (entry L n n)); lra. }
    apply (vec_ext _ _ d); auto. intros i Hi. apply (K d); auto.
  Qed.
  Lemma white_of_L w : length w = d -> white (Rmatvec L w) = w.
  Proof.
    intros Hw. apply L_injective; auto using white_length. apply white_correct. rewrite matvec_length. apply HL.
  Qed.
  Lemma quadratic_white v : length v = d -> quadratic Ci v = norm2 (white v).
  Proof.
    intros Hv. destruct HL as [SL _]. destruct HI as [SI _].
    assert (LI : length (Rmatvec Ci v) = d) by (rewrite matvec_length; apply SI).
    unfold quadratic, norm2. rewrite <- (white_correct v Hv) at 1.
    rewrite (Rdot_sum d), (Rdot_sum d); auto using white_length; [|rewrite matvec_length; apply SL].
    rewrite (sum_lt_ext d _ (fun i => sum_lt d (fun j => entry L i j * nth j (white v) 0 * nth i (Rmatvec Ci v) 0))).
    2:{ intros i Hi. rewrite (nth_matvec d) by (auto using white_length). now rewrite sum_lt_scal_r. }
    rewrite sum_lt_swap. apply sum_lt_ext. intros j Hj.
    pose proof (nth_white v j Hj) as E. set (q := nth j (SpecBalance.white d L Ci v) 0) in *. rewrite E at 2. rewrite <- sum_lt_scal. apply sum_lt_ext. intros i Hi. ring.
  Qed.
End White.

(** ** Densities *)
Lemma normal_density_norm z : normal_density z = exp (- norm2 z / 2) * / sqrt (2 * PI) ^ length z.
Proof.
  induction z as [|x z IH]; cbn [normal_density fold_right length].
  - unfold norm2, Rdot; cbn. rewrite Ropp_0. unfold Rdiv. rewrite Rmult_0_l, exp_0. lra.
  - fold (normal_density z). rewrite IH. change (norm2 (x :: z)) with (x * x + norm2 z).
    replace (- (x * x + norm2 z) / 2) with (- (x * x) / 2 + - norm2 z / 2) by field. rewrite exp_plus.
    assert (P : sqrt (2 * PI) <> 0). { apply Rgt_not_eq, sqrt_lt_R0. pose proof PI_RGT_0. lra. }
    cbn [pow]. rewrite Rinv_mult. set (h := / sqrt (2 * PI) ^ length z). set (e1 := exp (- (x * x) / 2)). set (e2 := exp (- norm2 z / 2)). unfold Rdiv. ring.
Qed.
Lemma norm2_neg z : norm2 (vneg z) = norm2 z.
Proof. unfold norm2, Rdot, vneg. induction z as [|x z IH]; cbn; [reflexivity|]. unfold Rsum in *. cbn in *. rewrite IH. ring. Qed.
Lemma normal_density_neg z : normal_density (vneg z) = normal_density z.
Proof. rewrite !normal_density_norm, norm2_neg. unfold vneg. now rewrite map_length. Qed.

Lemma mh_balance a b : exp a * mh (b - a) = exp b * mh (a - b).
Proof.
  unfold mh. assert (E : forall x y, exp x * Rmin 1 (exp (y - x)) = Rmin (exp x) (exp y)).
  { intros x y. pose proof (exp_pos x). replace (exp y) with (exp x * exp (y - x)) by (rewrite <- exp_plus; f_equal; ring).
    unfold Rmin. repeat destruct (Rle_dec _ _); try nra. }
  rewrite !E. apply Rmin_comm.
Qed.
Lemma mh_range l : 0 < mh l <= 1.
Proof. unfold mh. pose proof (exp_pos l). unfold Rmin. destruct (Rle_dec _ _); lra. Qed.

(** ** Random walk *)
Lemma walk_reverse d sigma L u z : square d L -> length u = d -> length z = d -> walk sigma L (walk sigma L u z) (vneg z) = u.
Proof.
  intros SL Hu Hz. pose proof (proj1 SL) as LL. unfold walk.
  assert (Lm : forall v, length (vmult sigma (Rmatvec L v)) = d) by (intros; rewrite vmult_length, matvec_length; auto).
  assert (L1 : length (vplus u (vmult sigma (Rmatvec L z))) = d) by (apply vplus_length; auto).
  apply (vec_ext _ _ d); auto; [apply vplus_length; auto|].
  intros i Hi. rewrite (nth_vplus _ _ d), (nth_vplus _ _ d), !nth_vmult by auto.
  rewrite !(nth_matvec d) by (auto; unfold vneg; now rewrite map_length).
  rewrite (sum_lt_ext d (fun j => entry L i j * nth j (vneg z) 0) (fun j => (-1) * (entry L i j * nth j z 0))) by (intros; rewrite nth_vneg; ring).
  rewrite sum_lt_scal. ring.
Qed.
Lemma walk_balance t t' z : exp t * normal_density z * mh (t' - t) = exp t' * normal_density (vneg z) * mh (t - t').
Proof.
  rewrite normal_density_neg. pose proof (mh_balance t t') as E.
  transitivity (normal_density z * (exp t * mh (t' - t))); [ring|]. rewrite E. ring.
Qed.

(** ** Student-t preconditioned Crank-Nicolson *)
Section Tpcn.
  Variable d : nat.
  Variables L C Ci : list (list R).
  Hypothesis HL : cholesky_of d L C.
  Hypothesis HI : inverse_of d Ci C.
  Variables (mu : list R) (sigma nu g G : R).
  Hypothesis Hmu : length mu = d.
  Hypothesis Hs : 0 <= sigma <= 1.
  Hypothesis Hnu : 0 < nu.
  Hypothesis Hg : 0 < g.

  Notation reverse_noise := (reverse_noise d mu sigma L Ci g).
  Lemma reverse_noise_length u z : length z = d -> length (reverse_noise u z) = d.
  Proof. intros. apply vminus_length; rewrite vmult_length; auto. apply white_length. Qed.
  Lemma cn_length u z : length u = d -> length (crank_nicolson mu sigma L g u z) = d.
  Proof.
    intros. unfold crank_nicolson. apply vplus_length; [apply vplus_length|]; auto; rewrite vmult_length.
    - now apply vminus_length.
    - rewrite matvec_length. apply HL.
  Qed.
  Let a := sqrt (1 - sigma * sigma).
  Let b := sigma * sqrt (1 / g).
  Lemma a_sq : a * a = 1 - sigma * sigma.
  Proof. apply sqrt_sqrt. nra. Qed.
  Lemma gb : g * b = sigma * sqrt g.
  Proof.
    unfold b. replace (sqrt (1 / g)) with (/ sqrt g) by (rewrite <- sqrt_inv; f_equal; field; lra).
    pose proof (sqrt_lt_R0 g Hg). rewrite <- (sqrt_sqrt g) at 1 by lra. field. lra.
  Qed.
  Lemma gbb : g * b * b = sigma * sigma.
  Proof.
    unfold b. replace (g * (sigma * sqrt (1 / g)) * (sigma * sqrt (1 / g))) with (g * sigma * sigma * (sqrt (1 / g) * sqrt (1 / g))) by ring.
    rewrite sqrt_sqrt; [field; lra|]. apply Rmult_le_pos; [lra|left; now apply Rinv_0_lt_compat].
  Qed.

  (** the move in whitened coordinates *)
  Lemma cn_white u z : length u = d -> length z = d ->
    white d L Ci (vminus (crank_nicolson mu sigma L g u z) mu) = vplus (vmult a (white d L Ci (vminus u mu))) (vmult b z).
  Proof.
    intros Hu Hz. assert (Lw : length (white d L Ci (vminus u mu)) = d) by apply white_length.
    rewrite <- (white_of_L d L C Ci HL HI (vplus (vmult a (white d L Ci (vminus u mu))) (vmult b z))) by (apply vplus_length; now rewrite vmult_length).
    f_equal. rewrite (matvec_linear d) by (auto; apply HL). rewrite (white_correct d L C Ci HL HI) by (now apply vminus_length).
    unfold crank_nicolson. fold a b.
    assert (Lm : length (vmult b (Rmatvec L z)) = d) by (rewrite vmult_length, matvec_length; apply HL).
    assert (Lv : length (vmult a (vminus u mu)) = d) by (rewrite vmult_length; now apply vminus_length).
    assert (L1 : length (vplus mu (vmult a (vminus u mu))) = d) by now apply vplus_length.
    apply (vec_ext _ _ d); [apply vminus_length; auto; now apply vplus_length|now apply vplus_length|].
    intros i Hi. rewrite (nth_vminus _ _ d), !(nth_vplus _ _ d) by (auto; now apply vplus_length). ring.
  Qed.

  Lemma cn_reverse u z : length u = d -> length z = d ->
    crank_nicolson mu sigma L g (crank_nicolson mu sigma L g u z) (reverse_noise u z) = u.
  Proof.
    intros Hu Hz. set (u' := crank_nicolson mu sigma L g u z). set (z' := reverse_noise u z).
    assert (Lu' : length u' = d) by (now apply cn_length). assert (Lz' : length z' = d) by (now apply reverse_noise_length).
    set (w := white d L Ci (vminus u mu)). assert (Lw : length w = d) by apply white_length.
    assert (E : vminus (crank_nicolson mu sigma L g u' z') mu = vminus u mu).
    { rewrite <- (white_correct d L C Ci HL HI (vminus u mu)) by now apply vminus_length.
      rewrite <- (white_correct d L C Ci HL HI (vminus (crank_nicolson mu sigma L g u' z') mu)) by (apply vminus_length; auto; now apply cn_length).
      f_equal. rewrite cn_white by auto. unfold u'. rewrite cn_white by auto. fold w.
      assert (L2 : length (vplus (vmult a w) (vmult b z)) = d) by (apply vplus_length; now rewrite vmult_length).
      apply (vec_ext _ _ d); auto; [apply vplus_length; now rewrite vmult_length|].
      intros i Hi. rewrite (nth_vplus _ _ d) by (auto; now rewrite vmult_length). rewrite !nth_vmult.
      rewrite (nth_vplus _ _ d) by (auto; now rewrite vmult_length). rewrite !nth_vmult.
      unfold z', SpecBalance.reverse_noise. fold w a. rewrite (nth_vminus _ _ d) by (auto; now rewrite vmult_length). rewrite !nth_vmult.
      rewrite <- gb. transitivity ((a * a + g * b * b) * nth i w 0); [ring|]. rewrite a_sq, gbb. ring. }
    assert (L3 : length (crank_nicolson mu sigma L g u' z') = d) by now apply cn_length.
    apply (vec_ext _ _ d); auto. intros i Hi.
    assert (Ei : nth i (vminus (crank_nicolson mu sigma L g u' z') mu) 0 = nth i (vminus u mu) 0) by now rewrite E.
    rewrite !(nth_vminus _ _ d) in Ei by auto. lra.
  Qed.

  (** the quantity that makes the proposal reversible *)
  Lemma cn_energy u z : length u = d -> length z = d ->
    g * quadratic Ci (vminus (crank_nicolson mu sigma L g u z) mu) + norm2 (reverse_noise u z) = g * quadratic Ci (vminus u mu) + norm2 z.
  Proof.
    intros Hu Hz. rewrite !(quadratic_white d L C Ci HL HI) by (apply vminus_length; auto; now apply cn_length).
    rewrite cn_white by auto. unfold SpecBalance.reverse_noise. set (w := white d L Ci (vminus u mu)). fold a.
    assert (Lw : length w = d) by apply white_length.
    unfold norm2. rewrite !(Rdot_sum d) by (auto; first [apply vplus_length | apply vminus_length]; now rewrite vmult_length).
    rewrite <- !sum_lt_scal, <- !sum_lt_plus. apply sum_lt_ext. intros i Hi.
    rewrite (nth_vplus _ _ d), (nth_vminus _ _ d) by (auto; now rewrite vmult_length). rewrite !nth_vmult, <- gb.
    set (x := nth i w 0). set (y := nth i z 0). pose proof a_sq. pose proof gbb.
    transitivity (g * (a * a + g * b * b) * (x * x) + (g * b * b + a * a) * (y * y)); [ring|]. rewrite a_sq, gbb. ring.
  Qed.

  Lemma quadratic_nonneg v : length v = d -> 0 <= quadratic Ci v.
  Proof.
    intros Hv. rewrite (quadratic_white d L C Ci HL HI) by auto. unfold norm2. rewrite (Rdot_sum d) by auto using white_length.
    apply sum_lt_nonneg. intros. nra.
  Qed.
  (** t-density times gamma density of the inverse variance *)
  Lemma student_gamma m2 : 0 <= m2 ->
    exp (student_log_density (INR d) nu m2) * gamma_density G ((INR d + nu) / 2) (2 / (nu + m2)) g =
    Rpower g ((INR d + nu) / 2 - 1) * exp (- g * (nu + m2) / 2) / (G * Rpower (2 / nu) ((INR d + nu) / 2)).
  Proof.
    intros Hm. unfold student_log_density, gamma_density. set (k := (INR d + nu) / 2).
    assert (E1 : exp (- k * ln (1 + m2 / nu)) = / Rpower (1 + m2 / nu) k).
    { unfold Rpower. rewrite <- exp_Ropp. f_equal. ring. }
    rewrite E1.
    assert (P : 0 < 1 + m2 / nu) by (assert (0 <= m2 / nu) by (apply Rmult_le_pos; [lra|left; now apply Rinv_0_lt_compat]); lra).
    assert (E2 : Rpower (2 / (nu + m2)) k * Rpower (1 + m2 / nu) k = Rpower (2 / nu) k).
    { rewrite Rpower_mult_distr; auto; [f_equal; field; lra|]. apply Rmult_lt_0_compat; [lra|apply Rinv_0_lt_compat; lra]. }
    assert (E3 : - g / (2 / (nu + m2)) = - g * (nu + m2) / 2) by (field; lra).
    rewrite E3, <- E2. unfold Rdiv. rewrite !Rinv_mult. ring.
  Qed.

  (** detailed balance of the move, the inverse variance [g] held fixed *)
  Lemma cn_balance u z t t' : length u = d -> length z = d ->
    let u' := crank_nicolson mu sigma L g u z in
    let z' := reverse_noise u z in
    let m2 := quadratic Ci (vminus u mu) in
    let m2' := quadratic Ci (vminus u' mu) in
    let l := t' - t - student_log_density (INR d) nu m2' + student_log_density (INR d) nu m2 in
    exp t * gamma_density G ((INR d + nu) / 2) (2 / (nu + m2)) g * normal_density z * mh l =
    exp t' * gamma_density G ((INR d + nu) / 2) (2 / (nu + m2')) g * normal_density z' * mh (- l).
  Proof.
    intros Hu Hz u' z' m2 m2' l.
    assert (Lu' : length u' = d) by now apply cn_length. assert (Lz' : length z' = d) by now apply reverse_noise_length.
    assert (Hm : 0 <= m2) by (apply quadratic_nonneg; now apply vminus_length).
    assert (Hm' : 0 <= m2') by (apply quadratic_nonneg; now apply vminus_length).
    pose proof (cn_energy u z Hu Hz) as En. fold u' z' m2 m2' in En.
    set (s := student_log_density (INR d) nu m2) in *. set (s' := student_log_density (INR d) nu m2') in *.
    set (p := gamma_density G ((INR d + nu) / 2) (2 / (nu + m2)) g). set (p' := gamma_density G ((INR d + nu) / 2) (2 / (nu + m2')) g).
    assert (K : exp s * p * normal_density z = exp s' * p' * normal_density z').
    { unfold s, s', p, p'. rewrite !student_gamma by auto. rewrite !normal_density_norm, Hz, Lz'.
      assert (E : exp (- g * (nu + m2) / 2) * exp (- norm2 z / 2) = exp (- g * (nu + m2') / 2) * exp (- norm2 z' / 2)).
      { rewrite <- !exp_plus. f_equal. field_simplify. replace (- g * nu - g * m2 - norm2 z) with (- g * nu - g * m2' - norm2 z') by lra. reflexivity. }
      set (c := Rpower g ((INR d + nu) / 2 - 1)). set (q := / (G * Rpower (2 / nu) ((INR d + nu) / 2))). set (h := / sqrt (2 * PI) ^ d).
      unfold Rdiv at 1. fold q. unfold Rdiv at 3. fold q.
      transitivity (c * q * h * (exp (- g * (nu + m2) / 2) * exp (- norm2 z / 2))); [ring|]. rewrite E. ring. }
    pose proof (mh_balance (t - s) (t' - s')) as M.
    replace (t' - s' - (t - s)) with l in M by (unfold l; fold s s'; ring). replace (t - s - (t' - s')) with (- l) in M by (unfold l; fold s s'; ring).
    replace (exp t) with (exp (t - s) * exp s) by (rewrite <- exp_plus; f_equal; ring).
    replace (exp t') with (exp (t' - s') * exp s') by (rewrite <- exp_plus; f_equal; ring).
    transitivity ((exp (t - s) * mh l) * (exp s * p * normal_density z)); [ring|]. rewrite M, K. ring.
  Qed.

  (** for fixed g, (u,z) |-> (u',z') undoes itself *)
  Lemma reverse_noise_involutive u z : length u = d -> length z = d ->
    reverse_noise (crank_nicolson mu sigma L g u z) (reverse_noise u z) = z.
  Proof.
    intros Hu Hz. assert (Lz' : length (reverse_noise u z) = d) by now apply reverse_noise_length.
    unfold SpecBalance.reverse_noise at 1. rewrite cn_white by auto. unfold SpecBalance.reverse_noise. set (w := white d L Ci (vminus u mu)). fold a.
    assert (Lw : length w = d) by apply white_length.
    assert (L2 : length (vplus (vmult a w) (vmult b z)) = d) by (apply vplus_length; now rewrite vmult_length).
    assert (L3 : length (vminus (vmult (sigma * sqrt g) w) (vmult a z)) = d) by (apply vminus_length; now rewrite vmult_length).
    apply (vec_ext _ _ d); auto; [apply vminus_length; now rewrite vmult_length|].
    intros i Hi. rewrite (nth_vminus _ _ d) by (auto; now rewrite vmult_length). rewrite !nth_vmult.
    rewrite (nth_vminus _ _ d), (nth_vplus _ _ d) by (auto; now rewrite vmult_length). rewrite !nth_vmult, <- gb.
    transitivity ((g * b * b + a * a) * nth i z 0); [ring|]. rewrite a_sq, gbb. ring.
  Qed.
End Tpcn.

(** * Detailed balance in terms of the proposal densities *)
From Coq Require Import Reals ZArith List Lia Lra.
From Coquelicot Require Import Coquelicot.
From Coq Require Import List.
From Verif Require Import Num PyBase PyBaseFacts XReal RList ToolsFacts Scaler SpecScaler ScalerFacts Geometry SpecGeometry GeometryFacts McmcFacts Mcmc SpecMcmc SpecBalance BalanceFacts.
Import ListNotations.
Open Scope R_scope.

Section Density.
  Variable d : nat.
  Variables L C Ci : list (list R).
  Hypothesis HL : cholesky_of d L C.
  Hypothesis HI : inverse_of d Ci C.

  Lemma diag_product_pos : 0 < diag_product d L.
  Proof.
    destruct HL as [_ [_ [_ [LD _]]]]. unfold diag_product.
    assert (K : forall l, (forall i, In i l -> (i < d)%nat) -> 0 < fold_right (fun i p => entry L i i * p) 1 l).
    { induction l as [|i l IH]; intros H; cbn [fold_right]; [lra|]. apply Rmult_lt_0_compat; [apply LD, H; now left|apply IH; intros; apply H; now right]. }
    apply K. intros i Hi. apply in_seq in Hi. lia.
  Qed.
  Lemma sqrt2pi_pos : 0 < sqrt (2 * PI).
  Proof. apply sqrt_lt_R0. pose proof PI_RGT_0. lra. Qed.

  (** the density of m + c L z is the density of z divided by the determinant of c L *)
  Lemma gaussian_noise c m z : 0 < c -> length m = d -> length z = d ->
    gaussian_density d L Ci c m (vplus m (vmult c (Rmatvec L z))) * (c ^ d * diag_product d L) = normal_density z.
  Proof.
    intros Hc Hm Hz. pose proof diag_product_pos as HD. pose proof sqrt2pi_pos as HP.
    assert (LL : length (Rmatvec L z) = d) by (rewrite matvec_length; apply HL).
    assert (LV : length (vmult c (Rmatvec L z)) = d) by now rewrite vmult_length.
    assert (E : vminus (vplus m (vmult c (Rmatvec L z))) m = Rmatvec L (vmult c z)).
    { apply (vec_ext _ _ d); [apply vminus_length; auto; now apply vplus_length|rewrite matvec_length; apply HL|].
      intros i Hi. rewrite (nth_vminus _ _ d), (nth_vplus _ _ d) by (auto; now apply vplus_length). rewrite nth_vmult, !(nth_matvec d) by (auto; try apply HL; now rewrite vmult_length).
      rewrite <- sum_lt_scal.
      rewrite (sum_lt_ext d (fun j => entry L i j * nth j (vmult c z) 0) (fun i0 => c * (entry L i i0 * nth i0 z 0))); [ring|].
      intros j Hj. rewrite nth_vmult. ring. }
    unfold gaussian_density. rewrite E. rewrite (quadratic_white d L C Ci HL HI) by (rewrite matvec_length; apply HL).
    rewrite (white_of_L d L C Ci HL HI) by now rewrite vmult_length.
    assert (N : norm2 (vmult c z) = c * c * norm2 z).
    { unfold norm2. rewrite !(Rdot_sum d) by (auto; now rewrite vmult_length). rewrite <- sum_lt_scal. apply sum_lt_ext. intros i Hi. rewrite !nth_vmult. ring. }
    rewrite N, normal_density_norm, Hz. replace (- (c * c * norm2 z) / (2 * (c * c))) with (- norm2 z / 2) by (field; lra).
    pose proof (pow_lt c d Hc). pose proof (pow_lt _ d HP). unfold Rdiv. rewrite Rinv_mult. field. repeat split; lra.
  Qed.

  (** every point is reached by some noise *)
  Lemma noise_exists c m v : 0 < c -> length m = d -> length v = d -> exists z, length z = d /\ v = vplus m (vmult c (Rmatvec L z)).
  Proof.
    intros Hc Hm Hv. assert (Lw : length (white d L Ci (vminus v m)) = d) by apply white_length.
    exists (vmult (/ c) (white d L Ci (vminus v m))). split; [now rewrite vmult_length|].
    assert (Lm : forall z, length (Rmatvec L z) = d) by (intros; rewrite matvec_length; apply HL).
    pose proof (white_correct d L C Ci HL HI (vminus v m) (vminus_length _ _ _ Hv Hm)) as W.
    apply (vec_ext _ _ d); auto; [apply vplus_length; auto; now rewrite vmult_length|].
    intros i Hi. rewrite (nth_vplus _ _ d) by (auto; now rewrite vmult_length). rewrite nth_vmult, (nth_matvec d) by (auto; try apply HL; now rewrite vmult_length).
    assert (Wi : nth i (Rmatvec L (white d L Ci (vminus v m))) 0 = nth i (vminus v m) 0) by now rewrite W.
    rewrite (nth_matvec d), (nth_vminus _ _ d) in Wi by (auto; apply HL).
    rewrite (sum_lt_ext d _ (fun j => / c * (entry L i j * nth j (white d L Ci (vminus v m)) 0))) by (intros; rewrite nth_vmult; ring).
    rewrite sum_lt_scal, Wi. field. lra.
  Qed.

  Lemma gaussian_at c m v z : 0 < c -> length m = d -> length z = d -> v = vplus m (vmult c (Rmatvec L z)) ->
    gaussian_density d L Ci c m v = normal_density z / (c ^ d * diag_product d L).
  Proof.
    intros Hc Hm Hz ->. rewrite <- (gaussian_noise c m z) by auto. pose proof (pow_lt c d Hc). pose proof diag_product_pos. field. split; lra.
  Qed.

  (** ** Random walk *)
  Lemma walk_density sigma u u' t t' : 0 < sigma -> length u = d -> length u' = d ->
    exp t * gaussian_density d L Ci sigma u u' * mh (t' - t) = exp t' * gaussian_density d L Ci sigma u' u * mh (t - t').
  Proof.
    intros Hs Hu Hu'. destruct (noise_exists sigma u u' Hs Hu Hu') as [z [Hz E]].
    rewrite (gaussian_at sigma u u' z) by auto. rewrite (gaussian_at sigma u' u (vneg z)); auto.
    - pose proof (walk_balance t t' z) as W. set (k := sigma ^ d * diag_product d L).
      transitivity ((exp t * normal_density z * mh (t' - t)) / k); [unfold Rdiv; ring|]. rewrite W. unfold Rdiv. ring.
    - unfold vneg. now rewrite map_length.
    - symmetry. subst u'. exact (walk_reverse d sigma L u z (proj1 HL) Hu Hz).
  Qed.

  (** ** Crank-Nicolson *)
  Variables (mu : list R) (sigma nu g G : R).
  Hypothesis Hmu : length mu = d.
  Hypothesis Hs : 0 < sigma <= 1.
  Hypothesis Hnu : 0 < nu.
  Hypothesis Hg : 0 < g.
  Lemma cn_density u u' t t' : length u = d -> length u' = d ->
    let m2 := quadratic Ci (vminus u mu) in
    let m2' := quadratic Ci (vminus u' mu) in
    let l := t' - t - student_log_density (INR d) nu m2' + student_log_density (INR d) nu m2 in
    exp t * gamma_density G ((INR d + nu) / 2) (2 / (nu + m2)) g * gaussian_density d L Ci (sigma * sqrt (1 / g)) (pulled mu sigma u) u' * mh l =
    exp t' * gamma_density G ((INR d + nu) / 2) (2 / (nu + m2')) g * gaussian_density d L Ci (sigma * sqrt (1 / g)) (pulled mu sigma u') u * mh (- l).
  Proof.
    intros Hu Hu'. assert (Hc : 0 < sigma * sqrt (1 / g)).
    { apply Rmult_lt_0_compat; [lra|]. apply sqrt_lt_R0. apply Rmult_lt_0_compat; [lra|]. now apply Rinv_0_lt_compat. }
    assert (Lp : forall v, length v = d -> length (pulled mu sigma v) = d) by (intros; apply vplus_length; auto; rewrite vmult_length; now apply vminus_length).
    destruct (noise_exists _ (pulled mu sigma u) u' Hc (Lp u Hu) Hu') as [z [Hz E]].
    assert (H01 : 0 <= sigma <= 1) by lra.
    change (vplus (pulled mu sigma u) _) with (crank_nicolson mu sigma L g u z) in E.
    set (z' := reverse_noise d mu sigma L Ci g u z). assert (Hz' : length z' = d) by (apply reverse_noise_length; auto).
    pose proof (cn_reverse d L C Ci HL HI mu sigma g Hmu H01 Hg u z Hu Hz) as E'. rewrite <- E in E'.
    pose proof (cn_balance d L C Ci HL HI mu sigma nu g G Hmu H01 Hnu Hg u z t t' Hu Hz) as B. cbv zeta in B. rewrite <- E in B. fold z' in B, E'.
    cbv zeta. rewrite (gaussian_at _ (pulled mu sigma u) u' z) by auto. rewrite (gaussian_at _ (pulled mu sigma u') u z') by auto.
    set (k := (sigma * sqrt (1 / g)) ^ d * diag_product d L).
    match goal with |- ?a * ?p * (?q / k) * ?w = ?a1 * ?p1 * (?q1 / k) * ?w1 =>
      assert (K : forall x, x / k = x * / k) by reflexivity; transitivity ((a * p * q * w) / k); [rewrite !K; ring|]; transitivity ((a1 * p1 * q1 * w1) / k); [|rewrite !K; ring] end.
    f_equal. exact B.
  Qed.
End Density.

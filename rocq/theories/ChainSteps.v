(** * The Crank-Nicolson kernels make at least n_steps steps *)
From Coq Require Import Reals ZArith Bool Lia Lra.
From Coq Require Import List.
From Verif Require Import Num PyBase XReal RList Scaler Geometry SpecGeometry GeometryFacts Mcmc SpecMcmc SpecBalance BalanceFacts SpecChain ChainFacts.
Import ListNotations.
Set Bullet Behavior "Strict Subproofs".
Local Open Scope R_scope.

Lemma two_power : 1681 / 1000 <= Rpower 2 (75 / 100).
Proof.
  destruct (Rle_lt_dec (1681 / 1000) (Rpower 2 (75 / 100))) as [H|H]; [exact H|exfalso].
  assert (P : 0 < Rpower 2 (75 / 100)) by apply exp_pos.
  assert (E : Rpower 2 (75 / 100) ^ 4 = 8).
  { rewrite <- Rpower_pow by exact P. rewrite Rpower_mult. replace (75 / 100 * INR 4) with (INR 3) by (simpl; lra). rewrite Rpower_pow by lra. simpl; lra. }
  assert (Rpower 2 (75 / 100) ^ 4 <= (1681 / 1000) ^ 4) by (apply pow_incr; lra).
  lra.
Qed.
Lemma optimal_pos d : (0 < d)%nat -> 0 < optimal_scale d.
Proof. intros H. unfold optimal_scale. apply Rdiv_lt_0_compat; [lra|]. apply sqrt_lt_R0. apply lt_0_INR. exact H. Qed.
Lemma sqrt_292 d : (0 < d <= 292)%nat -> sqrt (INR d) <= 1709 / 100.
Proof.
  intros H. rewrite <- (sqrt_square (1709 / 100)) by lra. apply sqrt_le_1_alt.
  assert (INR d <= INR 292) by (apply le_INR; lia). replace (INR 292) with 292 in * by (simpl; lra). lra.
Qed.
Lemma optimal_large d : (0 < d <= 292)%nat -> 234 / 1000 / (1681 / 1000) <= optimal_scale d.
Proof.
  intros H. pose proof (sqrt_292 d H) as S. assert (P : 0 < sqrt (INR d)) by (apply sqrt_lt_R0, lt_0_INR; lia).
  unfold optimal_scale. apply Rle_trans with (238 / 100 / (1709 / 100)); [lra|]. unfold Rdiv. apply Rmult_le_compat_l; [lra|]. apply Rinv_le_contravar; lra.
Qed.
Lemma gain i : (1 <= i)%nat -> 0 < 1 / Rpower (INR i + 1) (75 / 100) <= / (1681 / 1000).
Proof.
  intros H. assert (1 <= INR i) by (apply (le_INR 1); exact H).
  assert (Rpower 2 (75 / 100) <= Rpower (INR i + 1) (75 / 100)) by (apply Rle_Rpower_l; lra).
  pose proof two_power. split; [apply Rdiv_lt_0_compat; [lra|apply exp_pos]|]. unfold Rdiv. rewrite Rmult_1_l. apply Rinv_le_contravar; lra.
Qed.
Lemma adapted_cn_le d i s a : (0 < d <= 292)%nat -> (1 <= i)%nat -> 0 <= s -> 0 <= a -> 0 <= adapted_cn d i s a <= optimal_scale d.
Proof.
  intros Hd Hi Hs Ha. split; [apply Rabs_pos|]. unfold adapted_cn. pose proof (gain i Hi) as [G1 G2]. pose proof (optimal_large d Hd) as O. set (g := 1 / Rpower (INR i + 1) (75 / 100)) in *.
  assert (- (234 / 1000 * / (1681 / 1000)) <= s + g * (a - 234 / 1000)).
  { assert (0 <= g * a) by (apply Rmult_le_pos; lra). assert (g * (234 / 1000) <= / (1681 / 1000) * (234 / 1000)) by (apply Rmult_le_compat_r; lra). lra. }
  set (m := s + g * (a - 234 / 1000)) in *. clearbody m g.
  unfold Rdiv in O at 1. apply Rabs_le. split; [|eapply Rle_trans; [apply Rmin_r|apply Rmin_l]].
  apply Rmin_glb; [lra|]. apply Rmin_glb; lra.
Qed.
Lemma average_pos n f : (0 < n)%nat -> (forall k, (k < n)%nat -> 0 <= f k) -> 0 <= average n f.
Proof.
  intros Hn H. unfold average. apply Rmult_le_pos; [|left; apply Rinv_0_lt_compat, lt_0_INR; exact Hn].
  clear Hn. unfold sum_lt, sum_over. assert (G : forall k, In k (seq 0 n) -> 0 <= f k) by (intros k Hk; apply in_seq in Hk; apply H; lia).
  revert G. generalize (seq 0 n). intros l. induction l as [|a l IH]; intros G; cbn; [lra|].
  assert (0 <= f a) by (apply G; now left). assert (0 <= fold_right Rplus 0 (map f l)) by (apply IH; intros; apply G; now right). lra.
Qed.
Lemma steps_lower d n target propose hastings uniform n_max n_steps q c : (0 < d <= 292)%nat -> (0 < n)%nat -> (0 <= n_steps)%Z -> 0 <= ch_scale c 0%nat ->
  moves n target propose hastings uniform c -> adapts n (adapted_cn d) c ->
  stops n_max q (fun i => long_enough d n_steps (ch_scale c i)) (ch_steps c) -> (Z.min n_steps n_max <= Z.of_nat (ch_steps c))%Z.
Proof.
  intros Hd Hn HN S0 MV AD [S1 [[S2|S2] _]]; [lia|].
  assert (PP : forall i, (i < ch_steps c)%nat -> 0 <= average n (ch_prob c (S i))).
  { intros i Hi. apply average_pos; [exact Hn|]. intros k Hk. destruct (MV i k Hi Hk) as [[t [_ [[t' [_ ->]]|[_ ->]]]] _]; [|lra].
    apply Rmin_glb; [lra|left; apply exp_pos]. }
  assert (SC : forall i, (i <= ch_steps c)%nat -> 0 <= ch_scale c i).
  { intros [|i] Hi; [exact S0|]. rewrite AD by lia. apply Rabs_pos. }
  assert (SE : ch_scale c (ch_steps c) <= optimal_scale d).
  { destruct (ch_steps c) as [|m] eqn:Em; [lia|]. rewrite AD by (rewrite Em; lia). apply adapted_cn_le; [exact Hd|lia|apply SC; lia|apply PP; lia]. }
  destruct S2 as [j [_ [Hj [Hz HL]]]]. pose proof (SC _ (Nat.le_refl _)) as Hs. set (s := ch_scale c (ch_steps c)) in *.
  assert (1 <= optimal_scale d / s) by (apply Rmult_le_reg_r with s; [lra|]; unfold Rdiv; rewrite Rmult_assoc, Rinv_l by lra; lra).
  assert (1 <= (optimal_scale d / s) ^ 2) by (rewrite <- (pow1 2); apply pow_incr; lra).
  assert (0 <= IZR n_steps) by (apply IZR_le; exact HN).
  assert (IZR n_steps * 1 <= IZR n_steps * (optimal_scale d / s) ^ 2) by (apply Rmult_le_compat_l; lra).
  assert (IZR n_steps <= INR (ch_steps c - j)) by lra. rewrite INR_IZR_INZ in *. apply le_IZR in H3. lia.
Qed.

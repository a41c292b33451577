(** * The numerical laws of the loop: means, step sizes, location, length of a plateau *)
From Coq Require Import Reals ZArith Bool Lia Lra.
From Coquelicot Require Import Coquelicot.
From Coq Require Import List.
From Verif Require Import Num PyBase PyBaseFacts XReal RList Scaler ScalerStruct SpecScaler ScalerFacts ScalerFitFacts ScalerSpecFacts Geometry SpecGeometry GeometryFacts
  Mcmc SpecMcmc McmcFacts McmcInv McmcCoherent McmcNum McmcSigma SpecBalance BalanceFacts McmcBalance SpecChain ChainFacts.
Import ListNotations.
Set Bullet Behavior "Strict Subproofs".
Local Open Scope R_scope.

Lemma nth_map2 {A B C} (f : A -> B -> C) a b da db dc k n : length a = n -> length b = n -> (k < n)%nat -> nth k (map2 f a b) dc = f (nth k a da) (nth k b db).
Proof.
  revert b k n. induction a as [|x a IH]; intros [|y b] k n La Lb Hk; cbn in *; try lia.
  destruct k as [|k]; [reflexivity|]. apply (IH b k (length a)); lia.
Qed.
Lemma nmin2_fin a b : @nmin2 X XNum (Fin a) (Fin b) = Fin (Rmin a b).
Proof. unfold nmin2, Rmin. cbn. rcase; cbn; destruct (Rle_dec a b); try lra; reflexivity. Qed.
Lemma sum2_fin a b : @sum2 X XNumT (map Fin a) (map Fin b) = map Fin (map2 Rplus a b).
Proof. revert b. induction a as [|x a IH]; intros [|y b]; cbn; try reflexivity. f_equal. apply IH. Qed.
Lemma sum3_fin a b c : @sum3 X XNumT (map Fin a) (map Fin b) (map Fin c) = map Fin (map2 Rplus (map2 Rplus a b) c).
Proof. unfold sum3. change (map2 nadd (map Fin a) (map Fin b)) with (@sum2 X XNumT (map Fin a) (map Fin b)). rewrite sum2_fin. apply sum2_fin. Qed.

Section Laws.
  Context {B : Type}.
  Variable env : kernel_env X B.
  Variable d : nat.
  Hypothesis Hd : (0 < d)%nat.
  Hypothesis Ed : k_n_dim env = d.

  Lemma optimal_scale_fin : scale0 env = Fin (optimal_scale d).
  Proof.
    unfold scale0, n_dim_T, optimal_scale. rewrite Ed.
    assert (P : 0 < IZR (Z.of_nat d)) by (apply (IZR_lt 0); lia).
    assert (E : @npow X XNumT (@nofZ X (@numT_Num X XNumT) (Z.of_nat d)) (@nfrac X (@numT_Num X XNumT) 1 2) = Fin (sqrt (INR d))).
    { change (@nfrac X (@numT_Num X XNumT) 1 2) with (@nfrac X XNum 1 2). rewrite nfrac_fin by lra. cbn -[IZR]. rcase; [|lra].
      f_equal. rewrite INR_IZR_INZ. replace (1 / 2) with (/ 2) by lra. now apply Rpower_sqrt. }
    rewrite E. change (@nfrac X (@numT_Num X XNumT) 238 100) with (@nfrac X XNum 238 100). rewrite nfrac_fin by lra.
    apply xdiv_fin. rewrite INR_IZR_INZ. apply Rgt_not_eq, sqrt_lt_R0, P.
  Qed.
  Lemma optimal_scale_pos : 0 < optimal_scale d.
  Proof. unfold optimal_scale. apply Rdiv_lt_0_compat; [lra|]. apply sqrt_lt_R0. now apply lt_0_INR. Qed.

  Lemma limit_std_law s c : (0 <= k_n_steps env)%Z -> nleb (limit_std env (Fin s)) (@nofZ X XNum c) = true <-> long_enough d (k_n_steps env) s (IZR c).
  Proof.
    intros HN. unfold limit_std, long_enough. rewrite optimal_scale_fin. pose proof optimal_scale_pos as P. apply IZR_le in HN.
    destruct (Req_dec s 0) as [->|Hs].
    - assert (E : @ndiv X (@numT_Num X XNumT) (Fin (optimal_scale d)) (Fin 0) = PInf) by (cbn -[IZR]; rcase; [|lra]; rcase; [reflexivity|lra]).
      rewrite E. change (@nsqr X (@numT_Num X XNumT) PInf) with PInf.
      match goal with |- ?q = true <-> _ => assert (F : q = false) end.
      { cbn -[IZR]. unfold xinf_mul. repeat (rcase; cbn -[IZR]); try reflexivity; lra. }
      rewrite F. split; [discriminate|]. intros [H _]. now elim H.
    - assert (E : @ndiv X (@numT_Num X XNumT) (Fin (optimal_scale d)) (Fin s) = Fin (optimal_scale d / s)) by (now apply xdiv_fin).
      rewrite E. cbn -[IZR]. unfold Rleb. replace (optimal_scale d / s * (optimal_scale d / s * 1)) with (optimal_scale d / s * (optimal_scale d / s)) by ring.
      match goal with |- context [Rle_dec ?a ?b] => destruct (Rle_dec a b) end; split; try discriminate; try tauto; try (intros [_ H]; lra).
  Qed.
  Lemma limit_prwm_law s c : (0 <= k_n_steps env)%Z -> nleb (limit_prwm env (Fin s)) (@nofZ X XNum c) = true <-> long_enough_latent_walk d (k_n_steps env) s (IZR c).
  Proof.
    intros HN. unfold limit_prwm, long_enough_latent_walk. rewrite optimal_scale_fin. pose proof optimal_scale_pos as P. apply IZR_le in HN.
    destruct (Req_EM_T s 0) as [->|Hs].
    - assert (E : @ndiv X (@numT_Num X XNumT) (Fin (optimal_scale d)) (Fin 0) = PInf) by (cbn -[IZR]; rcase; [|lra]; rcase; [reflexivity|lra]).
      rewrite E. change (@nmin2 X (@numT_Num X XNumT) (nofZ 1) PInf) with (Fin 1). cbn -[IZR]. unfold Rleb.
      replace (1 * (1 * 1)) with (1 * 1) by ring.
      match goal with |- context [Rle_dec ?a ?b] => destruct (Rle_dec a b) end; split; try discriminate; tauto.
    - assert (E : @ndiv X (@numT_Num X XNumT) (Fin (optimal_scale d)) (Fin s) = Fin (optimal_scale d / s)) by (now apply xdiv_fin).
      rewrite E.
      match goal with |- context [@nmin2 X ?q ?a (Fin (optimal_scale d / s))] => assert (M : @nmin2 X q a (Fin (optimal_scale d / s)) = Fin (Rmin 1 (optimal_scale d / s))) end.
      { exact (nmin2_fin 1 (optimal_scale d / s)). }
      rewrite M. cbn -[IZR Rmin]. unfold Rleb.
      set (z := Rmin 1 (optimal_scale d / s)). replace (z * (z * 1)) with (z * z) by ring.
      match goal with |- context [Rle_dec ?a ?b] => destruct (Rle_dec a b) end; split; try discriminate; tauto.
  Qed.

  Lemma adapt_tpcn_law i s al n : length al = n -> (0 < n)%nat -> adapt_tpcn env (Z.of_nat i) (Fin s) (map Fin al) = Fin (adapted_cn d i s (average n (fun k => nth k al 0))).
  Proof.
    intros Hl Hn. unfold adapt_tpcn, adapted_cn. rewrite optimal_scale_fin.
    set (m := average n (fun k => nth k al 0)).
    assert (Em : @nmean X (@numT_Num X XNumT) (map Fin al) = Fin m) by exact (nmean_average al n Hl Hn). rewrite Em.
    assert (Ei : IZR (Z.of_nat i + 1) = INR i + 1) by (rewrite plus_IZR, <- INR_IZR_INZ; reflexivity).
    assert (P : 0 < INR i + 1) by (pose proof (pos_INR i); lra).
    assert (Q : @npow X XNumT (@nofZ X (@numT_Num X XNumT) (Z.of_nat i + 1)) (@nfrac X (@numT_Num X XNumT) 75 100) = Fin (Rpower (INR i + 1) (75 / 100))).
    { change (@nfrac X (@numT_Num X XNumT) 75 100) with (@nfrac X XNum 75 100). rewrite nfrac_fin by lra. cbn -[IZR]. rewrite Ei. rcase; [reflexivity|lra]. }
    rewrite Q.
    assert (D : @ndiv X (@numT_Num X XNumT) (@nofZ X (@numT_Num X XNumT) 1) (Fin (Rpower (INR i + 1) (75 / 100))) = Fin (1 / Rpower (INR i + 1) (75 / 100)))
      by (apply xdiv_fin; apply Rgt_not_eq; apply exp_pos).
    rewrite D.
    assert (F : @nfrac X (@numT_Num X XNumT) 234 1000 = Fin (234 / 1000)) by (apply nfrac_fin; lra).
    assert (F2 : @nfrac X (@numT_Num X XNumT) 99 100 = Fin (99 / 100)) by (apply nfrac_fin; lra).
    rewrite F, F2. change (@numT_Num X XNumT) with XNum. rewrite nmin2_fin. cbn -[IZR Rabs nmin2]. rewrite nmin2_fin. reflexivity.
  Qed.
  Lemma adapt_prwm_law i s al n : length al = n -> (0 < n)%nat -> adapt_prwm (Z.of_nat i) (Fin s) (map Fin al) = Fin (adapted_latent_walk i s (average n (fun k => nth k al 0))).
  Proof.
    intros Hl Hn. unfold adapt_prwm, adapted_latent_walk.
    set (m := average n (fun k => nth k al 0)).
    assert (Em : @nmean X (@numT_Num X XNumT) (map Fin al) = Fin m) by exact (nmean_average al n Hl Hn). rewrite Em.
    assert (Ei : IZR (Z.of_nat i + 1) = INR i + 1) by (rewrite plus_IZR, <- INR_IZR_INZ; reflexivity).
    assert (P : 0 < INR i + 1) by (pose proof (pos_INR i); lra).
    assert (D : @ndiv X (@numT_Num X XNumT) (@nofZ X (@numT_Num X XNumT) 1) (@nofZ X (@numT_Num X XNumT) (Z.of_nat i + 1)) = Fin (1 / (INR i + 1))).
    { rewrite <- Ei. apply xdiv_fin. lra. }
    assert (F : @nfrac X (@numT_Num X XNumT) 234 1000 = Fin (234 / 1000)) by (apply nfrac_fin; lra).
    rewrite D, F. reflexivity.
  Qed.
  Lemma adapt_rwm_law i s al n : length al = n -> (0 < n)%nat -> adapt_rwm (Z.of_nat i) (Fin s) (map Fin al) = Fin (adapted_walk i s (average n (fun k => nth k al 0))).
  Proof.
    intros Hl Hn. change (adapt_rwm (Z.of_nat i) (Fin s) (map Fin al)) with (xabs (adapt_prwm (Z.of_nat i) (Fin s) (map Fin al))).
    rewrite (adapt_prwm_law _ _ _ _ Hl Hn). reflexivity.
  Qed.
  Lemma nth_map_seq_R (f : nat -> R) m j : (j < m)%nat -> nth j (map f (seq 0 m)) 0 = f j.
  Proof. intros H. rewrite (nth_map_f f (seq 0 m) j 0%nat) by (now rewrite seq_length). now rewrite seq_nth. Qed.
  Lemma map2_as_seq (f : R -> R -> R) a b m : length a = m -> length b = m -> map2 f a b = map (fun j => f (nth j a 0) (nth j b 0)) (seq 0 m).
  Proof.
    intros La Lb. apply (nth_ext _ _ 0 0); [rewrite (map2_length_eq _ _ _ m La Lb), map_length, seq_length; reflexivity|].
    intros j Hj. rewrite (map2_length_eq _ _ _ m La Lb) in Hj. rewrite nth_map_seq_R by exact Hj. now apply (nth_map2 f a b 0 0 0 j m).
  Qed.
  Lemma adapt_mu_law i mu ths n : length mu = d -> length ths = n -> (0 < n)%nat -> Forall (fun u => length u = d) ths ->
    adapt_mu env (Z.of_nat i) (map Fin mu) (map (map Fin) ths) =
    map Fin (map (fun j => nth j mu 0 + 1 / (INR i + 1) * (average n (fun k => nth j (nth k ths []) 0) - nth j mu 0)) (seq 0 d)).
  Proof.
    intros Lm Ln Hn HT. unfold adapt_mu. rewrite Ed.
    assert (P : 0 < INR i + 1) by (pose proof (pos_INR i); lra).
    assert (D : @ndiv X (@numT_Num X XNumT) (@nofZ X (@numT_Num X XNumT) 1) (@nadd X (@numT_Num X XNumT) (@nofZ X (@numT_Num X XNumT) (Z.of_nat i)) (@nofZ X (@numT_Num X XNumT) 1)) = Fin (1 / (INR i + 1))).
    { change (@nadd X (@numT_Num X XNumT) (@nofZ X (@numT_Num X XNumT) (Z.of_nat i)) (@nofZ X (@numT_Num X XNumT) 1)) with (Fin (IZR (Z.of_nat i) + 1)). rewrite <- INR_IZR_INZ. apply xdiv_fin. lra. }
    rewrite D.
    assert (M : @mean_axis0 X (@numT_Num X XNumT) d (map (map Fin) ths) = map Fin (map (fun j => meanR (colR ths j)) (seq 0 d))).
    { apply mean_axis0_fin. intros ->. cbn in Ln. lia. }
    rewrite M. set (ms := map (fun j => meanR (colR ths j)) (seq 0 d)).
    assert (Lms : length ms = d) by (unfold ms; now rewrite map_length, seq_length).
    assert (E1 : @vsub X (@numT_Num X XNumT) (map Fin ms) (map Fin mu) = map Fin (map2 Rminus ms mu)).
    { clear. revert mu. induction ms as [|x a IH]; intros [|y b]; cbn; try reflexivity. f_equal. apply IH. }
    assert (E2 : forall c l, @vscale X (@numT_Num X XNumT) (Fin c) (map Fin l) = map Fin (map (Rmult c) l)).
    { intros c l. unfold vscale. rewrite !map_map. apply map_ext. reflexivity. }
    assert (E3 : forall l m, @vadd X (@numT_Num X XNumT) (map Fin l) (map Fin m) = map Fin (map2 Rplus l m)).
    { clear. intros l. induction l as [|x a IH]; intros [|y b]; cbn; try reflexivity. f_equal. apply IH. }
    rewrite E1, E2, E3. f_equal.
    assert (L1 : length (map (Rmult (1 / (INR i + 1))) (map2 Rminus ms mu)) = d) by (rewrite map_length; now apply map2_length_eq).
    rewrite (map2_as_seq Rplus _ _ d Lm L1). apply map_ext_in. intros j Hj. apply in_seq in Hj. f_equal.
    rewrite (nth_map_f (Rmult (1 / (INR i + 1))) _ j 0) by (rewrite (map2_length_eq _ _ _ d Lms Lm); lia). f_equal.
    rewrite (nth_map2 Rminus ms mu 0 0 0 j d Lms Lm) by lia. f_equal. unfold ms. rewrite nth_map_seq_R by lia.
    assert (Lc : length (colR ths j) = n) by (unfold colR; now rewrite map_length).
    rewrite (meanR_average _ n Lc). apply average_ext. intros k Hk. unfold colR.
    rewrite (nth_map_f (fun r => nth j r 0) ths k []) by lia. reflexivity.
  Qed.
End Laws.

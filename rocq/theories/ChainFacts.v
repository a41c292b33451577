(** * The loop of the kernels as a path of states; plateaus; averages *)
From Coq Require Import Reals ZArith Bool Lia Lra.
From Coquelicot Require Import Coquelicot.
From Coq Require Import List.
From Verif Require Import Num PyBase PyBaseFacts XReal RList Scaler ScalerStruct SpecScaler ScalerFacts ScalerFitFacts ScalerSpecFacts Geometry SpecGeometry GeometryFacts
  Mcmc SpecMcmc McmcFacts McmcInv McmcCoherent McmcNum McmcSigma SpecBalance BalanceFacts McmcBalance SpecChain.
Import ListNotations.
Set Bullet Behavior "Strict Subproofs".
Local Open Scope R_scope.

(** ** The path *)
Section Path.
  Context {T B : Type} {NT : NumT T}.
  Variable env : kernel_env T B.
  Variable step : step_rand T B -> Z -> mstate T B -> res (mstate T B * bool).
  Variable rand : Z -> step_rand T B.

  Lemma kernel_loop_path fuel : forall i st st' j, kernel_loop env step rand fuel i st = Ok (st', j) ->
    exists (N : nat) (states : nat -> mstate T B) (brk : nat -> bool),
      (1 <= N)%nat /\ j = (i + Z.of_nat N)%Z /\ states 0%nat = st /\ states N = st' /\
      (forall m, (m < N)%nat -> step (rand (i + Z.of_nat (S m))%Z) (i + Z.of_nat (S m))%Z (states m) = Ok (states (S m), brk (S m))) /\
      (forall m, (1 <= m < N)%nat -> brk m = false /\ (i + Z.of_nat m < k_n_max env)%Z) /\
      (brk N = true \/ (k_n_max env <= j)%Z).
  Proof.
    induction fuel as [|f IH]; intros i st st' j; cbn [kernel_loop];
      destruct (step (rand (i + 1)%Z) (i + 1)%Z st) as [[st1 stop]|] eqn:E; cbn [bind]; try discriminate.
    - destruct stop.
      + intros H; injection H as <- <-. exists 1%nat, (fun m => match m with O => st | _ => st1 end), (fun _ => true).
        repeat split; auto; try lia. intros m Hm. assert (m = 0)%nat by lia. subst. exact E.
      + destruct (k_n_max env <=? i + 1)%Z eqn:Em; [|discriminate]. intros H; injection H as <- <-.
        exists 1%nat, (fun m => match m with O => st | _ => st1 end), (fun _ => false).
        repeat split; auto; try lia. intros m Hm. assert (m = 0)%nat by lia. subst. exact E.
    - destruct stop.
      + intros H; injection H as <- <-. exists 1%nat, (fun m => match m with O => st | _ => st1 end), (fun _ => true).
        repeat split; auto; try lia. intros m Hm. assert (m = 0)%nat by lia. subst. exact E.
      + destruct (k_n_max env <=? i + 1)%Z eqn:Em.
        * intros H; injection H as <- <-.
          exists 1%nat, (fun m => match m with O => st | _ => st1 end), (fun _ => false).
          repeat split; auto; try lia. intros m Hm. assert (m = 0)%nat by lia. subst. exact E.
        * intros H. apply IH in H as (N & states & brk & H1 & H2 & H3 & H4 & H5 & H6 & H7).
          exists (S N), (fun m => match m with O => st | S m => states m end), (fun m => match m with S (S m) => brk (S m) | _ => false end).
          apply Z.leb_gt in Em.
          split; [lia|]. split; [lia|]. split; [reflexivity|]. split; [exact H4|]. split; [|split].
          -- intros [|m] Hm; [cbn; rewrite H3; exact E|]. specialize (H5 m ltac:(lia)).
             replace (i + Z.of_nat (S (S m)))%Z with (i + 1 + Z.of_nat (S m))%Z by lia. exact H5.
          -- intros [|[|m]] Hm; [lia| |]; [split; [reflexivity|cbn; lia]|].
             destruct (H6 (S m) ltac:(lia)) as [A1 A2]. split; [exact A1|lia].
          -- destruct N as [|N]; [lia|]. exact H7.
  Qed.
End Path.

(** ** Plateaus *)
Section Plateau.
  Variables (q : nat -> R).

  (** the running best and the counter *)
  Definition tracks (i : nat) (best : X) (cnt : Z) : Prop := exists j, last_record q i j /\ best = Fin (q j) /\ cnt = Z.of_nat (i - j).
  Lemma tracks_0 : tracks 0 (Fin (q 0%nat)) 0.
  Proof. exists 0%nat. split; [|auto]. split; [lia|]. split; intros; lia. Qed.
  Lemma plateau_step i best cnt limit best' cnt' stop (enough : R -> Prop) : tracks i best cnt ->
    (forall c, nleb limit (@nofZ X XNum c) = true <-> enough (IZR c)) ->
    plateau best cnt (Fin (q (S i))) limit = (best', cnt', stop) ->
    tracks (S i) best' cnt' /\ (stop = true <-> plateaued q enough (S i)).
  Proof.
    intros (j & (J1 & J2 & J3) & -> & ->) HE. unfold plateau.
    assert (UQ : forall a b, last_record q (S i) a -> last_record q (S i) b -> a = b).
    { intros a b (A1 & A2 & A3) (B1 & B2 & B3). destruct (lt_eq_lt_dec a b) as [[C|C]|C]; [|exact C|].
      - specialize (A3 b ltac:(lia)). specialize (B2 a C). lra.
      - specialize (B3 a ltac:(lia)). specialize (A2 b C). lra. }
    assert (E : @nltb X (@numT_Num X XNumT) (Fin (q j)) (Fin (q (S i))) = Rltb (q j) (q (S i))) by reflexivity. rewrite E. unfold Rltb.
    destruct (Rlt_dec (q j) (q (S i))) as [Hlt|Hge].
    - intros H; injection H as <- <- <-.
      assert (LR : last_record q (S i) (S i)).
      { split; [lia|]. split; [|intros; lia]. intros m Hm. destruct (lt_eq_lt_dec m j) as [[C|C]|C]; [specialize (J2 m C); lra|now subst|]. specialize (J3 m ltac:(lia)). lra. }
      split; [exists (S i); repeat split; auto; try apply LR; try lia|]. split; [discriminate|]. intros (a & A1 & A2 & A3). rewrite (UQ _ _ A1 LR) in A2. lia.
    - intros H; injection H as <- <- <-.
      assert (LR : last_record q (S i) j).
      { split; [lia|]. split; [exact J2|]. intros m Hm. destruct (Nat.eq_dec m (S i)) as [->|]; [lra|apply J3; lia]. }
      assert (C : (Z.of_nat (i - j) + 1)%Z = Z.of_nat (S i - j)) by lia. rewrite C.
      split; [exists j; auto|]. specialize (HE (Z.of_nat (S i - j))). rewrite <- INR_IZR_INZ in HE. split.
      + intros H. exists j. split; [exact LR|]. split; [lia|apply HE; exact H].
      + intros (a & A1 & A2 & A3). rewrite (UQ _ _ A1 LR) in A3. apply HE. exact A3.
  Qed.
End Plateau.

(** ** Lists of finite numbers *)
Lemma map_unfin l : map unfin (map Fin l) = l.
Proof. rewrite map_map. apply map_id. Qed.
Lemma map_map_unfin m : map (map unfin) (map (map Fin) m) = m.
Proof. rewrite map_map. rewrite <- (map_id m) at 2. apply map_ext. intros. apply map_unfin. Qed.
Lemma finite_vec (l : list X) n : length l = n -> (forall k, (k < n)%nat -> exists a, nth k l (Fin 0) = Fin a) -> l = map Fin (map unfin l).
Proof.
  revert n. induction l as [|x l IH]; intros n Hn H; [reflexivity|]. cbn. destruct (H 0%nat) as [a E]; [cbn in Hn; lia|]. cbn in E. subst x. cbn. f_equal.
  apply (IH (length l) eq_refl). intros k Hk. apply (H (S k)). cbn in Hn. lia.
Qed.
Lemma finite_mat (m : list (list X)) n d : length m = n -> (forall k, (k < n)%nat -> exists v, nth k m [] = map Fin v /\ length v = d) ->
  m = map (map Fin) (map (map unfin) m) /\ Forall (fun u => length u = d) (map (map unfin) m).
Proof.
  revert n. induction m as [|x m IH]; intros n Hn H; [split; [reflexivity|constructor]|].
  destruct (H 0%nat) as [v [E Lv]]; [cbn in Hn; lia|]. cbn in E. subst x. cbn. rewrite map_unfin.
  destruct (IH (length m) eq_refl) as [I1 I2]; [intros k Hk; apply (H (S k)); cbn in Hn; lia|].
  split; [f_equal; exact I1|now constructor].
Qed.
Lemma meanR_average l n : length l = n -> meanR l = average n (fun k => nth k l 0).
Proof.
  intros <-. unfold meanR, average. f_equal. rewrite sum_lt_Rsum. f_equal.
  induction l as [|x l IH]; [reflexivity|]. cbn [length seq map nth]. f_equal. rewrite <- seq_shift, map_map. exact IH.
Qed.
Lemma average_ext n f g : (forall k, (k < n)%nat -> f k = g k) -> average n f = average n g.
Proof. intros H. unfold average. f_equal. now apply sum_lt_ext. Qed.
Lemma nmean_average (l : list R) n : length l = n -> (0 < n)%nat -> @nmean X XNum (map Fin l) = Fin (average n (fun k => nth k l 0)).
Proof. intros Hl Hn. rewrite nmean_fin; [now rewrite (meanR_average l n Hl)|]. intros ->. cbn in Hl. lia. Qed.

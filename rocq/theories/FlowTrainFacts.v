(** * Facts about the epoch loop, the noise amplitude and the regularisation *)
From Coq Require Import Reals ZArith String Bool Lia Lra.
From Coquelicot Require Import Coquelicot.
From Coq Require Import List.
From Verif Require Import Num PyBase PyBaseFacts XReal RList Flow SpecFlow FlowFacts.
Import ListNotations.

(** ** best position *)
Lemma first_smallest_unique ms b b' : first_smallest ms b -> first_smallest ms b' -> b = b'.
Proof.
  assert (H : forall b b', first_smallest ms b -> first_smallest ms b' -> (b < b')%nat -> False).
  { clear. intros b b' (L & F & M & _) (L' & F' & _ & S') Hlt.
    specialize (S' b Hlt). specialize (M b' L'). revert F F' S' M.
    generalize (nth b ms NaN) (nth b' ms NaN). intros [x| | |] [y| | |]; cbn; try discriminate.
    rewrite Rleb_false, Rltb_false. lra. }
  intros H1 H2. destruct (lt_eq_lt_dec b b') as [[h|h]|h]; [|exact h|]; exfalso; eauto.
Qed.
Lemma best_position_unique ms b b' : best_position ms b -> best_position ms b' -> b = b'.
Proof.
  intros [H|[H ->]] [H'|[H' ->]]; [exact (first_smallest_unique ms b b' H H')| | |reflexivity].
  - destruct H as (L & F & _). rewrite (H' b L) in F. discriminate.
  - destruct H' as (L & F & _). rewrite (H b' L) in F. discriminate.
Qed.

Section Loop.
  Context {P Opt : Type}.
  Variables (o : flow_oracles X P Opt) (c : fit_config X) (rnd : fit_rand X).
  Variables (train : @dataset X) (valid : option (@dataset X)) (weighted : bool) (amp : option X).
  Notation pass := (epoch_pass o c rnd train valid weighted amp).
  Variable s0 : fstate X P Opt.
  Notation plain := (plain pass s0).

  (** the fields an epoch reads and writes *)
  Definition agree4 (a b : fstate X P Opt) : Prop :=
    fs_opt a = fs_opt b /\ fs_params a = fs_params b /\ fs_loss a = fs_loss b /\ fs_val a = fs_val b.
  Lemma pass_agree e a b r m : agree4 a b -> pass e a = Ok (r, m) ->
    exists r', pass e b = Ok (r', m) /\ agree4 r r' /\ fs_best_epoch r = fs_best_epoch a /\ fs_best_loss r = fs_best_loss a /\ fs_best r = fs_best a.
  Proof.
    intros (H1 & H2 & H3 & H4). unfold epoch_pass. rewrite H1, H2, H3, H4.
    match goal with |- bind ?m _ = _ -> _ => destruct m as [bs|]; cbn [bind]; [|discriminate] end.
    destruct (train_batches _ _ _ _ _ _ _ _ _ _ _) as [[st p] tl].
    match goal with |- bind ?m _ = _ -> _ => destruct m as [trl|]; cbn [bind]; [|discriminate] end.
    match goal with |- bind ?m _ = _ -> _ => destruct m as [[hv mo]|]; cbn [bind]; [|discriminate] end.
    intros H. injection H as <- <-. eexists. split; [reflexivity|]. repeat split; reflexivity.
  Qed.
  Lemma pass_history e a r m : pass e a = Ok (r, m) ->
    exists tl, fs_loss r = fs_loss a ++ [tl] /\
      match valid with None => fs_val r = fs_val a /\ m = tl | Some _ => fs_val r = fs_val a ++ [m] end.
  Proof.
    unfold epoch_pass.
    match goal with |- bind ?m _ = _ -> _ => destruct m as [bs|]; cbn [bind]; [|discriminate] end.
    destruct (train_batches _ _ _ _ _ _ _ _ _ _ _) as [[st p] tl].
    match goal with |- bind ?m _ = _ -> _ => destruct m as [trl|]; cbn [bind]; [|discriminate] end.
    destruct valid as [v|].
    - match goal with |- bind (bind ?m _) _ = _ -> _ => destruct m as [vbs|]; cbn [bind]; [|discriminate] end.
      match goal with |- bind (bind ?m _) _ = _ -> _ => destruct m as [vl|]; cbn [bind]; [|discriminate] end.
      intros H. injection H as <- <-. exists trl. split; reflexivity.
    - cbn [bind]. intros H. injection H as <- <-. exists trl. repeat split; reflexivity.
  Qed.

  Lemma plain_history n s ms : fs_loss s0 = [] -> fs_val s0 = [] -> plain n = Ok (s, ms) ->
    length ms = n /\ length (fs_loss s) = n /\ ms = (match valid with None => fs_loss s | Some _ => fs_val s end) /\
    length (fs_val s) = (match valid with None => 0 | Some _ => n end)%nat.
  Proof.
    intros L0 V0. revert s ms. induction n as [|n IH]; intros s ms H; cbn in H.
    - injection H as <- <-. rewrite L0, V0. cbn. destruct valid; auto.
    - destruct (SpecFlow.plain pass s0 n) as [[s' ms']|] eqn:E; cbn [bind] in H; [|discriminate].
      destruct (pass n s') as [[r m]|] eqn:Ep; cbn [bind] in H; [|discriminate]. injection H as <- <-.
      destruct (IH s' ms' eq_refl) as (I1 & I2 & I3 & I4).
      destruct (pass_history n s' r m Ep) as (tl & Hl & Hv). rewrite Hl, !app_length, I1, I2. cbn [length].
      destruct valid; [rewrite Hv, app_length, I4, I3; cbn [length]|destruct Hv as [-> ->]; rewrite I3, I4]; repeat split; try lia; reflexivity.
  Qed.

  (** the best-so-far variables describe the losses seen *)
  Definition best_inv (ms : list X) (s : fstate X P Opt) : Prop :=
    (none_below_inf ms /\ fs_best_epoch s = 0%nat /\ fs_best_loss s = PInf /\ fs_best s = fs_params s0) \/
    (first_smallest ms (fs_best_epoch s) /\ fs_best_loss s = nth (fs_best_epoch s) ms NaN /\
     exists sb msb, plain (S (fs_best_epoch s)) = Ok (sb, msb) /\ fs_best s = fs_params sb).

  Lemma best_step ms s m n sp : length ms = n -> plain (S n) = Ok (sp, ms ++ [m]) -> best_inv ms s -> fs_params s = fs_params sp ->
    best_inv (ms ++ [m]) (monitor n m s).
  Proof.
    intros Hn Hp Hi Hs. unfold monitor.
    assert (Nl : nth n (ms ++ [m]) NaN = m) by (rewrite app_nth2 by lia; now rewrite Hn, Nat.sub_diag).
    assert (No : forall j, (j < n)%nat -> nth j (ms ++ [m]) NaN = nth j ms NaN) by (intros; apply app_nth1; lia).
    assert (La : length (ms ++ [m]) = S n) by (rewrite app_length; cbn; lia).
    change (@nltb X (@numT_Num X XNumT) m (fs_best_loss s)) with (xltb m (fs_best_loss s)).
    destruct (xltb m (fs_best_loss s)) eqn:E.
    - right. cbn [fs_best_epoch fs_best_loss fs_best]. unfold first_smallest. rewrite La, Nl. split; [|split; [reflexivity|]].
      2:{ exists sp, (ms ++ [m]). now rewrite Hs. }
      split; [lia|]. destruct Hi as [(Hnb & _ & Hbl & _)|((L & F & M & S1) & Hbl & _)]; rewrite Hbl in E.
      + split; [exact E|]. split.
        * intros j Hj. destruct (Nat.eq_dec j n) as [->|]; [rewrite Nl; destruct m; cbn; auto; apply Rltb_false; lra|].
          rewrite No by lia. specialize (Hnb j ltac:(lia)). destruct (nth j ms NaN), m; cbn in *; auto; discriminate.
        * intros j Hj. rewrite No by lia. specialize (Hnb j ltac:(lia)). destruct (nth j ms NaN), m; cbn in *; auto; discriminate.
      + assert (Em : xltb m PInf = true).
        { destruct m, (nth (fs_best_epoch s) ms NaN); cbn in *; auto; discriminate. }
        split; [exact Em|].
        assert (K : forall j, (j < n)%nat -> xleb (nth j ms NaN) m = false /\ xltb (nth j ms NaN) m = false).
        { intros j Hj. specialize (M j ltac:(lia)). revert E F M. clear.
          destruct m, (nth j ms NaN), (nth (fs_best_epoch s) ms NaN); cbn; auto; try discriminate.
          rewrite Rltb_true, !Rltb_false, Rleb_false. lra. }
        split.
        * intros j Hj. destruct (Nat.eq_dec j n) as [->|]; [rewrite Nl; destruct m; cbn; auto; apply Rltb_false; lra|].
          rewrite No by lia. apply K; lia.
        * intros j Hj. rewrite No by lia. apply K; lia.
    - destruct Hi as [(Hnb & Hbe & Hbl & Hb)|((L & F & M & S1) & Hbl & Hex)].
      + left. split; [|auto]. intros j Hj. rewrite La in Hj. destruct (Nat.eq_dec j n) as [->|]; [now rewrite Nl, <- Hbl|].
        rewrite No by lia. apply Hnb. lia.
      + right. unfold first_smallest. rewrite La, No by lia. split; [|split; [exact Hbl|exact Hex]].
        split; [lia|]. split; [exact F|]. split.
        * intros j Hj. destruct (Nat.eq_dec j n) as [->|]; [now rewrite Nl, <- Hbl|]. rewrite No by lia. apply M. lia.
        * intros j Hj. rewrite No by lia. apply S1; lia.
  Qed.
  Lemma best_inv_position ms s : best_inv ms s -> best_position ms (fs_best_epoch s).
  Proof. intros [(H & E & _)|(H & _)]; [right|left]; auto. Qed.

  Definition keeps_going (ms : list X) (lo n : nat) : Prop :=
    forall k b, (lo < k < n)%nat -> best_position (firstn k ms) b -> (Z.of_nat k - 1 - Z.of_nat b < stop_after c)%Z.

  Lemma loop_spec fuel : forall e s sp ms s' early,
    plain e = Ok (sp, ms) -> length ms = e -> agree4 s sp -> best_inv ms s ->
    epoch_loop o c rnd train valid weighted amp fuel e s = Ok (s', early) ->
    exists n sn ms', (e <= n <= e + fuel)%nat /\ plain n = Ok (sn, ms ++ ms') /\ length (ms ++ ms') = n /\
      fs_loss s' = fs_loss sn /\ fs_val s' = fs_val sn /\
      (forall k b, (e < k)%nat -> (k < n)%nat \/ (k = n /\ early = false) -> best_position (firstn k (ms ++ ms')) b ->
         (Z.of_nat k - 1 - Z.of_nat b < stop_after c)%Z) /\
      (if early then
        (e < n)%nat /\ best_inv (ms ++ ms') s' /\ (stop_after c <= Z.of_nat n - 1 - Z.of_nat (fs_best_epoch s'))%Z /\ fs_params s' = fs_best s'
       else n = (e + fuel)%nat /\ fs_params s' = fs_params sn).
  Proof.
    induction fuel as [|fuel IH]; intros e s sp ms s' early Hp Hl Ha Hb H.
    - cbn in H. injection H as <- <-. exists e, sp, []. rewrite app_nil_r. destruct Ha as (_ & H2 & H3 & H4).
      split; [lia|]. split; [exact Hp|]. split; [exact Hl|]. split; [exact H3|]. split; [exact H4|].
      split; [intros k b H1 [H5|[H5 _]]; lia|]. split; [lia|exact H2].
    - cbn [epoch_loop] in H. destruct (pass e s) as [[s1 m]|] eqn:Ep; cbn [bind] in H; [|discriminate].
      destruct (pass_agree e s sp s1 m Ha Ep) as (r' & Ep' & Ha' & B1 & B2 & B3).
      assert (Hp1 : plain (S e) = Ok (r', ms ++ [m])).
      { cbn. rewrite Hp. cbn [bind]. rewrite Ep'. reflexivity. }
      assert (Hb1 : best_inv ms s1).
      { unfold best_inv in *. rewrite B1, B2, B3. exact Hb. }
      pose proof (best_step ms s1 m e r' Hl Hp1 Hb1 (proj1 (proj2 Ha'))) as Hb2.
      assert (Ha2 : agree4 (monitor e m s1) r').
      { unfold monitor. destruct (m <? fs_best_loss s1)%num; exact Ha'. }
      assert (Hl2 : length (ms ++ [m]) = S e) by (rewrite app_length; cbn; lia).
      set (s2 := monitor e m s1) in *. clearbody s2.
      destruct (stop_after c <=? Z.of_nat e - Z.of_nat (fs_best_epoch s2))%Z eqn:Es.
      + injection H as <- <-. exists (S e), r', [m]. destruct Ha2 as (_ & _ & H3 & H4).
        split; [lia|]. split; [exact Hp1|]. split; [exact Hl2|]. cbn [fs_loss fs_val fs_best_epoch fs_params fs_best].
        split; [exact H3|]. split; [exact H4|]. split; [intros k b K1 [K2|[_ K2]]; [lia|discriminate]|].
        split; [lia|]. split; [exact Hb2|]. split; [apply Z.leb_le in Es; lia|reflexivity].
      + destruct (IH (S e) s2 r' (ms ++ [m]) s' early Hp1 Hl2 Ha2 Hb2 H) as (n & sn & ms' & R1 & R2 & R3 & R4 & R5 & R6 & R7).
        exists n, sn, (m :: ms'). rewrite <- app_assoc in R2, R3, R6, R7. cbn [app] in *.
        split; [lia|]. split; [exact R2|]. split; [exact R3|]. split; [exact R4|]. split; [exact R5|]. split.
        * intros k b K1 K2 K3. destruct (Nat.eq_dec k (S e)) as [->|Hne]; [|apply (R6 k b); [lia|exact K2|exact K3]].
          assert (Hf : firstn (S e) (ms ++ m :: ms') = ms ++ [m]).
          { replace (ms ++ m :: ms') with ((ms ++ [m]) ++ ms') by (rewrite <- app_assoc; reflexivity).
            rewrite firstn_app, Hl2, Nat.sub_diag, firstn_all2 by lia. apply app_nil_r. }
          rewrite Hf in K3. rewrite (best_position_unique _ _ _ K3 (best_inv_position _ _ Hb2)).
          apply Z.leb_gt in Es. lia.
        * destruct early; [|lia || (split; [lia|apply R7])]. destruct R7 as (Q1 & Q2). split; [lia|exact Q2].
  Qed.
End Loop.

Section FitLevel.
  Context {P Opt : Type}.
  Variables (o : flow_oracles X P Opt) (c : fit_config X) (rnd : fit_rand X).
  Lemma flow_fit_training0 p x w p' loss val early : flow_fit o c rnd p x w = Ok (p', (loss, val), early) ->
    exists train valid amp, prepare c rnd x w = Ok (train, valid, amp) /\
    let weighted := match w with Some _ => true | None => false end in
    let after := SpecFlow.plain (epoch_pass o c rnd train valid weighted amp) (fit_start o c p) in
    exists n s ms, (n <= Z.to_nat (c_epochs c))%nat /\ after n = Ok (s, ms) /\ loss = fs_loss s /\ val = fs_val s /\
      length loss = n /\ length val = (match valid with None => 0 | Some _ => n end)%nat /\
      ms = (match valid with None => loss | Some _ => val end) /\
      (early = false -> n = Z.to_nat (c_epochs c) /\ p' = fs_params s) /\
      (early = true -> exists b, (0 < n)%nat /\ best_position ms b /\ (stop_after c <= Z.of_nat n - 1 - Z.of_nat b)%Z /\
         (first_smallest ms b -> exists sb msb, after (S b) = Ok (sb, msb) /\ p' = fs_params sb) /\
         (none_below_inf ms -> p' = p)) /\
      (forall k b, (0 < k)%nat -> (k < n)%nat \/ (k = n /\ early = false) -> best_position (firstn k ms) b ->
         (Z.of_nat k - 1 - Z.of_nat b < stop_after c)%Z).
  Proof.
    unfold flow_fit. destruct (prepare c rnd x w) as [[[train valid] amp]|]; cbn [bind]; [|discriminate].
    match goal with |- bind ?m _ = _ -> _ => destruct m as [[s' e]|] eqn:El; cbn [bind]; [|discriminate] end.
    match goal with |- bind ?m _ = _ -> _ => destruct m; cbn [bind]; [|discriminate] end.
    intros H. injection H as <- <- <- <-. exists train, valid, amp. split; [reflexivity|]. cbn zeta.
    set (weighted := match w with Some _ => true | None => false end) in *.
    destruct (loop_spec o c rnd train valid weighted amp (fit_start o c p) (Z.to_nat (c_epochs c)) 0%nat
      (fit_start o c p) (fit_start o c p) [] s' e eq_refl eq_refl ltac:(repeat split; reflexivity)) as (n & sn & ms' & R1 & R2 & R3 & R4 & R5 & R6 & R7).
    { left. split; [intros j Hj; cbn in Hj; lia|]. repeat split; reflexivity. }
    { exact El. }
    cbn [app] in *.
    destruct (plain_history o c rnd train valid weighted amp (fit_start o c p) n sn ms' eq_refl eq_refl R2) as (G1 & G2 & G3 & G4).
    exists n, sn, ms'. rewrite R4, R5. split; [lia|]. split; [exact R2|]. split; [reflexivity|]. split; [reflexivity|].
    split; [exact G2|]. split; [exact G4|]. split; [exact G3|]. split; [|split; [|exact R6]].
    - intros ->. destruct R7 as [-> R7]. split; [reflexivity|exact R7].
    - intros ->. destruct R7 as (Q1 & Q2 & Q3 & Q4). exists (fs_best_epoch s'). split; [lia|]. split; [exact (best_inv_position _ _ _ _ _ _ _ _ _ _ Q2)|].
      split; [exact Q3|]. rewrite Q4. destruct Q2 as [(N1 & N2 & N3 & N4)|(N1 & N2 & sb & msb & N3 & N4)].
      + split; [|intros _; exact N4]. intros (L & F & _). rewrite (N1 _ L) in F. discriminate.
      + split; [intros _; exists sb, msb; split; [exact N3|exact N4]|]. intros N. destruct N1 as (L & F & _). rewrite (N _ L) in F. discriminate.
  Qed.
  Lemma stop_waited d : (0 <= d)%Z -> (stop_after c <= d)%Z <-> waited (c_patience c) d.
  Proof.
    intros Hd. unfold stop_after, waited. destruct (Z.le_gt_cases 0 (c_patience c)) as [H|H].
    - rewrite Z.quot_div_nonneg by lia. pose proof (Z.div_mod (3 * c_patience c) 2 ltac:(lia)). pose proof (Z.mod_pos_bound (3 * c_patience c) 2 ltac:(lia)). lia.
    - split; [lia|]. intros _. apply Z.le_trans with 0%Z; [|exact Hd]. rewrite <- (Z.opp_involutive (3 * c_patience c)), Z.quot_opp_l by lia.
      pose proof (Z.quot_pos (- (3 * c_patience c)) 2 ltac:(lia) ltac:(lia)). lia.
  Qed.
  Lemma position_below ms b : best_position ms b -> (0 < length ms)%nat -> (b < length ms)%nat.
  Proof. intros [[H _]|[_ ->]] L; [exact H|exact L]. Qed.
  Lemma flow_fit_training p x w p' loss val early : flow_fit o c rnd p x w = Ok (p', (loss, val), early) ->
    exists train valid amp, prepare c rnd x w = Ok (train, valid, amp) /\
    let weighted := match w with Some _ => true | None => false end in
    let after := SpecFlow.plain (epoch_pass o c rnd train valid weighted amp) (fit_start o c p) in
    exists n s ms, (n <= Z.to_nat (c_epochs c))%nat /\ after n = Ok (s, ms) /\ loss = fs_loss s /\ val = fs_val s /\
      length loss = n /\ length val = (match valid with None => 0 | Some _ => n end)%nat /\
      ms = (match valid with None => loss | Some _ => val end) /\
      (early = false -> n = Z.to_nat (c_epochs c) /\ p' = fs_params s) /\
      (early = true -> exists b, best_position ms b /\ waited (c_patience c) (Z.of_nat n - 1 - Z.of_nat b) /\
         (first_smallest ms b -> exists sb msb, after (S b) = Ok (sb, msb) /\ p' = fs_params sb) /\
         (none_below_inf ms -> p' = p)) /\
      (forall k b, (0 < k)%nat -> (k < n)%nat \/ (k = n /\ early = false) -> best_position (firstn k ms) b ->
         ~ waited (c_patience c) (Z.of_nat k - 1 - Z.of_nat b)).
  Proof.
    intros H. destruct (flow_fit_training0 p x w p' loss val early H) as (train & valid & amp & Hp & R). exists train, valid, amp. split; [exact Hp|]. cbv zeta in R |- *.
    destruct R as (n & s & ms & R1 & R2 & R3 & R4 & R5 & R6 & R7 & R8 & R9 & R10).
    assert (L : length ms = n) by (rewrite R7; destruct valid; [exact R6|exact R5]).
    exists n, s, ms. do 7 (split; [assumption|]). split; [exact R8|]. split.
    - intros E. destruct (R9 E) as (b & Q0 & Q1 & Q2 & Q3 & Q4). exists b. split; [exact Q1|]. split; [|split; assumption].
      apply stop_waited; [|exact Q2]. pose proof (position_below ms b Q1). lia.
    - intros k b K1 K2 Hb Q. specialize (R10 k b K1 K2 Hb). apply stop_waited in Q; [lia|]. pose proof (position_below _ b Hb) as Q'. rewrite firstn_length in Q'. lia.
  Qed.
End FitLevel.

(** ** Empty sets *)
Lemma per_item_nil {T} {NT : NumT T} (l : T) : per_item l [] = Err ZeroDivisionError.
Proof. reflexivity. Qed.
Lemma flow_fit_empty {T P Opt} {NT : NumT T} (o : flow_oracles T P Opt) c rnd p x w train valid amp :
  prepare c rnd x w = Ok (train, valid, amp) -> (0 < c_epochs c)%Z -> train = [] \/ valid = Some [] ->
  exists e, flow_fit o c rnd p x w = Err e.
Proof.
  intros Hp He Hv. unfold flow_fit. rewrite Hp. cbn [bind].
  assert (exists e, epoch_loop o c rnd train valid (match w with Some _ => true | None => false end) amp (Z.to_nat (c_epochs c)) 0 (fit_start o c p) = Err e) as (e & ->).
  2:{ cbn [bind]. eauto. }
  destruct (Z.to_nat (c_epochs c)) as [|f] eqn:E; [lia|]. cbn [epoch_loop]. unfold epoch_pass.
  destruct (loader c rnd train false 0) as [bs|]; cbn [bind]; [|eauto].
  destruct (train_batches _ _ _ _ _ _ _ _ _ _ _) as [[st p1] tl].
  destruct Hv as [->| ->]; [cbn; eauto|].
  destruct (per_item tl train); cbn [bind]; [|eauto].
  destruct (loader c rnd [] true 0); cbn [bind]; [|eauto]. cbn. eauto.
Qed.

(** ** Noise amplitude *)
Open Scope R_scope.
Lemma norm_fin a b : @norm X XNumT (vsub (map Fin a) (map Fin b)) = Fin (distance a b).
Proof.
  unfold norm, distance.
  assert (H : @nsum X XNum (map (@nsqr X XNum) (@vsub X XNum (map Fin a) (map Fin b))) = Fin (sq_dist a b)).
  { revert b. induction a as [|x a IH]; intros [|y b]; try reflexivity.
    cbn [map vsub map2 nsum fold_right sq_dist]. unfold vsub, nsum in IH. rewrite IH. cbn. f_equal. lra. }
  xnum. rewrite H. change (@nsqrt X XNum (Fin (sq_dist a b))) with (xsqrt (Fin (sq_dist a b))).
  rewrite xsqrt_fin; [reflexivity|]. clear. revert b. induction a as [|x a IH]; intros [|y b]; cbn [sq_dist]; try lra.
  specialize (IH b). pose proof (pow2_ge_0 (x - y)). lra.
Qed.
Lemma dists_fin xs a : @dists_from X XNumT (map (map Fin) xs) (map Fin a) = map Fin (map (distance a) xs).
Proof. unfold dists_from. rewrite !map_map. apply map_ext. intros b. apply norm_fin. Qed.
Lemma last_map {A B} (f : A -> B) l d : last (map f l) (f d) = f (last l d).
Proof. induction l as [|a l IH]; [reflexivity|]. cbn [map last]. destruct l; [reflexivity|]. exact IH. Qed.
Lemma nmean_fin l : l <> [] -> @nmean X XNum (map Fin l) = Fin (Rsum l / INR (length l)).
Proof.
  intros Hl. unfold nmean. rewrite nsum_fin, map_length. change (xdiv (Fin (Rsum l)) (Fin (IZR (Z.of_nat (length l)))) = Fin (Rsum l / INR (length l))).
  rewrite <- INR_IZR_INZ. apply xdiv_fin. apply not_0_INR. destruct l; [congruence|discriminate].
Qed.
Lemma mean_min_dist_last xs v : mean_min_dist (map (map Fin) xs) = Ok v ->
  exists init a, xs = init ++ [a] /\ v = Fin (Rsum (map (distance a) xs) / INR (length xs)).
Proof.
  unfold mean_min_dist. match goal with |- bind ?m _ = _ -> _ => destruct m; cbn [bind]; [|discriminate] end.
  destruct xs as [|x0 xs]; [discriminate|]. intros H.
  exists (removelast (x0 :: xs)), (last (x0 :: xs) x0). split; [apply app_removelast_last; discriminate|].
  assert (Hv : v = @nmean X XNum (@dists_from X XNumT (map (map Fin) (x0 :: xs)) (map Fin (last (x0 :: xs) x0)))).
  { rewrite <- last_map. replace (last (map (map Fin) (x0 :: xs)) (map Fin x0)) with (last (map (map Fin) xs) (map Fin x0)); [|destruct xs; reflexivity].
    cbn [map] in H. apply (f_equal (fun r => match r with Ok v => v | Err _ => v end)) in H. symmetry. exact H. }
  rewrite Hv, dists_fin, nmean_fin by discriminate. now rewrite map_length.
Qed.

(** ** Regularisation *)
Lemma endswith_spec s t : endswith s t = true <-> exists pre, s = String.append pre t.
Proof.
  unfold endswith. rewrite andb_true_iff, Nat.leb_le, String.eqb_eq. split.
  - intros [Hl He]. exists (substring 0 (String.length s - String.length t) s).
    rewrite <- He at 2.
    assert (G : forall (s : string) k, (k <= String.length s)%nat -> s = String.append (substring 0 k s) (substring k (String.length s - k) s)).
    { clear. induction s as [|ch s IH]; intros k Hk; cbn in *.
      - destruct k; reflexivity.
      - destruct k; cbn; [f_equal; clear; induction s as [|c s IH]; cbn; congruence|]. f_equal. apply IH. lia. }
    rewrite (G s (String.length s - String.length t)%nat) at 1 by lia. do 2 f_equal. lia.
  - intros (pre & ->).
    assert (L : String.length (String.append pre t) = (String.length pre + String.length t)%nat).
    { clear. induction pre; cbn; congruence. }
    rewrite L. split; [lia|]. replace (String.length pre + String.length t - String.length t)%nat with (String.length pre) by lia.
    clear. induction pre as [|ch pre IH]; cbn; [|exact IH]. induction t as [|c t IH]; cbn; congruence.
Qed.

Section Reg.
  Context {P Opt : Type}.
  Variables (o : flow_oracles X P Opt) (p : P) (ts : list (option (list (string * list R)))).
  Hypothesis Hts : f_transforms o p = fin_transforms ts.

  Definition weight_rows : list (list R) :=
    flat_map (fun t => match t with None => [] | Some ps => map snd (filter (fun q => endswith (fst q) "weight") ps) end) ts.
  Lemma reg_params_fin : reg_params o p = map (map Fin) weight_rows.
  Proof.
    unfold reg_params, weight_rows. rewrite Hts. unfold fin_transforms. clear Hts.
    induction ts as [|[ps|] r IH]; cbn [map option_map flat_map concat app]; [reflexivity| |exact IH]. rewrite map_app, IH. f_equal.
    clear. induction ps as [|[n v] ps IH]; cbn [map filter fst snd option_map flat_map concat]; [reflexivity|]. destruct (endswith n "weight"); cbn [map filter fst snd flat_map concat app]; rewrite IH; reflexivity.
  Qed.
  Lemma weight_rows_concat : concat weight_rows = hyper_weights ts.
  Proof.
    unfold weight_rows, hyper_weights. clear Hts. induction ts as [|[ps|] r IH]; cbn [map option_map flat_map concat app]; [reflexivity| |exact IH].
    rewrite concat_app, IH. f_equal. clear. induction ps as [|[n v] ps IH]; cbn [map filter fst snd option_map flat_map concat]; [reflexivity|].
    destruct (endswith n "weight"); cbn [map filter fst snd flat_map concat app]; rewrite IH; reflexivity.
  Qed.
  Lemma fold_rows (f : X -> X) (g : R -> R) : (forall x, f (Fin x) = Fin (g x)) -> forall rows acc,
    fold_left (fun a w => @nadd X XNum a (@nsum X XNum (map f w))) (map (map Fin) rows) (Fin acc) = Fin (acc + Rsum (map g (concat rows))).
  Proof.
    intros Hf. induction rows as [|r rows IH]; intros acc; cbn [map fold_left concat].
    - cbn. f_equal. lra.
    - assert (E : map f (map Fin r) = map Fin (map g r)) by (rewrite !map_map; apply map_ext; auto).
      rewrite E, nsum_fin. change (@nadd X XNum (Fin acc) (Fin (Rsum (map g r)))) with (Fin (acc + Rsum (map g r))).
      rewrite IH, map_app, Rsum_app. f_equal. lra.
  Qed.

  Lemma regularization_fin (l g : option R) :
    match l with Some l => 0 < l | None => True end -> match g with Some g => g <> 0 | None => True end ->
    regularization_loss o p (option_map Fin l) (option_map Fin g) = Fin (- penalty l g (hyper_weights ts)).
  Proof.
    intros Hl Hg. unfold regularization_loss, penalty. rewrite reg_params_fin. change (fold_right Rplus 0) with Rsum. xnum.
    change (@nofZ X XNum 0) with (Fin 0).
    rewrite (fold_rows (@nabs X XNum) Rabs (fun x => eq_refl)).
    rewrite (fold_rows (@nsqr X XNum) (fun w => w ^ 2)) by (intros; cbn; f_equal; ring).
    rewrite weight_rows_concat, !Rplus_0_l.
    assert (D : forall a b, b <> 0 -> @nadd X XNum (Fin 0) (@ndiv X XNum (@nopp X XNum (Fin a)) (Fin b)) = Fin (- (a / b))).
    { intros a b Hb. cbn [nopp ndiv nadd XNum xopp]. rewrite xdiv_fin by exact Hb. cbn. f_equal. field. exact Hb. }
    assert (G : forall g, @nmul X XNum (@nofZ X XNum 2) (@nsqr X XNum (Fin g)) = Fin (2 * g ^ 2)) by (intros; cbn; f_equal; ring).
    destruct l as [l|], g as [g|]; cbn [option_map]; rewrite ?G.
    - rewrite D by lra. cbn [nopp ndiv nadd XNum xopp].
      assert (2 * g ^ 2 <> 0) by (pose proof (pow_nonzero g 2 Hg); lra). rewrite xdiv_fin by assumption. cbn [xadd]. f_equal. unfold Rdiv. ring.
    - rewrite D by lra. f_equal. lra.
    - assert (2 * g ^ 2 <> 0) by (pose proof (pow_nonzero g 2 Hg); lra). rewrite D by assumption. f_equal. lra.
    - f_equal. lra.
  Qed.
  Lemma penalty_nonneg (l g : option R) ws :
    match l with Some l => 0 < l | None => True end -> match g with Some g => g <> 0 | None => True end -> 0 <= penalty l g ws.
  Proof.
    intros Hl Hg. unfold penalty. change (fold_right Rplus 0) with Rsum.
    assert (0 <= Rsum (map Rabs ws)) by (apply Rsum_nonneg, Forall_map, Forall_forall; intros; apply Rabs_pos).
    assert (0 <= Rsum (map (fun w => w ^ 2) ws)) by (apply Rsum_nonneg, Forall_map, Forall_forall; intros; apply pow2_ge_0).
    assert (0 <= match l with Some l => Rsum (map Rabs ws) / l | None => 0 end).
    { destruct l; [|lra]. apply Rmult_le_pos; [assumption|]. left. now apply Rinv_0_lt_compat. }
    assert (0 <= match g with Some g => Rsum (map (fun w => w ^ 2) ws) / (2 * g ^ 2) | None => 0 end).
    { destruct g as [g|]; [|lra]. apply Rmult_le_pos; [assumption|]. left. apply Rinv_0_lt_compat.
      pose proof (pow2_gt_0 g Hg). lra. }
    lra.
  Qed.
  Lemma penalty_zero (l g : option R) ws :
    match l with Some l => 0 < l | None => True end -> match g with Some g => g <> 0 | None => True end ->
    l <> None \/ g <> None -> (penalty l g ws = 0 <-> Forall (fun w => w = 0) ws).
  Proof.
    intros Hl Hg Hs. split.
    - intros Hz.
      assert (N1 : Forall (fun x => 0 <= x) (map Rabs ws)) by (apply Forall_map, Forall_forall; intros; apply Rabs_pos).
      assert (N2 : Forall (fun x => 0 <= x) (map (fun w => w ^ 2) ws)) by (apply Forall_map, Forall_forall; intros; apply pow2_ge_0).
      pose proof (penalty_nonneg l None ws Hl I) as P1. pose proof (penalty_nonneg None g ws I Hg) as P2.
      unfold penalty in *. change (fold_right Rplus 0) with Rsum in *.
      destruct l as [l|].
      + assert (E : Rsum (map Rabs ws) = 0).
        { assert (Rsum (map Rabs ws) / l = 0) by (destruct g; lra). apply Rmult_integral in H. destruct H; [assumption|].
          pose proof (Rinv_0_lt_compat l Hl). lra. }
        apply Rsum_zero_all in E; [|exact N1]. apply Forall_map in E. apply (Forall_impl _ (P := fun w => Rabs w = 0)); [|exact E].
        intros a Ha. destruct (Req_dec a 0); [assumption|]. now apply Rabs_no_R0 in H.
      + destruct g as [g|]; [|destruct Hs; congruence].
        assert (E : Rsum (map (fun w => w ^ 2) ws) = 0).
        { assert (Rsum (map (fun w => w ^ 2) ws) / (2 * g ^ 2) = 0) by lra. apply Rmult_integral in H. destruct H; [assumption|].
          pose proof (pow2_gt_0 g Hg). pose proof (Rinv_0_lt_compat (2 * g ^ 2) ltac:(lra)). lra. }
        apply Rsum_zero_all in E; [|exact N2]. apply Forall_map in E. apply (Forall_impl _ (P := fun w => w ^ 2 = 0)); [|exact E].
        intros a Ha. destruct (Req_dec a 0); [assumption|]. now apply (pow_nonzero a 2) in H.
    - intros Hw. unfold penalty. change (fold_right Rplus 0) with Rsum.
      assert (E1 : Rsum (map Rabs ws) = 0).
      { induction Hw as [|a ws -> _ IH]; [reflexivity|]. cbn. rewrite IH, Rabs_R0. lra. }
      assert (E2 : Rsum (map (fun w => w ^ 2) ws) = 0).
      { clear E1. induction Hw as [|a ws -> _ IH]; [reflexivity|]. cbn in *. rewrite IH. lra. }
      destruct l, g; rewrite ?E1, ?E2; unfold Rdiv; lra.
  Qed.

  Lemma batch_loss_reg (c : fit_config X) (l g : option R) weighted xs b :
    c_laplace_scale c = option_map Fin l -> c_gaussian_scale c = option_map Fin g ->
    match l with Some l => 0 < l | None => True end -> match g with Some g => g <> 0 | None => True end ->
    batch_loss o c weighted xs b p = xadd (batch_loss o (no_scales c) weighted xs b p) (Fin (penalty l g (hyper_weights ts))).
  Proof.
    intros El Eg Hl Hg.
    pose proof (regularization_fin l g Hl Hg) as Hr.
    unfold batch_loss. rewrite El, Eg. cbn [no_scales c_laplace_scale c_gaussian_scale].
    set (base := if weighted then _ else _). clearbody base.
    assert (A : forall r, xsub base (Fin (- r)) = xadd base (Fin r)) by (intros; destruct base; cbn; try reflexivity; f_equal; lra).
    destruct l as [l|], g as [g|]; cbn [option_map] in *; rewrite ?Hr; xnum; try (change (@nsub X XNum) with xsub; rewrite A; reflexivity).
    unfold penalty. destruct base; cbn; try reflexivity. f_equal; lra.
  Qed.
End Reg.

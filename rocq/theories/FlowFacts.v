(** * Facts about flow.py *)
From Coq Require Import Reals ZArith String Bool Lia Lra Permutation.
From Coquelicot Require Import Coquelicot.
From Coq Require Import List.
From Verif Require Import Num PyBase PyBaseFacts XReal RList Flow SpecFlow.
Import ListNotations.

(** ** Width *)
Section Width.
  Local Open Scope Z_scope.
  Lemma next_power_of_2_spec n : 1 <= n -> exists k, 0 <= k /\ next_power_of_2 n = 2 ^ k /\ n <= 2 ^ k /\ (2 ^ k < 2 * n).
  Proof.
    intros Hn. unfold next_power_of_2. destruct (Z.eqb_spec n 0); [lia|].
    unfold bit_length. destruct (Z.eqb_spec (n - 1) 0) as [E|E].
    - exists 0. assert (n = 1) by lia. subst. repeat split; lia.
    - exists (Z.log2 (Z.abs (n - 1)) + 1). rewrite Z.abs_eq by lia.
      pose proof (Z.log2_nonneg (n - 1)). pose proof (Z.log2_spec (n - 1) ltac:(lia)) as [H1 H2].
      replace (Z.log2 (n - 1) + 1) with (Z.succ (Z.log2 (n - 1))) by lia.
      rewrite Z.pow_succ_r in * by lia. repeat split; lia.
  Qed.
  Lemma n_hidden_spec n : 0 <= n ->
    (exists k, 0 <= k /\ n_hidden n = 2 ^ k) /\ 32 <= n_hidden n /\ 3 * n <= n_hidden n /\ n_hidden n < 2 * Z.max 32 (3 * n).
  Proof.
    intros Hn. unfold n_hidden. destruct (Z.eq_dec n 0) as [->|Hz].
    - split; [exists 5; split; [lia|reflexivity]|]. cbn. lia.
    - destruct (next_power_of_2_spec (3 * n) ltac:(lia)) as (k & Hk & E & H1 & H2). rewrite E.
      split; [|lia]. destruct (Z.max_spec (2 ^ k) 32) as [[? ->]|[? ->]]; [exists 5; split; [lia|reflexivity]|exists k; auto].
  Qed.
End Width.

Lemma flow_init_names {P} n s (r : arch + P) : flow_init n (FName s) = Ok r <->
  exists f k, In k [3; 6; 12]%nat /\ s = name_of f k /\
    r = inl {| a_family := f; a_features := n; a_transforms := k; a_hidden := repeat (n_hidden n) 3;
               a_bins := match f with MAF => None | NSF => Some 8%nat end; a_residual := true |}.
Proof.
  split.
  - unfold flow_init.
    destruct (String.eqb_spec s "maf3") as [->|_]; [intros H; injection H as <-; exists MAF, 3%nat; split; [cbn; tauto|split; reflexivity]|].
    destruct (String.eqb_spec s "maf6") as [->|_]; [intros H; injection H as <-; exists MAF, 6%nat; split; [cbn; tauto|split; reflexivity]|].
    destruct (String.eqb_spec s "maf12") as [->|_]; [intros H; injection H as <-; exists MAF, 12%nat; split; [cbn; tauto|split; reflexivity]|].
    destruct (String.eqb_spec s "nsf3") as [->|_]; [intros H; injection H as <-; exists NSF, 3%nat; split; [cbn; tauto|split; reflexivity]|].
    destruct (String.eqb_spec s "nsf6") as [->|_]; [intros H; injection H as <-; exists NSF, 6%nat; split; [cbn; tauto|split; reflexivity]|].
    destruct (String.eqb_spec s "nsf12") as [->|_]; [intros H; injection H as <-; exists NSF, 12%nat; split; [cbn; tauto|split; reflexivity]|].
    discriminate.
  - intros (f & k & Hk & -> & ->). destruct f; destruct Hk as [<-|[<-|[<-|[]]]]; reflexivity.
Qed.
Lemma flow_init_other {P} n s : (forall f k, In k [3; 6; 12]%nat -> s <> name_of f k) -> flow_init (P:=P) n (FName s) = Err ValueError.
Proof.
  intros H. destruct (flow_init (P:=P) n (FName s)) as [r|e] eqn:E.
  - exfalso. apply flow_init_names in E. destruct E as (f & k & Hk & -> & _). exact (H f k Hk eq_refl).
  - unfold flow_init in E.
    repeat match type of E with context [String.eqb s ?c] => destruct (String.eqb_spec s c); [discriminate|] end. congruence.
Qed.

(** ** Lists *)
Lemma gather_nth {A} (l : list A) idx r d : gather l idx = Ok r -> r = map (fun i => nth i l d) idx.
Proof.
  unfold gather. intros Hg. apply mapM_Forall2 in Hg. induction Hg as [|i a idx r H _ IH]; [reflexivity|].
  cbn [map]. f_equal; [|exact IH].
  destruct (nth_error l i) eqn:E; cbn in H; [|discriminate]. injection H as <-. symmetry. now apply nth_error_nth.
Qed.
Lemma map_nth_seq {A} (l : list A) d : map (fun i => nth i l d) (seq 0 (length l)) = l.
Proof.
  apply nth_ext with (d := d) (d' := d); [now rewrite map_length, seq_length|].
  intros n Hn. rewrite map_length, seq_length in Hn.
  rewrite (nth_indep _ d (nth 0 l d)) by now rewrite map_length, seq_length.
  rewrite (map_nth (fun i => nth i l d)), seq_nth by lia. reflexivity.
Qed.
Lemma gather_perm {A} (l : list A) idx r : Permutation idx (seq 0 (length l)) -> gather l idx = Ok r -> Permutation r l.
Proof.
  intros Hp Hg.
  destruct l as [|d l]; [cbn in Hp; symmetry in Hp; apply Permutation_nil in Hp; subst; injection Hg as <-; constructor|].
  rewrite (gather_nth _ _ _ d Hg).
  transitivity (map (fun i => nth i (d :: l) d) (seq 0 (length (d :: l)))); [now apply Permutation_map|].
  rewrite map_nth_seq. reflexivity.
Qed.
Lemma gather_combine {A B} (a : list A) (b : list B) idx ra rb :
  length a = length b -> gather a idx = Ok ra -> gather b idx = Ok rb -> gather (combine a b) idx = Ok (combine ra rb).
Proof.
  intros Hl. unfold gather. revert ra rb. induction idx as [|i idx IH]; intros ra rb Ha Hb; cbn in *.
  { injection Ha as <-. injection Hb as <-. reflexivity. }
  destruct (nth_error a i) eqn:Ea; cbn in Ha; [|discriminate].
  destruct (mapM _ idx) as [ra'|] eqn:Ma in Ha; cbn in Ha; [|discriminate]. injection Ha as <-.
  destruct (nth_error b i) eqn:Eb; cbn in Hb; [|discriminate].
  destruct (mapM _ idx) as [rb'|] eqn:Mb in Hb; cbn in Hb; [|discriminate]. injection Hb as <-.
  assert (Ec : nth_error (combine a b) i = Some (a0, b0)).
  { clear -Ea Eb. revert a b Ea Eb. induction i; intros [|x a] [|y b] Ea Eb; cbn in *; try discriminate; [congruence|auto]. }
  rewrite Ec. cbn. rewrite (IH _ _ Ma Mb). reflexivity.
Qed.
Lemma chunks_concat {A} b : (0 < b)%nat -> forall fuel (l : list A), (length l <= fuel)%nat -> concat (chunks fuel b l) = l.
Proof.
  intros Hb. induction fuel as [|f IH]; intros l Hl; [destruct l; [reflexivity|cbn in Hl; lia]|].
  destruct l as [|a l]; [reflexivity|]. cbn [chunks concat]. rewrite IH.
  - apply firstn_skipn.
  - rewrite skipn_length. cbn [length] in *. lia.
Qed.
Lemma chunks_sizes {A} b : (0 < b)%nat -> forall fuel (l : list A), Forall (fun c => c <> [] /\ (length c <= b)%nat) (chunks fuel b l).
Proof.
  intros Hb. induction fuel as [|f IH]; intros l; [constructor|]. destruct l as [|a l]; [constructor|].
  cbn [chunks]. constructor; [|apply IH]. split; [destruct b; [lia|discriminate]|]. rewrite firstn_length. lia.
Qed.

(** ** Preparation of the data *)
Section Prepare.
  Context {T P Opt : Type} {NT : NumT T}.
  Variables (c : fit_config T) (rnd : fit_rand T).

  Lemma shuffled_perm {A} (l : list A) r : good_perm c rnd (length l) -> shuffled c rnd l = Ok r -> Permutation r l.
  Proof.
    unfold shuffled, good_perm. destruct (c_shuffle c); intros Hp H; [|injection H as <-; reflexivity].
    exact (gather_perm l _ r (Hp eq_refl) H).
  Qed.
  Lemma shuffled_combine {A B} (a : list A) (b : list B) ra rb : length a = length b ->
    shuffled c rnd a = Ok ra -> shuffled c rnd b = Ok rb -> shuffled c rnd (combine a b) = Ok (combine ra rb).
  Proof. unfold shuffled. destruct (c_shuffle c); [apply gather_combine|intros _; congruence]. Qed.
  Lemma gather_map {A B} (f : A -> B) l idx : gather (map f l) idx = match gather l idx with Ok r => Ok (map f r) | Err e => Err e end.
  Proof.
    unfold gather. induction idx as [|i idx IH]; [reflexivity|]. cbn. rewrite nth_error_map.
    destruct (nth_error l i); cbn; [|reflexivity]. rewrite IH. destruct (mapM (fun i0 : nat => of_option IndexError (nth_error l i0)) idx); reflexivity.
  Qed.
  Lemma shuffled_map {A B} (f : A -> B) l r : shuffled c rnd l = Ok r -> shuffled c rnd (map f l) = Ok (map f r).
  Proof. unfold shuffled. destruct (c_shuffle c); [|congruence]. rewrite gather_map. intros ->. reflexivity. Qed.

  Lemma tensor_dataset_ok (x : mat T) (w : option (vec T)) ds : tensor_dataset x w = Ok ds -> ds = weighted_samples x w.
  Proof. unfold tensor_dataset, SpecFlow.weighted_samples. destruct w; [destruct (Nat.eqb _ _)|]; congruence. Qed.

  (** the permuted samples, cut at k *)
  Lemma prepare_partition (x : mat T) (w : option (vec T)) train valid amp : good_perm c rnd (length x) ->
    match w with Some w => length w = length x | None => True end ->
    prepare c rnd x w = Ok (train, valid, amp) ->
    exists perm, Permutation perm (weighted_samples x w) /\
      match valid with
      | None => (nofZ 0 <? c_validation_split c)%num = false /\ train = perm
      | Some v => (nofZ 0 <? c_validation_split c)%num = true /\
          exists k, ntrunc (c_validation_split c * nofZ (Z.of_nat (length x)))%num = Some k /\
            train = firstn (Z.to_nat k) perm /\ v = skipn (Z.to_nat k) perm
      end.
  Proof.
    intros Hg Hw. unfold prepare.
    destruct (shuffled c rnd x) as [x'|] eqn:Ex; cbn [bind]; [|discriminate].
    pose proof (shuffled_perm x x' Hg Ex) as Px. pose proof (Permutation_length Px) as Lx.
    match goal with |- bind ?m _ = _ -> _ => destruct m as [w''|] eqn:Ew; cbn [bind]; [|discriminate] end.
    assert (HP : Permutation (weighted_samples x' w'') (weighted_samples x w)).
    { destruct w as [w|]; [|injection Ew as <-; cbn; apply Permutation_map; exact Px].
      destruct (shuffled c rnd w) as [w0|] eqn:Esw; cbn [bind] in Ew; [|discriminate]. injection Ew as <-. cbn.
      apply (shuffled_map Some) in Esw.
      assert (Hl : length x = length (map Some w)) by now rewrite map_length, Hw.
      pose proof (shuffled_combine x (map Some w) _ _ Hl Ex Esw) as Hc.
      apply shuffled_perm in Hc; [exact Hc|]. rewrite combine_length, <- Hl, Nat.min_id. exact Hg. }
    match goal with |- bind ?m _ = _ -> _ => destruct m as [amp'|]; cbn [bind]; [|discriminate] end.
    unfold split. rewrite Lx.
    destruct (nofZ 0 <? c_validation_split c)%num eqn:Es.
    - destruct (ntrunc _) as [k|] eqn:Et; cbn [of_option bind]; [|discriminate].
      destruct (tensor_dataset (slice_to k x') _) as [tr|] eqn:E1; cbn [bind]; [|discriminate].
      destruct (tensor_dataset (slice_from k x') _) as [va|] eqn:E2; cbn [bind]; [|discriminate].
      destruct (0 <? c_batch_size c)%Z; cbn [bind]; [|discriminate]. intros H. injection H as <- <- <-.
      exists (weighted_samples x' w''). split; [exact HP|]. split; [reflexivity|]. exists k. split; [reflexivity|].
      apply tensor_dataset_ok in E1, E2. subst tr va. unfold slice_to, slice_from, weighted_samples.
      destruct w'' as [w''|]; cbn [option_map].
      + rewrite <- !firstn_map, <- !skipn_map. split.
        * rewrite combine_firstn. reflexivity.
        * clear. generalize (Z.to_nat k) (map Some w''). intros n m. revert x' m. induction n; intros [|a x'] [|b m]; cbn; auto.
          now destruct (skipn n x').
      + split; [now rewrite firstn_map|now rewrite skipn_map].
    - destruct (tensor_dataset x' w'') as [tr|] eqn:E1; cbn [bind]; [|discriminate].
      destruct (0 <? c_batch_size c)%Z; cbn [bind]; [|discriminate]. intros H. injection H as <- <- <-.
      exists (weighted_samples x' w''). split; [exact HP|]. split; [reflexivity|]. now apply tensor_dataset_ok.
  Qed.

  (** each epoch goes through the data set once *)
  Lemma loader_partition ds valid epoch bs : (0 < c_batch_size c)%Z ->
    (c_shuffle c = true -> Permutation (fr_loader rnd valid epoch) (seq 0 (length ds))) ->
    loader c rnd ds valid epoch = Ok bs ->
    Permutation (concat bs) ds /\ Forall (fun b => b <> [] /\ (length b <= Z.to_nat (c_batch_size c))%nat) bs.
  Proof.
    intros Hb Hp. unfold loader.
    match goal with |- bind ?m _ = _ -> _ => destruct m as [l|] eqn:E; cbn [bind]; [|discriminate] end. intros H. injection H as <-.
    rewrite chunks_concat by lia. split; [|apply chunks_sizes; lia].
    destruct (c_shuffle c); [exact (gather_perm ds _ l (Hp eq_refl) E)|injection E as <-; reflexivity].
  Qed.
End Prepare.

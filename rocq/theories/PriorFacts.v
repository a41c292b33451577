(** * Proofs about the prior *)
From Coq Require Import Reals ZArith List Bool Lra Lia.
From Verif Require Import Num PyBase PyBaseFacts XReal Prior SpecTools TrimFacts.
Import ListNotations.

Section P.
  Context {T : Type} {N : Num T}.

  Lemma logpdf_loop_ok dists : forall i ncols (x : mat T) logp,
    (i + length dists <= ncols)%nat -> Forall (fun row => length row = ncols) x -> length logp = length x ->
    logpdf_loop i dists ncols x logp =
      Ok (map2 (fun a row => fold_left (fun acc p => nadd acc (d_logpdf (fst p) (snd p))) (combine dists (skipn i row)) a) logp x).
  Proof.
    induction dists as [|d dists IH]; intros i ncols x logp H1 H2 H3; simpl.
    - f_equal. clear -H3. revert x H3; induction logp; intros [|r x] H; simpl in *; try lia; auto. f_equal. apply IHlogp. lia.
    - simpl in H1. destruct (Nat.ltb_spec i ncols); [|lia].
      assert (HL : length (vadd logp (map (d_logpdf d) (col x i))) = length x).
      { unfold vadd. apply map2_length_eq; auto. unfold col. now rewrite !map_length. }
      rewrite IH; [|lia|assumption|exact HL].
      f_equal. clear IH HL. revert x H2 H3. induction logp as [|a logp IHl]; intros [|r x] H2 H3; simpl in *; try lia; auto.
      inversion H2; subst. f_equal; [|apply IHl; auto].
      assert (E : skipn i r = nth i r (nofZ 0) :: skipn (S i) r).
      { clear -H. revert i H. induction r as [|b r IH]; intros [|i] H; cbn [length] in H; try lia; auto. apply (IH i). lia. }
      rewrite E. reflexivity.
  Qed.

  Lemma logpdf_loop_err dists : forall i ncols (x : mat T) logp, (i <= ncols)%nat -> (ncols < i + length dists)%nat ->
    logpdf_loop i dists ncols x logp = Err IndexError.
  Proof.
    induction dists as [|d dists IH]; intros i ncols x logp H0 H1; simpl in *; [lia|].
    destruct (Nat.ltb_spec i ncols); [|reflexivity]. apply IH; lia.
  Qed.

  Lemma logpdf_spec dists ncols (x : mat T) : Forall (fun row => length row = ncols) x ->
    ((length dists <= ncols)%nat ->
       logpdf dists ncols x = Ok (map (fun row => fold_left (fun acc p => nadd acc (d_logpdf (fst p) (snd p))) (combine dists row) (nofZ 0)) x)) /\
    ((ncols < length dists)%nat -> logpdf dists ncols x = Err IndexError).
  Proof.
    intros HX. split; intros H; unfold logpdf.
    - rewrite logpdf_loop_ok by (auto; rewrite ?map_length; auto; lia). f_equal. clear. induction x as [|a x IH]; [reflexivity|]. cbn [map map2]. now f_equal.
    - apply logpdf_loop_err; lia.
  Qed.

  Lemma transpose_ok (blocks : list (list T)) size : blocks <> [] -> Forall (fun b => length b = size) blocks ->
    transpose blocks = Ok (map (fun k => map (fun c => nth k c (nofZ 0)) blocks) (seq 0 size)).
  Proof.
    intros Hne HF. unfold transpose. destruct blocks as [|b blocks]; [easy|].
    assert (Hb : length b = size) by now inversion HF. rewrite Hb.
    match goal with |- (if ?c then _ else _) = _ => replace c with true; [reflexivity|] end.
    symmetry. apply forallb_forall. intros c Hc. apply Nat.eqb_eq. eapply Forall_forall in HF; eauto.
  Qed.

  Lemma rvs_spec draw (dists : list (dist T)) size : dists <> [] -> (forall i, length (draw i size) = size) ->
    exists m, rvs draw dists size = Ok m /\ length m = size /\
      Forall (fun row => length row = length dists) m /\
      forall i, (i < length dists)%nat -> col m i = draw i size.
  Proof.
    intros Hne HL.
    set (blocks := map (fun i => draw i size) (seq 0 (length dists))).
    assert (Lb : length blocks = length dists) by (unfold blocks; now rewrite map_length, seq_length).
    change (rvs draw dists size) with (transpose blocks).
    rewrite (transpose_ok blocks size).
    2:{ intros E. apply Hne. rewrite E in Lb. now destruct dists. }
    2:{ unfold blocks. apply Forall_map, Forall_forall. auto. }
    eexists; split; [reflexivity|]. split; [now rewrite map_length, seq_length|]. split.
    - apply Forall_map. apply Forall_forall. intros k _. now rewrite map_length.
    - intros i Hi. unfold col. rewrite map_map.
      assert (E : forall k, nth i (map (fun c => nth k c (nofZ 0)) blocks) (nofZ 0) = nth k (draw i size) (nofZ 0)).
      { intros k. assert (Eb : nth i blocks (draw 0%nat size) = draw i size).
        { unfold blocks. rewrite (map_nth (fun i => draw i size) _ 0%nat), seq_nth by lia. reflexivity. }
        rewrite (nth_indep _ (nofZ 0) (nth k (draw 0%nat size) (nofZ 0))).
        - rewrite (map_nth (fun c => nth k c (nofZ 0))). now rewrite Eb.
        - rewrite map_length. lia. }
      transitivity (map (fun k => nth k (draw i size) (nofZ 0)) (seq 0 size)); [apply map_ext; auto|].
      specialize (HL i). clear -HL. revert HL. generalize (draw i size) as l. revert size.
      intros size l; revert size; induction l as [|a l IH]; intros [|s] H; simpl in *; try lia; auto.
      f_equal. rewrite <- seq_shift, map_map. apply IH. lia.
  Qed.
End P.

Open Scope R_scope.
Lemma logpdf_real (dists : list (dist X)) ncols (x : list (list X)) (lp : list (list R)) :
  Forall (fun row => length row = ncols) x -> (length dists <= ncols)%nat ->
  Forall2 (fun row l => map2 d_logpdf dists row = map Fin l) x lp ->
  logpdf dists ncols x = Ok (map (fun l => Fin (total l)) lp).
Proof.
  intros H1 H2 H3. destruct (logpdf_spec dists ncols x H1) as [E _]. rewrite E by assumption. clear E. f_equal.
  induction H3 as [|row l x lp Hr H3 IH]; [reflexivity|]. cbn [map]. inversion H1; subst. rewrite IH by assumption. f_equal.
  clear -Hr. unfold total. change (@nofZ X XNum 0) with (Fin 0). generalize 0. revert row l Hr. induction dists as [|d dists IHd]; intros [|v row] [|b l] Hr z; try discriminate; auto.
  cbn [map2 map] in Hr. injection Hr as E1 E2. cbn [combine fold_left fst snd]. rewrite E1. change (nadd (Fin z) (Fin b)) with (Fin (z + b)). now apply IHd.
Qed.

(** * Facts about the scaler that hold for every arithmetic *)
From Coq Require Import ZArith List Bool Lia.
From Verif Require Import Num PyBase PyBaseFacts Scaler.
Import ListNotations.

Section S.
  Context {T : Type} {NT : NumT T}.

  (** what forward / inverse do to one coordinate *)
  Definition fwd1 (t : transf) (lo hi x : T) : T :=
    match kind_of lo hi with
    | KNone => x
    | KLeft => nlog (nsub x lo)
    | KRight => nlog (nsub hi x)
    | KBoth => forward_both1 t x lo hi
    end.
  Definition inv1 (t : transf) (lo hi u : T) : T * T :=
    match kind_of lo hi with
    | KNone => (u, nofZ 0)
    | KLeft => (nadd (nexp u) lo, u)
    | KRight => (nsub hi (nexp u), u)
    | KBoth => inverse_both1 t u lo hi
    end.
  Fixpoint map3' {A B C D} (f : A -> B -> C -> D) (a : list A) (b : list B) (c : list C) : list D :=
    match a, b, c with x :: a', y :: b', z :: c' => f x y z :: map3' f a' b' c' | _, _, _ => [] end.

  Record wf (r : reparam T) : Prop := {
    wf_low : length (low r) = ndim r; wf_high : length (high r) = ndim r;
    wf_none : mask_none r = map is_none (map2 kind_of (low r) (high r));
    wf_left : mask_left r = map is_left (map2 kind_of (low r) (high r));
    wf_right : mask_right r = map is_right (map2 kind_of (low r) (high r));
    wf_both : mask_both r = map is_both (map2 kind_of (low r) (high r)) }.

  Lemma map3'_map2 {A B C D} (f : A -> B -> C -> D) a b c :
    map3 f a b c = map3' f a b c.
  Proof.
    unfold map3. revert b c; induction a; intros [|y b] [|z c]; simpl; auto. now rewrite IHa.
  Qed.

  Lemma forward0_row_spec r junk x : wf r -> length x = ndim r -> length junk = ndim r ->
    forward0_row r junk x = Ok (map3' (fwd1 (transform r)) (low r) (high r) x).
  Proof.
    intros W Hx Hj. destruct W as [Wl Wh Wn Wle Wr Wb].
    unfold forward0_row, check_cols. rewrite Hx, Nat.eqb_refl. simpl bind.
    assert (HK : length (map2 kind_of (low r) (high r)) = ndim r) by (now apply map2_length_eq).
    set (K := map2 kind_of (low r) (high r)) in *.
    unfold forward_none, forward_left, forward_right, forward_both, map3.
    rewrite Wn, Wle, Wr, Wb. 
    rewrite <- compress_combine'. rewrite <- !compress_map2; try (rewrite map_length, ?combine_length; lia).
    rewrite scatter_compress by (rewrite map_length; lia). simpl bind.
    rewrite scatter_compress. 2: rewrite map_length; rewrite (map2_length_eq _ _ _ (ndim r)); lia.
    2:{ rewrite (where_length _ _ _ (ndim r)); rewrite ?map_length; lia. }
    simpl bind. rewrite scatter_compress. 2: rewrite map_length; rewrite (map2_length_eq _ _ _ (ndim r)); lia.
    2:{ rewrite (where_length _ _ _ (ndim r)); rewrite ?map_length; try lia. now apply map2_length_eq.
        apply where_length; rewrite ?map_length; lia. }
    simpl bind. rewrite scatter_compress.
    2: rewrite map_length; rewrite (map2_length_eq _ _ _ (ndim r)); rewrite ?combine_length; lia.
    2:{ rewrite (where_length _ _ _ (ndim r)); rewrite ?map_length; try lia. now apply map2_length_eq.
        apply where_length; rewrite ?map_length; try lia. now apply map2_length_eq.
        apply where_length; rewrite ?map_length; lia. }
    f_equal. unfold K. clear Wn Wle Wr Wb K HK.
    revert Wl Wh Hx Hj. generalize (ndim r). generalize (high r). generalize (low r).
    intros lo; revert x junk; induction lo as [|l lo IH]; intros [|a x] [|j junk] [|h hi] n H1 H2 H3 H4; simpl in *; subst; try lia; auto.
    rewrite <- (IH x junk hi (length lo)) by lia.
    unfold fwd1. destruct (kind_of l h); reflexivity.
  Qed.

  Lemma inverse0_row_spec r junk u : wf r -> length u = ndim r -> length junk = ndim r ->
    inverse0_row r junk u =
      Ok (map fst (map3' (inv1 (transform r)) (low r) (high r) u),
          nsum (map snd (map3' (inv1 (transform r)) (low r) (high r) u))).
  Proof.
    intros W Hx Hj. destruct W as [Wl Wh Wn Wle Wr Wb].
    unfold inverse0_row, check_cols. rewrite Hx, Nat.eqb_refl. simpl bind.
    assert (HK : length (map2 kind_of (low r) (high r)) = ndim r) by (now apply map2_length_eq).
    set (K := map2 kind_of (low r) (high r)) in *.
    unfold inverse_none, inverse_left, inverse_right, inverse_both, map3. cbn [fst snd].
    rewrite Wn, Wle, Wr, Wb. 
    rewrite <- compress_combine'. rewrite <- !compress_map2; try (rewrite map_length, ?combine_length; lia).
    rewrite <- !compress_map.
    set (ML := map2 (fun u l => nadd (nexp u) l) u (low r)).
    set (MR := map2 (fun u h => nsub h (nexp u)) u (high r)).
    set (MB := map2 (fun ab c => inverse_both1 (transform r) (fst ab) (snd ab) c) (combine u (low r)) (high r)).
    assert (LL : length ML = ndim r) by (now apply map2_length_eq).
    assert (LR : length MR = ndim r) by (now apply map2_length_eq).
    assert (LB : length MB = ndim r) by (apply map2_length_eq; rewrite ?combine_length; lia).
    assert (LM : forall f : bkind -> bool, length (map f K) = ndim r) by (intros; now rewrite map_length).
    assert (L0 : length (map (fun _ : T => nofZ 0) u) = ndim r) by (now rewrite map_length).
    assert (LB1 : length (map fst MB) = ndim r) by (now rewrite map_length).
    assert (LB2 : length (map snd MB) = ndim r) by (now rewrite map_length).
    assert (E : forall f (ys base : list T), length ys = ndim r -> length base = ndim r ->
       scatter (map f K) (compress (map f K) ys) base = Ok (where_ (map f K) ys base)).
    { intros. apply scatter_compress; rewrite LM; auto. }
    assert (W : forall f (ys base : list T), length ys = ndim r -> length base = ndim r ->
       length (where_ (map f K) ys base) = ndim r).
    { intros. apply where_length; auto. }
    repeat (rewrite E by (repeat (apply W || assumption)); cbn [bind]).
    assert (G : forall (A B : list T) C, A = map fst C -> B = map snd C -> Ok (A, nsum B) = Ok (map fst C, nsum (map snd C))).
    { intros; subst; reflexivity. }
    apply G; clear G E W LM.
    - unfold K, ML, MR, MB in *. clear -Wl Wh Hx Hj.
      revert Wl Wh Hx Hj. generalize (ndim r). generalize (high r). generalize (low r).
      intros lo; revert u junk; induction lo as [|l lo IH]; intros [|a x] [|j junk] [|h hi] n H1 H2 H3 H4; simpl in *; subst; try lia; auto.
      rewrite <- (IH x junk hi (length lo)) by lia.
      unfold inv1. destruct (kind_of l h); reflexivity.
    - unfold K, ML, MR, MB in *. clear -Wl Wh Hx Hj.
      revert Wl Wh Hx Hj. generalize (ndim r). generalize (high r). generalize (low r).
      intros lo; revert u junk; induction lo as [|l lo IH]; intros [|a x] [|j junk] [|h hi] n H1 H2 H3 H4; simpl in *; subst; try lia; auto.
      rewrite <- (IH x junk hi (length lo)) by lia.
      unfold inv1. destruct (kind_of l h); reflexivity.
  Qed.

  Lemma init_wf f n b p rf t s d r : init_reparam f n b p rf t s d = Ok r ->
    (forall fl rows, b = BArray fl rows -> length rows = n) -> wf r.
  Proof.
    unfold init_reparam. intros H HB.
    set (rr := match b with BNone => _ | BPair lo hi => _ | BArray true rows => _ | BArray false _ => _ | BList => _ end) in H.
    destruct rr as [rows|e] eqn:E; [|discriminate]. cbn [bind] in H.
    assert (HL : length rows = n).
    { unfold rr in E. destruct b as [|lo hi|[] rows'|]; try discriminate.
      - injection E as <-. apply repeat_length.
      - injection E as <-. apply repeat_length.
      - injection E as <-. eapply HB. reflexivity. }
    destruct t; try discriminate; cbn [bind] in H; rewrite HL, Nat.ltb_irrefl in H; cbn [bind] in H; injection H as <-;
      constructor; cbn; rewrite ?map_length; auto;
      apply firstn_all2; rewrite map_length, map2_length, !map_length; lia.
  Qed.
End S.

(** * Facts about Sampler._log_like *)
From Coq Require Import List Bool Arith Lia.
From Verif Require Import Num PyBase PyBaseFacts LogLike Parallel PoolFacts.
Import ListNotations.

Section Facts.
  Context {T C : Type}.
  Implicit Types (rs : list (lret T C)) (xs : mat T).

  Lemma split_scalar (f : vec T -> T) xs : split_results (map (fun x => RScalar (C:=C) (f x)) xs) = Ok (map f xs, None).
  Proof.
    unfold split_results.
    assert (Hm : mapM as_float (map (fun x => RScalar (C:=C) (f x)) xs) = Ok (map f xs)).
    { induction xs as [|x xs IH]; [reflexivity|]. cbn [map mapM as_float bind]. rewrite IH. reflexivity. }
    rewrite Hm. destruct xs as [|x xs]; reflexivity.
  Qed.
  Lemma split_array1 (f : vec T -> T) xs : split_results (map (fun x => RArray1 (C:=C) (f x)) xs) = Ok (map f xs, None).
  Proof.
    unfold split_results.
    assert (Hm : mapM as_float (map (fun x => RArray1 (C:=C) (f x)) xs) = Ok (map f xs)).
    { induction xs as [|x xs IH]; [reflexivity|]. cbn [map mapM as_float bind]. rewrite IH. reflexivity. }
    assert (Hs : existsb is_scalar (map (fun x => RArray1 (C:=C) (f x)) xs) = false).
    { clear. induction xs; auto. }
    assert (Hb : flat_map blob_of (map (fun x => RArray1 (C:=C) (f x)) xs) = []).
    { clear. induction xs; auto. }
    rewrite Hs, Hb, Hm. reflexivity.
  Qed.

  (** likelihood returning a tuple (logl, blobs) at each point *)
  Lemma split_tuple (f : vec T -> T) (b : vec T -> list C) xs :
    (forall x, In x xs -> b x <> []) -> xs <> [] ->
    split_results (map (fun x => RTuple (f x) (b x)) xs) = Ok (map f xs, Some (map b xs)).
  Proof.
    intros Hb Hx. unfold split_results.
    assert (Hs : existsb is_scalar (map (fun x => RTuple (f x) (b x)) xs) = false).
    { clear. induction xs; auto. }
    assert (Hf : flat_map blob_of (map (fun x => RTuple (f x) (b x)) xs) = map b xs).
    { clear Hx Hs. induction xs as [|x xs IH]; [reflexivity|]. cbn [map flat_map]. rewrite IH by (intros; apply Hb; now right).
      assert (b x <> []) by (apply Hb; now left). unfold blob_of. destruct (b x); [congruence|reflexivity]. }
    assert (Hm : mapM first_of (map (fun x => RTuple (f x) (b x)) xs) = Ok (map f xs)).
    { clear. induction xs as [|x xs IH]; [reflexivity|]. cbn [map mapM first_of bind]. rewrite IH. reflexivity. }
    rewrite Hs, Hf, Hm. destruct xs; [congruence|]. reflexivity.
  Qed.
  Lemma split_tuple_mixed (f : vec T -> T) (b : vec T -> list C) xs :
    (exists x, In x xs /\ b x <> []) ->
    split_results (map (fun x => RTuple (f x) (b x)) xs) =
      Ok (map f xs, Some (filter (fun l => match l with [] => false | _ => true end) (map b xs))).
  Proof.
    intros (x0 & Hx0 & Hb0). unfold split_results.
    assert (Hs : existsb is_scalar (map (fun x => RTuple (f x) (b x)) xs) = false).
    { clear. induction xs; auto. }
    assert (Hf : flat_map blob_of (map (fun x => RTuple (f x) (b x)) xs)
                 = filter (fun l => match l with [] => false | _ => true end) (map b xs)).
    { clear. induction xs as [|x xs IH]; [reflexivity|]. cbn [map flat_map filter]. rewrite IH.
      unfold blob_of. destruct (b x); reflexivity. }
    assert (Hm : mapM first_of (map (fun x => RTuple (f x) (b x)) xs) = Ok (map f xs)).
    { clear. induction xs as [|x xs IH]; [reflexivity|]. cbn [map mapM first_of bind]. rewrite IH. reflexivity. }
    rewrite Hs, Hf, Hm.
    destruct (filter _ (map b xs)) eqn:E; [|reflexivity].
    exfalso. assert (Hin : In (b x0) (filter (fun l => match l with [] => false | _ => true end) (map b xs))).
    { apply filter_In. split; [now apply in_map|]. destruct (b x0); congruence. }
    rewrite E in Hin. contradiction.
  Qed.
  Lemma filter_shorter {A} (p : A -> bool) l a : In a l -> p a = false -> length (filter p l) < length l.
  Proof.
    induction l as [|c l IH]; [easy|]. intros [->|H] Hp; cbn.
    - rewrite Hp. clear. induction l as [|c l IH]; cbn; [lia|]. destruct (p c); cbn in *; lia.
    - specialize (IH H Hp). destruct (p c); cbn; lia.
  Qed.
  Lemma split_tuple_bare (f : vec T -> T) xs : xs <> [] ->
    split_results (map (fun x => RTuple (C:=C) (f x) []) xs) = Err TypeError.
  Proof.
    intros Hx. unfold split_results.
    assert (Hs : existsb is_scalar (map (fun x => RTuple (C:=C) (f x) []) xs) = false).
    { clear. induction xs; auto. }
    assert (Hf : flat_map blob_of (map (fun x => RTuple (C:=C) (f x) []) xs) = []).
    { clear. induction xs; auto. }
    rewrite Hs, Hf. destruct xs; [congruence|]. reflexivity.
  Qed.

  Lemma agree (f : vec T -> T) (vlike : mat T -> vec T) (array : bool) pool_map xs :
    (forall (g : vec T -> lret T C) ys, pool_map g ys = map g ys) -> (forall ys, vlike ys = map f ys) ->
    let like x := if array then RArray1 (f x) else RScalar (f x) in
    log_like false vlike like None xs = Ok (map f xs, None) /\
    log_like false vlike like (Some pool_map) xs = Ok (map f xs, None) /\
    log_like true vlike like None xs = Ok (map f xs, None) /\
    log_like true vlike like (Some pool_map) xs = Ok (map f xs, None).
  Proof.
    intros Hp Hv like. unfold log_like. rewrite Hp, Hv.
    assert (H : split_results (map like xs) = Ok (map f xs, None)) by (unfold like; destruct array; [apply split_array1|apply split_scalar]).
    repeat split; auto.
  Qed.
  Lemma misaligned (f : vec T -> T) (b : vec T -> list C) vlike xs :
    (exists x, In x xs /\ b x <> []) -> (exists x, In x xs /\ b x = []) ->
    exists bl, log_like false vlike (fun x => RTuple (f x) (b x)) None xs = Ok (map f xs, Some bl) /\
      bl = filter (fun l => match l with [] => false | _ => true end) (map b xs) /\ length bl < length xs.
  Proof.
    intros H1 (x & Hx & Hb). eexists. split; [apply (split_tuple_mixed f b xs H1)|]. split; [reflexivity|].
    rewrite <- (map_length b xs). apply filter_shorter with (a := b x); [now apply in_map|]. now rewrite Hb.
  Qed.

  (** an MPI pool that returned gives the serial result *)
  Lemma mpi_map_serial ws (g : vec T -> lret T C) xs wk0 p rs :
    NoDup ws -> ready ws wk0 -> reachable ws g (start_map ws xs wk0) p -> ph p = Returned ->
    resl p = map Some rs -> rs = map g xs.
  Proof.
    intros H1 H2 H3 H4 H5. rewrite (pool_61_results_in_task_order ws g xs wk0 p H1 H2 H3 H4) in H5.
    clear -H5. revert rs H5. induction xs as [|x xs IH]; intros [|r rs] H; cbn in *; try discriminate; [reflexivity|].
    injection H as H0 H. f_equal; [congruence|]. auto.
  Qed.
End Facts.

(** * Property theorems for Sampler._log_like (C64, C65) *)
From Coq Require Import List Bool Arith Lia.
From Verif Require Import Num PyBase PyBaseFacts LogLike LogLikeFacts Parallel PoolFacts.
Import ListNotations.

(** Likelihood without blobs (a number, or a one-element array, per point):
    serial, any order-preserving pool, vectorised.  Any number type. *)
Theorem C64_serial_pool_vectorised_agree {T C} (f : vec T -> T) (vlike : mat T -> vec T) (array : bool)
    (pool_map : (vec T -> lret T C) -> mat T -> list (lret T C)) (xs : mat T) :
  (forall g ys, pool_map g ys = map g ys) -> (forall ys, vlike ys = map f ys) ->
  let like x := if array then RArray1 (f x) else RScalar (f x) in
  log_like false vlike like None xs = Ok (map f xs, None) /\
  log_like false vlike like (Some pool_map) xs = Ok (map f xs, None) /\
  log_like true vlike like None xs = Ok (map f xs, None) /\
  log_like true vlike like (Some pool_map) xs = Ok (map f xs, None).
Proof. exact (agree f vlike array pool_map xs). Qed.
Print Assumptions C64_serial_pool_vectorised_agree.

(** Whatever the likelihood returns - blobs or malformed results included -
    an order-preserving pool changes nothing, exceptions included. *)
Theorem C64_pool_any_result {T C} (like : vec T -> lret T C) vlike pool_map (xs : mat T) :
  (forall g ys, pool_map g ys = map g ys) ->
  log_like false vlike like (Some pool_map) xs = log_like false vlike like None xs.
Proof. exact (fun Hp => f_equal split_results (Hp like xs)). Qed.
Print Assumptions C64_pool_any_result.

(** The MPI pool of parallel.py is order preserving, whatever the
    interleaving: the list its map returns gives the serial result. *)
Theorem C64_mpi_pool {T C} (ws : list nat) (like : vec T -> lret T C) vlike (xs : mat T) wk0 p results :
  NoDup ws -> ready ws wk0 -> reachable ws like (start_map ws xs wk0) p -> ph p = Returned ->
  resl p = map Some results ->
  split_results results = log_like false vlike like None xs.
Proof. exact (fun H1 H2 H3 H4 H5 => f_equal split_results (mpi_map_serial ws like xs wk0 p results H1 H2 H3 H4 H5)). Qed.
Print Assumptions C64_mpi_pool.

(** Every point has at least one blob: one row per point, in input order. *)
Theorem C65_blobs_aligned {T C} (f : vec T -> T) (b : vec T -> list C) vlike (xs : mat T) :
  (forall x, In x xs -> b x <> []) -> xs <> [] ->
  log_like false vlike (fun x => RTuple (f x) (b x)) None xs = Ok (map f xs, Some (map b xs)).
Proof. exact (split_tuple f b xs). Qed.
Print Assumptions C65_blobs_aligned.

(** Finding: when some points have a blob and some do not, the blobs are those
    of the points that have one, in order: a shorter, misaligned array. *)
Theorem C65_blobs_misaligned {T C} (f : vec T -> T) (b : vec T -> list C) vlike (xs : mat T) :
  (exists x, In x xs /\ b x <> []) -> (exists x, In x xs /\ b x = []) ->
  exists bl, log_like false vlike (fun x => RTuple (f x) (b x)) None xs = Ok (map f xs, Some bl) /\
    bl = filter (fun l => match l with [] => false | _ => true end) (map b xs) /\ length bl < length xs.
Proof. exact (misaligned f b vlike xs). Qed.
Print Assumptions C65_blobs_misaligned.

Theorem C65_bare_tuple_raises {T C} (f : vec T -> T) vlike (xs : mat T) : xs <> [] ->
  log_like false vlike (fun x => RTuple (C:=C) (f x) []) None xs = Err TypeError.
Proof. exact (split_tuple_bare f xs). Qed.
Print Assumptions C65_bare_tuple_raises.

Example C64_case : (forall (g : vec nat -> lret nat nat) ys, (fun g ys => map g ys) g ys = map g ys)
  /\ (forall ys, map (@length nat) ys = map (@length nat) ys).
Proof. split; reflexivity. Qed.
Example C64_mpi_case : exists p, reachable (seq 1 3) (fun x => RScalar (C:=nat) (length x)) (start_map (seq 1 3) [[1]; [2; 3]; []] (fun _ => idle)) p /\
  ph p = Returned /\ resl p = map Some [RScalar 1; RScalar 2; RScalar 0].
Proof.
  destruct (pool_62_can_return (seq 1 3) (fun x => RScalar (C:=nat) (length x)) [[1]; [2; 3]; []] (fun _ => idle)
    (seq_NoDup 3 1) ltac:(discriminate) (fun w _ => eq_refl)) as (p & Hp & Hr).
  exists p. split; [exact Hp|]. split; [exact Hr|].
  rewrite (pool_61_results_in_task_order (seq 1 3) _ [[1]; [2; 3]; []] (fun _ => idle) p (seq_NoDup 3 1) (fun w _ => eq_refl) Hp Hr).
  reflexivity.
Qed.
Example C65_case : (forall x, In x [[1]; [2; 5]] -> (fun x : list nat => [x]) x <> []) /\ [[1]; [2; 5]] <> [].
Proof. split; [intros; discriminate|discriminate]. Qed.
Example C65_misaligned_case : log_like false (fun _ => []) (fun x => RTuple (hd 0 x) (tl x)) None [[1]; [2; 5]; [3]; [4; 6]]
  = Ok ([1; 2; 3; 4], Some [[5]; [6]]).
Proof. reflexivity. Qed.

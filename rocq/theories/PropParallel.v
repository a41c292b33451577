(** * Property theorems for parallel.py (C61 - C63) *)
From Coq Require Import List Bool Arith Lia Permutation.
From Verif Require Import PyBase Parallel ParallelFacts CloseFacts PoolFacts.
Import ListNotations.

(** The set of workers the constructor builds: never empty, no repetition;
    ranks other than 0 never become a master. *)
Theorem C61_workers (rank size : nat) : rank < size -> init_pool rank size =
  if Nat.eqb rank 0 then (if Nat.eqb size 1 then Err ValueError else Ok (RMaster (seq 1 (size - 1)))) else Ok RWorker.
Proof. exact (init_pool_spec rank size). Qed.
Print Assumptions C61_workers.

(** Any state reached by any interleaving in which map has returned. *)
Theorem C61_results_in_task_order {A R} (ws : list nat) (func : A -> R) (tasks : list A) wk0 p :
  NoDup ws -> ready ws wk0 -> reachable ws func (start_map ws tasks wk0) p -> ph p = Returned ->
  resl p = map (fun a => Some (func a)) tasks.
Proof. exact (pool_61_results_in_task_order ws func tasks wk0 p). Qed.
Print Assumptions C61_results_in_task_order.

(** Each task number was sent once, evaluated once, received once. *)
Theorem C61_each_task_once {A R} (ws : list nat) (func : A -> R) (tasks : list A) wk0 p :
  NoDup ws -> ready ws wk0 -> reachable ws func (start_map ws tasks wk0) p -> ph p = Returned ->
  Permutation (map fst (sent p)) (seq 0 (length tasks)) /\ Permutation (evaluated p) (seq 0 (length tasks)) /\
  Permutation (received p) (seq 0 (length tasks)).
Proof. exact (pool_61_each_task_once ws func tasks wk0 p). Qed.
Print Assumptions C61_each_task_once.

Theorem C62_no_deadlock {A R} (ws : list nat) (func : A -> R) (tasks : list A) wk0 p :
  NoDup ws -> ws <> [] -> ready ws wk0 -> reachable ws func (start_map ws tasks wk0) p ->
  ph p = Returned \/ exists a, enabled ws func a p.
Proof. exact (pool_62_no_deadlock ws func tasks wk0 p). Qed.
Print Assumptions C62_no_deadlock.

Theorem C62_every_fair_schedule_returns {A R} (ws : list nat) (func : A -> R) (tasks : list A) wk0 run who :
  NoDup ws -> ws <> [] -> ready ws wk0 ->
  schedule ws func (start_map ws tasks wk0) run who -> fair ws func run who ->
  exists k, ph (run k) = Returned.
Proof. exact (pool_62_every_fair_schedule_returns ws func tasks wk0 run who). Qed.
Print Assumptions C62_every_fair_schedule_returns.

(** Fair schedules exist, for every pool and every task list. *)
Theorem C62_fair_schedule_exists {A R} (ws : list nat) (func : A -> R) (tasks : list A) wk0 :
  NoDup ws -> ws <> [] -> ready ws wk0 ->
  exists run who, schedule ws func (start_map ws tasks wk0) run who /\ fair ws func run who.
Proof. exact (pool_62_fair_schedule_exists ws func tasks wk0). Qed.
Print Assumptions C62_fair_schedule_exists.

(** When it returns, 2 * len(tasks) messages were exchanged, and the pool is
    ready again: the start condition of the next map or of close. *)
Theorem C62_messages_and_reuse {A R} (ws : list nat) (func : A -> R) (tasks : list A) wk0 p :
  NoDup ws -> ready ws wk0 -> reachable ws func (start_map ws tasks wk0) p -> ph p = Returned ->
  length (sent p) + length (received p) = 2 * length tasks /\ ready ws (wk p) /\ quits p = [].
Proof. exact (pool_62_messages_and_reuse ws func tasks wk0 p). Qed.
Print Assumptions C62_messages_and_reuse.

(** With no worker the loop spins forever: why the constructor must refuse. *)
Theorem C62_no_worker_never_returns {A R} (func : A -> R) (tasks : list A) wk0 p :
  tasks <> [] -> reachable [] func (start_map [] tasks wk0) p -> ph p <> Returned.
Proof. exact (pool_62_no_worker_never_returns func tasks wk0 p). Qed.
Print Assumptions C62_no_worker_never_returns.

Theorem C63_close_no_deadlock {A R} (ws : list nat) (func : A -> R) wk0 p :
  NoDup ws -> ready ws wk0 -> reachable ws func (close_by 0 ws wk0) p ->
  (ph p = Closed /\ forall w, In w ws -> status (wk p w) = Exited) \/ exists a, enabled ws func a p.
Proof. exact (fun H => close_no_deadlock ws func H wk0 p). Qed.
Print Assumptions C63_close_no_deadlock.

(** Exactly one quit message to each worker, none to anyone else. *)
Theorem C63_one_message_each {A R} (ws : list nat) (func : A -> R) wk0 p :
  NoDup ws -> ready ws wk0 -> reachable ws func (close_by 0 ws wk0) p -> ph p = Closed ->
  Permutation (quits p) ws /\
  (forall w, In w ws -> wk p w = {| inbox := [MQuit]; status := Waiting |} \/ wk p w = {| inbox := []; status := Exited |}) /\
  (forall w, ~ In w ws -> wk p w = wk0 w).
Proof. exact (fun H => close_result ws func H wk0 p). Qed.
Print Assumptions C63_one_message_each.

Theorem C63_every_worker_exits {A R} (ws : list nat) (func : A -> R) wk0 run who :
  NoDup ws -> ready ws wk0 -> schedule ws func (close_by 0 ws wk0) run who -> fair ws func run who ->
  exists k, ph (run k) = Closed /\ forall w, In w ws -> wk (run k) w = {| inbox := []; status := Exited |}.
Proof. exact (fun H => close_fair ws func H wk0 run who). Qed.
Print Assumptions C63_every_worker_exits.

Theorem C63_close_on_worker {A R} (rank : nat) (ws : list nat) (func : A -> R) wk0 p :
  rank <> 0 -> ready ws wk0 -> reachable ws func (close_by rank ws wk0) p -> quits p = [] /\ wk p = wk0.
Proof. exact (pool_63_close_on_worker rank ws func wk0 p). Qed.
Print Assumptions C63_close_on_worker.

(** Finding: with the pool used as a context manager close runs twice, on
    __exit__ and again at exit; the second round of messages is never read. *)
Theorem C63_second_close_unread {A R} (ws : list nat) (func : A -> R) wk0 p :
  NoDup ws -> (forall w, In w ws -> wk0 w = {| inbox := []; status := Exited |}) ->
  reachable ws func (close_by 0 ws wk0) p -> ph p = Closed ->
  forall w, In w ws -> wk p w = {| inbox := [MQuit]; status := Exited |}.
Proof. exact (fun H => close_again ws func H wk0 p). Qed.
Print Assumptions C63_second_close_unread.

Example C61_case : NoDup (seq 1 3) /\ seq 1 3 <> [] /\ ready (seq 1 3) (fun _ => @idle nat nat) /\ init_pool 0 4 = Ok (RMaster (seq 1 3)).
Proof. split; [apply seq_NoDup|]. split; [discriminate|]. split; [intros w _; reflexivity|reflexivity]. Qed.
Example C61_case_returns : exists p, reachable (seq 1 3) (Nat.mul 2) (start_map (seq 1 3) [5; 6; 7; 8] (fun _ => idle)) p /\ ph p = Returned.
Proof.
  destruct C61_case as (H1 & H2 & H3 & _).
  exact (pool_62_can_return (seq 1 3) (Nat.mul 2) [5; 6; 7; 8] (fun _ => idle) H1 H2 H3).
Qed.

(** * Model of pocomc/parallel.py: MPIPool as a transition system

    The master runs [map] or [close], every worker runs [wait]; they only
    interact through messages.  One transition is one communication or
    computation of one process; all interleavings are allowed.

    Modelled of MPI: messages from the master to a worker are received in the
    order sent (non-overtaking); [ssend] of a result blocks the worker until the
    master receives it; a result becomes visible to Probe/Iprobe some time
    after it was posted; Probe blocks until a message is visible, Iprobe tells
    whether one is; recv(ANY_SOURCE, ANY_TAG) takes any visible message.
    Simplification: [func] is a total function (a worker whose function raises
    dies, and MPI aborts); pickling is the identity. *)
From Coq Require Import List Bool Arith.
From Verif Require Import PyBase.
Import ListNotations.

Section Pool.
  Context {A R : Type}.

  (** parallel.py:120, 131, 162: a task (with its tag) or None. *)
  Inductive msg := MTask (tid : nat) (func : A -> R) (arg : A) | MQuit.

  (** Where a worker is in parallel.py:80-90. *)
  Inductive wstatus :=
  | Waiting                                     (* 81 blocked in recv *)
  | Busy (tid : nat) (func : A -> R) (arg : A)  (* 88 computing *)
  | Posted (tid : nat) (result : R)             (* 90 in ssend, not yet visible *)
  | Visible (tid : nat) (result : R)            (* 90 in ssend, visible to the master *)
  | Exited.                                     (* 85 *)
  Record worker := { inbox : list msg; status : wstatus }.
  Definition idle : worker := {| inbox := []; status := Waiting |}.

  (** Where the master is. *)
  Inductive phase :=
  | Loop                        (* 124 evaluating the loop condition *)
  | Probing                     (* 131-136 *)
  | Receiving                   (* 138-150 *)
  | Returned                    (* 153 *)
  | Closing (todo : list nat)   (* 161 *)
  | Closed.

  Record pool := {
    ph : phase;
    wset : list nat;             (** [workerset], 118 *)
    tlist : list (nat * A);      (** [tasklist], 119, without the function *)
    resl : list (option R);      (** [resultlist], 120 *)
    pend : nat;                  (** [pending], 121 *)
    wk : nat -> worker;
    (* ghost: what has happened so far, latest first *)
    sent : list (nat * nat);     (** (task id, worker) *)
    evaluated : list nat;        (** task ids *)
    received : list nat;         (** task ids *)
    quits : list nat             (** workers that were sent None *)
  }.

  Definition set_worker (wk : nat -> worker) (w : nat) (s : worker) : nat -> worker :=
    fun w' => if Nat.eqb w' w then s else wk w'.

  Variable ws : list nat.        (** [self.workers], 60-61 *)
  Variable func : A -> R.        (** the [worker] argument of map *)

  Definition some_visible (p : pool) : Prop :=
    exists w tid r, In w ws /\ status (wk p w) = Visible tid r.

  (** parallel.py:118-121: entering map. *)
  Definition enumerate (tasks : list A) : list (nat * A) := combine (seq 0 (length tasks)) tasks.
  Definition start_map (tasks : list A) (wk : nat -> worker) : pool :=
    {| ph := Loop; wset := ws; tlist := enumerate tasks;
       resl := repeat None (length tasks); pend := length tasks; wk := wk;
       sent := []; evaluated := []; received := []; quits := [] |}.

  (** parallel.py:156-162: entering close. *)
  Definition start_close (wk : nat -> worker) : pool :=
    {| ph := Closing ws; wset := []; tlist := []; resl := []; pend := 0; wk := wk;
       sent := []; evaluated := []; received := []; quits := [] |}.

  (** Who makes a step. *)
  Inductive actor := Master | Worker (w : nat).

  Inductive step : actor -> pool -> pool -> Prop :=
  (* 124, 153 *)
  | s_return p : ph p = Loop -> pend p = 0 ->
      step Master p {| ph := Returned; wset := wset p; tlist := tlist p; resl := resl p; pend := pend p; wk := wk p;
                       sent := sent p; evaluated := evaluated p; received := received p; quits := quits p |}
  (* 125-129: set.pop() takes an arbitrary worker, list.pop() the last task *)
  | s_send p w l1 l2 tid a tl : ph p = Loop -> pend p <> 0 ->
      wset p = l1 ++ w :: l2 -> tlist p = tl ++ [(tid, a)] ->
      step Master p {| ph := Probing; wset := l1 ++ l2; tlist := tl; resl := resl p; pend := pend p;
                       wk := set_worker (wk p) w {| inbox := inbox (wk p w) ++ [MTask tid func a]; status := status (wk p w) |};
                       sent := (tid, w) :: sent p; evaluated := evaluated p; received := received p; quits := quits p |}
  (* 125: nothing to send *)
  | s_skip p : ph p = Loop -> pend p <> 0 -> wset p = [] \/ tlist p = [] ->
      step Master p {| ph := Probing; wset := wset p; tlist := tlist p; resl := resl p; pend := pend p; wk := wk p;
                       sent := sent p; evaluated := evaluated p; received := received p; quits := quits p |}
  (* 131-134: tasks left, no message *)
  | s_continue p : ph p = Probing -> tlist p <> [] -> ~ some_visible p ->
      step Master p {| ph := Loop; wset := wset p; tlist := tlist p; resl := resl p; pend := pend p; wk := wk p;
                       sent := sent p; evaluated := evaluated p; received := received p; quits := quits p |}
  (* 132 with flag, or 136 Probe returning *)
  | s_probe p : ph p = Probing -> some_visible p ->
      step Master p {| ph := Receiving; wset := wset p; tlist := tlist p; resl := resl p; pend := pend p; wk := wk p;
                       sent := sent p; evaluated := evaluated p; received := received p; quits := quits p |}
  (* 138-151 *)
  | s_recv p w tid r : ph p = Receiving -> In w ws -> status (wk p w) = Visible tid r ->
      step Master p {| ph := Loop; wset := w :: wset p; tlist := tlist p; resl := set_nth tid (Some r) (resl p);
                       pend := pend p - 1; wk := set_worker (wk p) w {| inbox := inbox (wk p w); status := Waiting |};
                       sent := sent p; evaluated := evaluated p; received := tid :: received p; quits := quits p |}
  (* 161-162 *)
  | s_quit p l1 w l2 : ph p = Closing (l1 ++ w :: l2) ->
      step Master p {| ph := Closing (l1 ++ l2); wset := wset p; tlist := tlist p; resl := resl p; pend := pend p;
                       wk := set_worker (wk p) w {| inbox := inbox (wk p w) ++ [MQuit]; status := status (wk p w) |};
                       sent := sent p; evaluated := evaluated p; received := received p; quits := w :: quits p |}
  | s_closed p : ph p = Closing [] ->
      step Master p {| ph := Closed; wset := wset p; tlist := tlist p; resl := resl p; pend := pend p; wk := wk p;
                       sent := sent p; evaluated := evaluated p; received := received p; quits := quits p |}
  (* 81, 87 *)
  | w_take p w tid f a q : In w ws -> status (wk p w) = Waiting -> inbox (wk p w) = MTask tid f a :: q ->
      step (Worker w) p {| ph := ph p; wset := wset p; tlist := tlist p; resl := resl p; pend := pend p;
                       wk := set_worker (wk p) w {| inbox := q; status := Busy tid f a |};
                       sent := sent p; evaluated := evaluated p; received := received p; quits := quits p |}
  (* 83-85 *)
  | w_quit p w q : In w ws -> status (wk p w) = Waiting -> inbox (wk p w) = MQuit :: q ->
      step (Worker w) p {| ph := ph p; wset := wset p; tlist := tlist p; resl := resl p; pend := pend p;
                       wk := set_worker (wk p) w {| inbox := q; status := Exited |};
                       sent := sent p; evaluated := evaluated p; received := received p; quits := quits p |}
  (* 88 *)
  | w_eval p w tid f a : In w ws -> status (wk p w) = Busy tid f a ->
      step (Worker w) p {| ph := ph p; wset := wset p; tlist := tlist p; resl := resl p; pend := pend p;
                       wk := set_worker (wk p) w {| inbox := inbox (wk p w); status := Posted tid (f a) |};
                       sent := sent p; evaluated := tid :: evaluated p; received := received p; quits := quits p |}
  (* 90 *)
  | w_arrive p w tid r : In w ws -> status (wk p w) = Posted tid r ->
      step (Worker w) p {| ph := ph p; wset := wset p; tlist := tlist p; resl := resl p; pend := pend p;
                       wk := set_worker (wk p) w {| inbox := inbox (wk p w); status := Visible tid r |};
                       sent := sent p; evaluated := evaluated p; received := received p; quits := quits p |}.

  (** Any number of steps, any interleaving. *)
  Inductive reachable (p0 : pool) : pool -> Prop :=
  | r_here : reachable p0 p0
  | r_step p a p' : reachable p0 p -> step a p p' -> reachable p0 p'.

  (** An infinite schedule: at every time one process makes a step, or nothing
      happens.  It is fair if no process that can move is ignored for ever. *)
  Definition enabled (a : actor) (p : pool) : Prop := exists p', step a p p'.
  Definition schedule (p0 : pool) (run : nat -> pool) (who : nat -> option actor) : Prop :=
    run 0 = p0 /\
    forall k, match who k with Some a => step a (run k) (run (S k)) | None => run (S k) = run k end.
  Definition fair (run : nat -> pool) (who : nat -> option actor) : Prop :=
    forall a k, exists k', k <= k' /\ (~ enabled a (run k') \/ who k' = Some a).
End Pool.

(** parallel.py:43-68 __init__, 165-170 is_master / is_worker: a process of
    rank 0 becomes the master (ValueError if it is alone), every other one
    enters [wait] and exits afterwards. *)
Inductive role := RMaster (workers : list nat) | RWorker.
Definition init_pool (rank size : nat) : res role :=
  if Nat.eqb rank 0 then
    let workers := filter (fun w => negb (Nat.eqb w 0)) (seq 0 size) in            (* 60-61 *)
    if Nat.eqb (size - 1) 0 then Err ValueError                                     (* 62-67 *)
    else Ok (RMaster workers)
  else Ok RWorker.                                                                  (* 55-58 *)

(** parallel.py:156-162 close: the messages sent by a process of the given rank. *)
Definition close_targets (rank : nat) (workers : list nat) : list nat :=
  if Nat.eqb rank 0 then workers else [].
(** The pool when the process of that rank calls close. *)
Definition close_by {A R} (rank : nat) (ws : list nat) (wk : nat -> @worker A R) : pool :=
  start_close (close_targets rank ws) wk.

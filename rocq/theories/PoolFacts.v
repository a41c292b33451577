(** * Theorems about whole executions of the MPI pool *)
From Coq Require Import List Bool Arith Lia Permutation.
From Verif Require Import PyBase Parallel ParallelFacts CloseFacts.
Import ListNotations.

(** [ws]: the ranks of the workers; a pool is ready when all of them wait for
    instructions with nothing in their queue. *)
Definition ready {A R} (ws : list nat) (wk : nat -> @worker A R) : Prop := forall w, In w ws -> wk w = idle.

Lemma pool_61_results_in_task_order {A R} (ws : list nat) (func : A -> R) (tasks : list A) wk0 p :
  NoDup ws -> ready ws wk0 -> reachable ws func (start_map ws tasks wk0) p -> ph p = Returned ->
  resl p = map (fun a => Some (func a)) tasks.
Proof.
  intros Hws Hid Hr Hp. pose proof (reachable_inv ws func tasks Hws _ _ (start_inv ws func tasks Hws wk0 Hid) Hr) as HI.
  apply (done_facts ws func tasks p HI). pose proof (i_phase _ _ _ p HI) as H. now rewrite Hp in H.
Qed.

Lemma pool_61_each_task_once {A R} (ws : list nat) (func : A -> R) (tasks : list A) wk0 p :
  NoDup ws -> ready ws wk0 -> reachable ws func (start_map ws tasks wk0) p -> ph p = Returned ->
  Permutation (map fst (sent p)) (seq 0 (length tasks)) /\ Permutation (evaluated p) (seq 0 (length tasks)) /\
  Permutation (received p) (seq 0 (length tasks)).
Proof.
  intros Hws Hid Hr Hp. pose proof (reachable_inv ws func tasks Hws _ _ (start_inv ws func tasks Hws wk0 Hid) Hr) as HI.
  pose proof (i_phase _ _ _ p HI) as H. rewrite Hp in H. destruct (done_facts ws func tasks p HI H) as (_ & -> & H1 & H2 & _). auto.
Qed.

Lemma pool_62_no_deadlock {A R} (ws : list nat) (func : A -> R) (tasks : list A) wk0 p :
  NoDup ws -> ws <> [] -> ready ws wk0 -> reachable ws func (start_map ws tasks wk0) p ->
  ph p = Returned \/ exists a, enabled ws func a p.
Proof.
  intros Hws Hne Hid Hr. pose proof (reachable_inv ws func tasks Hws _ _ (start_inv ws func tasks Hws wk0 Hid) Hr) as HI.
  pose proof (no_deadlock ws func tasks Hws p HI Hne) as H. destruct (ph p); auto; right; apply H; discriminate.
Qed.

Lemma pool_62_every_fair_schedule_returns {A R} (ws : list nat) (func : A -> R) (tasks : list A) wk0 run who :
  NoDup ws -> ws <> [] -> ready ws wk0 ->
  schedule ws func (start_map ws tasks wk0) run who -> fair ws func run who ->
  exists k, ph (run k) = Returned.
Proof.
  intros Hws Hne Hid HS HF.
  exact (fair_returns ws func tasks Hws run who _ (start_inv ws func tasks Hws wk0 Hid) HS HF Hne).
Qed.

Lemma pool_62_messages_and_reuse {A R} (ws : list nat) (func : A -> R) (tasks : list A) wk0 p :
  NoDup ws -> ready ws wk0 -> reachable ws func (start_map ws tasks wk0) p -> ph p = Returned ->
  length (sent p) + length (received p) = 2 * length tasks /\ ready ws (wk p) /\ quits p = [].
Proof.
  intros Hws Hid Hr Hp. pose proof (reachable_inv ws func tasks Hws _ _ (start_inv ws func tasks Hws wk0 Hid) Hr) as HI.
  pose proof (i_phase _ _ _ p HI) as H. rewrite Hp in H. destruct (done_facts ws func tasks p HI H) as (_ & H1 & _ & H2 & H3).
  repeat split; auto; [|exact (i_quits _ _ _ p HI)].
  apply (f_equal (@length _)) in H1. rewrite map_length, seq_length in H1. apply Permutation_length in H2. rewrite seq_length in H2. lia.
Qed.

Lemma pool_62_no_worker_never_returns {A R} (func : A -> R) (tasks : list A) wk0 p :
  tasks <> [] -> reachable [] func (start_map [] tasks wk0) p -> ph p <> Returned.
Proof.
  intros Hne Hr. pose proof (reachable_inv [] func tasks (NoDup_nil _) _ _ (start_inv [] func tasks (NoDup_nil _) wk0 (fun w H => match H with end)) Hr) as HI.
  intros Hp. pose proof (i_phase _ _ _ p HI) as H. rewrite Hp in H.
  assert (G : tlist p = enumerate tasks).
  { clear -Hr. induction Hr as [|p a q Hr IH HS]; [reflexivity|].
    assert (W : wset p = []). { clear -Hr. induction Hr as [|p a q Hr IH HS]; [reflexivity|]. destruct HS; cbn in *; auto; try easy. rewrite IH in *. destruct l1; discriminate. }
    destruct HS; cbn in *; auto. rewrite W in *. destruct l1; discriminate. }
  destruct (i_tlist _ _ _ p HI) as [m [Hm [E [_ [_ [_ E2]]]]]]. assert (m = 0) by lia. subst m. rewrite G in E.
  destruct tasks; [easy|discriminate].
Qed.

Lemma pool_63_close_on_worker {A R} (rank : nat) (ws : list nat) (func : A -> R) wk0 p :
  rank <> 0 -> ready ws wk0 -> reachable ws func (close_by rank ws wk0) p -> quits p = [] /\ wk p = wk0.
Proof.
  intros Hr Hid H. unfold close_by, close_targets in H. destruct rank; [easy|]. cbn in H.
  assert (G : (ph p = Closing [] \/ ph p = Closed) /\ quits p = [] /\ wk p = wk0); [|tauto].
  induction H as [|p a q Hr' [IP [IQ IW]] HS]; [cbn; auto|].
  destruct HS as [p Hp Hz|p w l1 l2 tid a tl Hp Hz Hset Htl|p Hp Hz Hor|p Hp Htl Hv|p Hp Hv|p w tid r Hp Hw Hst|p l1 w l2 Hp|p Hp|p w tid f a q0 Hw Hst Hin|p w q0 Hw Hst Hin|p w tid f a Hw Hst|p w tid r Hw Hst];
    try (exfalso; rewrite Hp in IP; destruct IP as [E|E]; try discriminate; injection E; destruct l1; discriminate);
    try (exfalso; rewrite IW, (Hid w Hw) in *; discriminate).
  cbn. auto.
Qed.

(** ** From every reachable state map can finish *)
Lemma finite_schedule {A R} ws (func : A -> R) tasks : NoDup ws -> ws <> [] -> forall p, Inv ws func tasks p ->
  exists run who N, schedule ws func p run who /\ forall k, N <= k -> run k = run N /\ who k = None /\ ph (run N) = Returned.
Proof.
  intros Hws Hne.
  assert (G : forall m r p, work ws p <= m -> prank ws p <= r -> Inv ws func tasks p -> 
    exists run who N, schedule ws func p run who /\ forall k, N <= k -> run k = run N /\ who k = None /\ ph (run N) = Returned).
  { induction m as [m IHm] using lt_wf_ind. induction r as [r IHr] using lt_wf_ind. intros p Hm Hp HI.
    assert (Dec : ph p = Returned \/ ph p <> Returned) by (destruct (ph p); [right|right|right|left|right|right]; congruence).
    destruct Dec as [Hr|Hr].
    { exists (fun _ => p), (fun _ => None), 0. repeat split; auto. }
    assert (exists a q, step ws func a p q /\ (work ws q < work ws p \/ (work ws q = work ws p /\ prank ws q < prank ws p))) as (a & q & HS & HD).
    { destruct (existsb (fun w => movable (wk p w)) ws) eqn:E.
      - apply existsb_exists in E as [w [Hw Hmv]]. destruct (movable_enabled ws func p w Hw Hmv) as [q HS].
        exists (Worker w), q. split; auto. destruct (step_work ws func tasks Hws _ _ _ HI HS) as [|[_ H]]; [auto|discriminate].
      - assert (Hmv : forall w, In w ws -> movable (wk p w) = false).
        { intros w Hw. destruct (movable (wk p w)) eqn:Em; auto.
          assert (existsb (fun w => movable (wk p w)) ws = true) by (apply existsb_exists; eauto). congruence. }
        destruct (master_enabled ws func tasks Hws p HI Hne Hr Hmv) as [q HS]. exists Master, q. split; auto.
        destruct (master_progress ws func tasks Hws p q HI Hne Hr Hmv HS) as [|[(_ & E2 & _ & E4) H]]; [auto|].
        right. split; auto. unfold work. now rewrite E2, E4. }
    assert (HQ : Inv ws func tasks q) by (eapply step_inv; eauto).
    assert (exists run who N, schedule ws func q run who /\ forall k, N <= k -> run k = run N /\ who k = None /\ ph (run N) = Returned) as (run & who & N & [E0 HSt] & HN).
    { destruct HD as [HD|[HD1 HD2]].
      - destruct (le_lt_dec m (work ws q)) as [|Hlt]; [lia|]. apply (IHm _ Hlt (prank ws q) q); auto.
      - assert (Hlt : prank ws q < r) by lia. apply (IHr _ Hlt q); auto; lia. }
    exists (fun k => match k with 0 => p | S k => run k end), (fun k => match k with 0 => Some a | S k => who k end), (S N). split.
    - split; [reflexivity|]. intros [|k]; [now rewrite E0|apply HSt].
    - intros [|k] Hk; [lia|]. apply HN. lia. }
  intros p HI. exact (G _ _ p (le_n _) (le_n _) HI).
Qed.

Lemma returned_nothing_enabled {A R} ws (func : A -> R) tasks p a : Inv ws func tasks p -> ph p = Returned -> ~ enabled ws func a p.
Proof.
  intros HI Hr [q HS]. pose proof (i_phase _ _ _ p HI) as Hz. rewrite Hr in Hz. destruct (done_facts ws func tasks p HI Hz) as (_ & _ & _ & _ & Hid).
  destruct HS; try congruence; rewrite Hid in * by auto; discriminate.
Qed.

Lemma pool_62_fair_schedule_exists {A R} (ws : list nat) (func : A -> R) (tasks : list A) wk0 :
  NoDup ws -> ws <> [] -> ready ws wk0 ->
  exists run who, schedule ws func (start_map ws tasks wk0) run who /\ fair ws func run who.
Proof.
  intros Hws Hne Hid. pose proof (start_inv ws func tasks Hws wk0 Hid) as HI.
  destruct (finite_schedule ws func tasks Hws Hne _ HI) as (run & who & N & HS & HN). exists run, who. split; auto.
  intros a k. exists (max k N). split; [lia|]. left. destruct (HN (max k N)) as (-> & _ & Hr); [lia|].
  apply (returned_nothing_enabled ws func tasks); auto. eapply run_inv; eauto.
Qed.

Lemma pool_62_can_return {A R} (ws : list nat) (func : A -> R) (tasks : list A) wk0 :
  NoDup ws -> ws <> [] -> ready ws wk0 ->
  exists p, reachable ws func (start_map ws tasks wk0) p /\ ph p = Returned.
Proof.
  intros Hws Hne Hid. destruct (finite_schedule ws func tasks Hws Hne _ (start_inv ws func tasks Hws wk0 Hid)) as (run & who & N & HS & HN).
  exists (run N). split; [exact (run_reachable ws func run who _ HS N)|apply (HN N); lia].
Qed.

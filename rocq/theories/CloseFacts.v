(** * Proofs about closing the MPI pool *)
From Coq Require Import List Bool Arith Lia Permutation.
From Verif Require Import PyBase Parallel ParallelFacts.
Import ListNotations.

Section Close.
  Context {A R : Type}.
  Variables (ws : list nat) (func : A -> R).
  Hypothesis Hws : NoDup ws.
  Implicit Types (p q : @pool A R).

  Definition told (s : @worker A R) : Prop :=
    s = {| inbox := [MQuit]; status := Waiting |} \/ s = {| inbox := []; status := Exited |}.

  Record CInv (wk0 : nat -> @worker A R) p : Prop := {
    c_phase : exists todo, (ph p = Closing todo \/ (ph p = Closed /\ todo = [])) /\ Permutation (todo ++ quits p) ws /\
       forall w, In w ws -> (In w todo /\ wk p w = idle) \/ (~ In w todo /\ told (wk p w));
    c_other : forall w, ~ In w ws -> wk p w = wk0 w;
    c_nothing : sent p = [] /\ evaluated p = [] /\ received p = []
  }.

  Lemma cstart wk0 : (forall w, In w ws -> wk0 w = idle) -> CInv wk0 (start_close ws wk0).
  Proof.
    intros H. constructor; cbn; auto. exists ws. rewrite app_nil_r. repeat split; auto.
  Qed.

  Lemma cstep wk0 a p q : CInv wk0 p -> step ws func a p q -> CInv wk0 q.
  Proof using Hws.
    intros [[todo [Hph [HP HW]]] HO HN] HS.
    destruct HS as [p Hp Hz|p w l1 l2 tid a tl Hp Hz Hset Htl|p Hp Hz Hor|p Hp Htl Hv|p Hp Hv|p w tid r Hp Hw Hst|p l1 w l2 Hp|p Hp|p w tid f a q0 Hw Hst Hin|p w q0 Hw Hst Hin|p w tid f a Hw Hst|p w tid r Hw Hst];
    try (exfalso; rewrite Hp in Hph; destruct Hph as [Hph|[Hph _]]; discriminate);
    try (exfalso; destruct (HW w Hw) as [[_ E]|[_ [E|E]]]; rewrite E in *; discriminate).
    - assert (todo = l1 ++ w :: l2) by (rewrite Hp in Hph; destruct Hph as [Hph|[Hph _]]; congruence). subst todo. clear Hph.
      assert (HND : NoDup ((l1 ++ w :: l2) ++ quits p)) by (eapply Permutation_NoDup; [symmetry; exact HP|exact Hws]).
      assert (ND1 : NoDup (l1 ++ w :: l2)). { clear -HND. revert HND. generalize (quits p), (l1 ++ w :: l2). intros l l'. induction l'; cbn; intros H; constructor; inversion H; subst; auto. intros Hi. apply H2. apply in_or_app. auto. }
      pose proof (NoDup_remove_2 _ _ _ ND1) as Hn.
      assert (Hw : In w ws). { eapply Permutation_in; [exact HP|]. apply in_or_app. left. apply in_elt. }
      assert (Eid : wk p w = idle). { destruct (HW w Hw) as [[_ E]|[Hx _]]; auto. destruct Hx. apply in_elt. }
      constructor; cbn; auto.
      + exists (l1 ++ l2). split; [auto|]. split.
        * rewrite <- HP. rewrite <- !app_assoc. apply Permutation_app_head. cbn. symmetry. apply Permutation_middle.
        * intros w' Hw'. destruct (Nat.eq_dec w' w) as [->|Hne].
          -- right. split; auto. rewrite set_worker_same, Eid. now left.
          -- rewrite set_worker_other by auto. destruct (HW w' Hw') as [[H1 H2]|[H1 H2]]; [left|right]; split; auto.
             ++ apply in_app_or in H1. apply in_or_app. destruct H1 as [|[|]]; auto. congruence.
             ++ intros H. apply H1. apply in_app_or in H. apply in_or_app. cbn. tauto.
      + intros w' Hw'. rewrite set_worker_other; auto. intros ->. tauto.
    - assert (todo = []) by (rewrite Hp in Hph; destruct Hph as [Hph|[Hph _]]; congruence). subst todo.
      constructor; cbn; auto. exists []. auto.
    - assert (Hnt : ~ In w todo /\ wk p w = {| inbox := [MQuit]; status := Waiting |}).
      { destruct (HW w Hw) as [[_ E]|[H [E|E]]]; auto; rewrite E in *; discriminate. }
      destruct Hnt as [Hnt E]. rewrite E in Hin. cbn in Hin. injection Hin as <-.
      constructor; cbn; auto.
      + exists todo. split; [auto|]. split; [auto|]. intros w' Hw'. destruct (Nat.eq_dec w' w) as [->|Hne].
        * right. split; auto. rewrite set_worker_same. now right.
        * rewrite set_worker_other by auto. auto.
      + intros w' Hw'. rewrite set_worker_other; auto. intros ->. tauto.
  Qed.

  Lemma creach wk0 p0 p : CInv wk0 p0 -> reachable ws func p0 p -> CInv wk0 p.
  Proof using Hws. intros H0 H. induction H; eauto using cstep. Qed.

  Definition cwork p : nat :=
    match ph p with Closing todo => 1 + 2 * length todo | _ => 0 end + list_sum (map (fun w => length (inbox (wk p w))) ws).

  Lemma inbox_split (f : nat -> @worker A R) w s : In w ws ->
    (list_sum (map (fun w' => length (inbox (set_worker f w s w'))) ws) + length (inbox (f w)) = list_sum (map (fun w => length (inbox (f w))) ws) + length (inbox s))%nat.
  Proof using Hws.
    intros Hin. pose proof (list_sum_split ws Hws (fun w => length (inbox (f w))) (fun w' => length (inbox (set_worker f w s w'))) w Hin) as H.
    cbn beta in H. rewrite set_worker_same in H. apply H. intros w' Hw. now rewrite set_worker_other.
  Qed.

  Lemma cstep_work wk0 a p q : CInv wk0 p -> step ws func a p q -> (cwork q < cwork p)%nat.
  Proof using Hws.
    intros [[todo [Hph [HP HW]]] HO HN] HS. unfold cwork.
    destruct HS as [p Hp Hz|p w l1 l2 tid a tl Hp Hz Hset Htl|p Hp Hz Hor|p Hp Htl Hv|p Hp Hv|p w tid r Hp Hw Hst|p l1 w l2 Hp|p Hp|p w tid f a q0 Hw Hst Hin|p w q0 Hw Hst Hin|p w tid f a Hw Hst|p w tid r Hw Hst];
    try (exfalso; rewrite Hp in Hph; destruct Hph as [Hph|[Hph _]]; discriminate);
    try (exfalso; destruct (HW w Hw) as [[_ E]|[_ [E|E]]]; rewrite E in *; discriminate); cbn [ph wk].
    - rewrite Hp. assert (Hw : In w ws).
      { assert (todo = l1 ++ w :: l2) by (rewrite Hp in Hph; destruct Hph as [Hph|[Hph _]]; congruence). subst todo.
        eapply Permutation_in; [exact HP|]. apply in_or_app. left. apply in_elt. }
      pose proof (inbox_split (wk p) w {| inbox := inbox (wk p w) ++ [MQuit]; status := status (wk p w) |} Hw) as E.
      cbn [inbox] in E. rewrite !app_length in *. cbn [length] in *. lia.
    - rewrite Hp. cbn. lia.
    - pose proof (inbox_split (wk p) w {| inbox := q0; status := Exited |} Hw) as E. rewrite Hin in E. cbn [inbox length] in E. lia.
  Qed.

  Lemma cenabled wk0 p : CInv wk0 p -> ~ (ph p = Closed /\ forall w, In w ws -> status (wk p w) = Exited) -> exists a, enabled ws func a p.
  Proof.
    intros [[todo [Hph [HP HW]]] HO HN] Hnd. destruct Hph as [Hph|[Hph ->]].
    - exists Master. destruct todo as [|w l]; eexists; [eapply s_closed|eapply (s_quit _ _ _ [] w l)]; eauto.
    - assert (D : forall l, incl l ws -> (forall w, In w l -> status (wk p w) = Exited) \/ exists w, In w ws /\ wk p w = {| inbox := [MQuit]; status := Waiting |}).
      { induction l as [|w l IH]; intros Hl; [left; easy|]. destruct (HW w (Hl w (or_introl eq_refl))) as [[[] _]|[_ [E|E]]].
        - right. exists w. split; auto. apply Hl. now left.
        - destruct IH as [IH|IH]; [intros x Hx; apply Hl; now right| |auto]. left. intros w' [<-|H']; auto. now rewrite E. }
      destruct (D ws (incl_refl _)) as [D1|[w [Hw E]]]; [tauto|]. exists (Worker w). eexists. eapply w_quit; eauto; rewrite E; reflexivity.
  Qed.

  Lemma close_fair wk0 (run : nat -> @pool A R) who : (forall w, In w ws -> wk0 w = idle) ->
    schedule ws func (start_close ws wk0) run who -> fair ws func run who ->
    exists k, ph (run k) = Closed /\ forall w, In w ws -> wk (run k) w = {| inbox := []; status := Exited |}.
  Proof using Hws.
    intros Hid HS HF.
    assert (HI : forall k, CInv wk0 (run k)).
    { intros k. apply (creach wk0 (start_close ws wk0)); [now apply cstart|]. destruct HS as [E H]. induction k; [rewrite E; constructor|].
      specialize (H k). destruct (who k); [econstructor; eauto|now rewrite H]. }
    assert (HL : forall k j, (k <= j)%nat -> (cwork (run j) < cwork (run k))%nat \/ run j = run k).
    { induction 1 as [|j Hj IH]; auto. destruct HS as [_ H]. specialize (H j). destruct (who j); [|now rewrite H].
      pose proof (cstep_work _ _ _ _ (HI j) H). destruct IH as [IH|IH]; [left; lia|]. rewrite IH in H0. auto. }
    assert (G : forall m k, (cwork (run k) <= m)%nat -> exists k, ph (run k) = Closed /\ forall w, In w ws -> status (wk (run k) w) = Exited).
    { induction m as [m IH] using lt_wf_ind. intros k Hk.
      assert (Dec : (ph (run k) = Closed /\ forall w, In w ws -> status (wk (run k) w) = Exited) \/ ~ (ph (run k) = Closed /\ forall w, In w ws -> status (wk (run k) w) = Exited)).
      { assert (D1 : ph (run k) = Closed \/ ph (run k) <> Closed) by (destruct (ph (run k)); auto; right; discriminate).
        assert (D2 : forall l, (forall w, In w l -> status (wk (run k) w) = Exited) \/ ~ (forall w, In w l -> status (wk (run k) w) = Exited)).
        { induction l as [|w l IHl]; [left; easy|].
          assert (D3 : status (wk (run k) w) = Exited \/ status (wk (run k) w) <> Exited) by (destruct (status (wk (run k) w)); auto; right; discriminate).
          destruct D3 as [D3|D3]; [|right; intros H; apply D3; apply H; now left].
          destruct IHl as [IHl|IHl]; [left; intros w' [<-|H']; auto|right; intros H; apply IHl; intros; apply H; now right]. }
        destruct (D2 ws); tauto. }
      destruct Dec as [Dec|Dec]; [eauto|].
      destruct (cenabled _ _ (HI k) Dec) as [a Ha]. destruct (HF a k) as [j [Hj HE]].
      assert (exists j', (cwork (run j') < cwork (run k))%nat) as [j' Hlt].
      { destruct (HL k j Hj) as [Hl|Hs]; [eauto|]. destruct HE as [HE|HE]; [rewrite Hs in HE; tauto|].
        destruct HS as [_ H]. specialize (H j). rewrite HE in H. exists (S j). rewrite <- Hs. eapply cstep_work; eauto. }
      apply (IH (cwork (run j'))) with (k := j'); lia. }
    destruct (G _ 0%nat (le_n _)) as [k [H1 H2]]. exists k. split; auto. intros w Hw. specialize (H2 w Hw).
    destruct (HI k) as [[todo [Hph [HP HW]]] _ _]. destruct Hph as [Hph|[_ ->]]; [congruence|].
    destruct (HW w Hw) as [[[] _]|[_ [E|E]]]; auto. rewrite E in H2. discriminate.
  Qed.

  Lemma close_result wk0 p : (forall w, In w ws -> wk0 w = idle) -> reachable ws func (start_close ws wk0) p -> ph p = Closed ->
    Permutation (quits p) ws /\ (forall w, In w ws -> told (wk p w)) /\ (forall w, ~ In w ws -> wk p w = wk0 w).
  Proof using Hws.
    intros Hid Hr Hc. destruct (creach wk0 _ _ (cstart wk0 Hid) Hr) as [[todo [Hph [HP HW]]] HO _].
    destruct Hph as [Hph|[_ ->]]; [congruence|]. repeat split; auto. intros w Hw. destruct (HW w Hw) as [[[] _]|[_ H]]; auto.
  Qed.

  Lemma close_no_deadlock wk0 p : (forall w, In w ws -> wk0 w = idle) -> reachable ws func (start_close ws wk0) p ->
    (ph p = Closed /\ forall w, In w ws -> status (wk p w) = Exited) \/ exists a, enabled ws func a p.
  Proof using Hws.
    intros Hid Hr. pose proof (creach wk0 _ _ (cstart wk0 Hid) Hr) as HI. pose proof (c_phase _ _ HI) as [todo [Hph [HP HW]]].
    destruct Hph as [Hph|[Hph ->]].
    - right. exists Master. destruct todo as [|w l]; eexists; [eapply s_closed|eapply (s_quit _ _ _ [] w l)]; eauto.
    - assert (D : forall l, incl l ws -> (forall w, In w l -> status (wk p w) = Exited) \/ exists w, In w ws /\ wk p w = {| inbox := [MQuit]; status := Waiting |}).
      { induction l as [|w l IH]; intros Hl; [left; easy|]. destruct (HW w (Hl w (or_introl eq_refl))) as [[[] _]|[_ [E|E]]].
        - right. exists w. split; auto. apply Hl. now left.
        - destruct IH as [IH|IH]; [intros x Hx; apply Hl; now right| |auto]. left. intros w' [<-|H']; auto. now rewrite E. }
      destruct (D ws (incl_refl _)) as [D1|[w [Hw E]]]; [tauto|]. right. exists (Worker w). eexists. eapply w_quit; eauto; rewrite E; reflexivity.
  Qed.

  (** closing again, when every worker has left: the messages stay unread *)
  Lemma close_again wk0 p : (forall w, In w ws -> wk0 w = {| inbox := []; status := Exited |}) ->
    reachable ws func (start_close ws wk0) p -> ph p = Closed -> forall w, In w ws -> wk p w = {| inbox := [MQuit]; status := Exited |}.
  Proof using Hws.
    intros Hid Hr.
    assert (G : exists todo, (ph p = Closing todo \/ (ph p = Closed /\ todo = [])) /\ Permutation (todo ++ quits p) ws /\
       forall w, In w ws -> (In w todo /\ wk p w = {| inbox := []; status := Exited |}) \/ (~ In w todo /\ wk p w = {| inbox := [MQuit]; status := Exited |})).
    { induction Hr as [|p a q Hr IH HS]; [exists ws; cbn; rewrite app_nil_r; split; auto; split; auto|]. destruct IH as [todo [Hph [HP HW]]].
      destruct HS as [p Hp Hz|p w l1 l2 tid a tl Hp Hz Hset Htl|p Hp Hz Hor|p Hp Htl Hv|p Hp Hv|p w tid r Hp Hw Hst|p l1 w l2 Hp|p Hp|p w tid f a q0 Hw Hst Hin|p w q0 Hw Hst Hin|p w tid f a Hw Hst|p w tid r Hw Hst];
      try (exfalso; rewrite Hp in Hph; destruct Hph as [Hph|[Hph _]]; discriminate);
      try (exfalso; destruct (HW w Hw) as [[_ E]|[_ E]]; rewrite E in *; discriminate).
      - assert (todo = l1 ++ w :: l2) by (rewrite Hp in Hph; destruct Hph as [Hph|[Hph _]]; congruence). subst todo. clear Hph.
        assert (HND : NoDup ((l1 ++ w :: l2) ++ quits p)) by (eapply Permutation_NoDup; [symmetry; exact HP|exact Hws]).
        rewrite <- app_assoc in HND. cbn in HND. apply NoDup_remove_2 in HND.
        assert (Hn : ~ In w (l1 ++ l2)). { intros H. apply HND. apply in_app_or in H. apply in_or_app. destruct H; auto. right. apply in_or_app. auto. }
        assert (Hw : In w ws). { eapply Permutation_in; [exact HP|]. apply in_or_app. left. apply in_elt. }
        assert (Eid : wk p w = {| inbox := []; status := Exited |}). { destruct (HW w Hw) as [[_ E]|[Hx _]]; auto. destruct Hx. apply in_elt. }
        exists (l1 ++ l2). cbn. split; [auto|]. split.
        * rewrite <- HP. rewrite <- !app_assoc. apply Permutation_app_head. cbn. symmetry. apply Permutation_middle.
        * intros w' Hw'. destruct (Nat.eq_dec w' w) as [->|Hne].
          -- right. split; auto. rewrite set_worker_same, Eid. reflexivity.
          -- rewrite set_worker_other by auto. destruct (HW w' Hw') as [[H1 H2]|[H1 H2]]; [left|right]; split; auto.
             ++ apply in_app_or in H1. apply in_or_app. destruct H1 as [|[|]]; auto. congruence.
             ++ intros H. apply H1. apply in_app_or in H. apply in_or_app. cbn. tauto.
      - assert (todo = []) by (rewrite Hp in Hph; destruct Hph as [Hph|[Hph _]]; congruence). subst todo.
        cbn. exists []. auto. }
    intros Hc w Hw. destruct G as [todo [[Hph|[_ ->]] [HP HW]]]; [congruence|]. destruct (HW w Hw) as [[[] _]|[_ H]]; auto.
  Qed.
End Close.

Lemma init_pool_spec rank size : (rank < size)%nat -> init_pool rank size =
  if Nat.eqb rank 0 then (if Nat.eqb size 1 then Err ValueError else Ok (RMaster (seq 1 (size - 1)))) else Ok RWorker.
Proof.
  intros H. unfold init_pool. destruct (Nat.eqb rank 0) eqn:E; auto. destruct size as [|[|s]]; [lia|reflexivity|].
  replace (S (S s) - 1)%nat with (S s) by lia. cbn [Nat.eqb]. do 2 f_equal. 
  assert (G : forall n k, (1 <= k)%nat -> filter (fun w => negb (Nat.eqb w 0)) (seq k n) = seq k n).
  { induction n as [|n IH]; intros k Hk; [reflexivity|]. cbn. destruct k; [lia|]. cbn. f_equal. apply IH. lia. }
  change (seq 0 (S (S s))) with (0 :: seq 1 (S s)). cbn [filter Nat.eqb negb]. now apply G.
Qed.

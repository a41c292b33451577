(** * Proofs about the MPI pool *)
From Coq Require Import List Bool Arith Lia Permutation.
From Verif Require Import PyBase Parallel.
Import ListNotations.

Section Facts.
  Context {A R : Type}.
  Variables (ws : list nat) (func : A -> R) (tasks : list A).
  Hypothesis Hws : NoDup ws.
  Notation n := (length tasks).
  Implicit Types (p q : @pool A R).

  Definition tids (l : list (@msg A R)) : list nat := flat_map (fun m => match m with MTask t _ _ => [t] | MQuit => [] end) l.
  Definition held (s : @worker A R) : list nat :=
    tids (inbox s) ++ match status s with Busy t _ _ => [t] | Posted t _ => [t] | Visible t _ => [t] | _ => [] end.
  Definition uneval (s : @worker A R) : list nat :=
    tids (inbox s) ++ match status s with Busy t _ _ => [t] | _ => [] end.

  Definition one_task (s : @worker A R) : Prop :=
    exists tid a, nth_error tasks tid = Some a /\
      (s = {| inbox := [MTask tid func a]; status := Waiting |} \/ s = {| inbox := []; status := Busy tid func a |} \/
       s = {| inbox := []; status := Posted tid (func a) |} \/ s = {| inbox := []; status := Visible tid (func a) |}).

  Record Inv (p : @pool A R) : Prop := {
    i_wset : NoDup (wset p) /\ incl (wset p) ws;
    i_tlist : exists m, (m <= n)%nat /\ tlist p = firstn m (enumerate tasks) /\
       Permutation (received p ++ flat_map (fun w => held (wk p w)) ws ++ seq 0 m) (seq 0 n) /\
       Permutation (evaluated p ++ flat_map (fun w => uneval (wk p w)) ws ++ seq 0 m) (seq 0 n) /\
       map fst (sent p) = seq m (n - m) /\
       pend p = (m + length (flat_map (fun w => held (wk p w)) ws))%nat;
    i_work : forall w, In w ws -> (In w (wset p) /\ wk p w = idle) \/ (~ In w (wset p) /\ one_task (wk p w));
    i_res : length (resl p) = n /\ forall tid a, In tid (received p) -> nth_error tasks tid = Some a -> nth_error (resl p) tid = Some (Some (func a));
    i_quits : quits p = [];
    i_phase : match ph p with Loop => True | Probing => pend p <> 0%nat | Receiving => pend p <> 0%nat /\ some_visible ws p | Returned => pend p = 0%nat | _ => False end
  }.

  Lemma flat_map_split {B} (g g' : nat -> list B) w : In w ws -> (forall w', w' <> w -> g' w' = g w') ->
    exists L, Permutation (flat_map g ws) (g w ++ L) /\ Permutation (flat_map g' ws) (g' w ++ L).
  Proof using Hws.
    intros Hin Hg. apply in_split in Hin as [l1 [l2 E]]. exists (flat_map g l1 ++ flat_map g l2).
    assert (HN : ~ In w l1 /\ ~ In w l2).
    { rewrite E in Hws. apply NoDup_remove_2 in Hws. split; intros H; apply Hws; apply in_or_app; auto. }
    assert (EX : forall l, ~ In w l -> flat_map g' l = flat_map g l).
    { intros l Hl. induction l as [|a l IH]; [reflexivity|]. cbn. rewrite IH by (intros H; apply Hl; now right).
      rewrite Hg; auto. intros ->. apply Hl. now left. }
    rewrite E, !flat_map_app. cbn [flat_map]. rewrite (EX l1), (EX l2) by tauto. split.
    - rewrite app_assoc. rewrite (Permutation_app_comm (flat_map g l1)). rewrite <- app_assoc. reflexivity.
    - rewrite app_assoc. rewrite (Permutation_app_comm (flat_map g l1)). rewrite <- app_assoc. reflexivity.
  Qed.

  Lemma set_worker_same (f : nat -> @worker A R) w s : set_worker f w s w = s.
  Proof. unfold set_worker. now rewrite Nat.eqb_refl. Qed.
  Lemma set_worker_other (f : nat -> @worker A R) w s w' : w' <> w -> set_worker f w s w' = f w'.
  Proof. unfold set_worker. intros H. apply Nat.eqb_neq in H. now rewrite H. Qed.

  Lemma held_split (f : nat -> @worker A R) (g : @worker A R -> list nat) w s : In w ws ->
    exists L, Permutation (flat_map (fun w => g (f w)) ws) (g (f w) ++ L) /\
              Permutation (flat_map (fun w' => g (set_worker f w s w')) ws) (g s ++ L).
  Proof using Hws.
    intros Hin. destruct (flat_map_split (fun w => g (f w)) (fun w' => g (set_worker f w s w')) w Hin) as [L [H1 H2]].
    - intros w' H. now rewrite set_worker_other.
    - exists L. split; auto. now rewrite set_worker_same in H2.
  Qed.

  Lemma firstn_enumerate_last m tl tid (a : A) : (m <= n)%nat -> tl ++ [(tid, a)] = firstn m (enumerate tasks) ->
    exists m', m = S m' /\ tid = m' /\ nth_error tasks tid = Some a /\ tl = firstn m' (enumerate tasks).
  Proof.
    intros Hm E. assert (LE : length (enumerate tasks) = n) by (unfold enumerate; rewrite combine_length, seq_length; lia).
    destruct m as [|m']. { destruct tl; discriminate. }
    exists m'. assert (Hlt : (m' < n)%nat) by lia.
    assert (exists a', nth_error tasks m' = Some a') as [a' Ha].
    { destruct (nth_error tasks m') eqn:Hn; eauto. apply nth_error_None in Hn. lia. }
    assert (EN : firstn (S m') (enumerate tasks) = firstn m' (enumerate tasks) ++ [(m', a')]).
    { assert (HE : nth_error (enumerate tasks) m' = Some (m', a')).
      { unfold enumerate. clear -Ha. enough (forall s k (l : list A), nth_error l k = Some a' -> nth_error (combine (seq s (length l)) l) k = Some (s + k, a')) as H by apply (H 0 m' tasks Ha).
        intros s k l; revert s k. induction l as [|b l IH]; intros s [|k] H; cbn in *; try discriminate.
        - injection H as ->. now rewrite Nat.add_0_r.
        - rewrite (IH (S s) k H). f_equal. f_equal. lia. }
      clear -HE. revert HE. generalize (m', a') as x. revert m'. induction (enumerate tasks) as [|b l IH]; intros [|k] x HE; cbn in *; try discriminate.
      - now injection HE as ->.
      - f_equal. now apply IH. }
    rewrite EN in E. apply app_inj_tail in E as [-> E]. injection E as -> ->. auto.
  Qed.

  Lemma start_inv wk0 : (forall w, In w ws -> wk0 w = idle) -> Inv (start_map ws tasks wk0).
  Proof using Hws.
    intros Hid.
    assert (EF : forall g : @worker A R -> list nat, g idle = [] -> flat_map (fun w => g (wk0 w)) ws = []).
    { intros g Hg. clear Hws. induction ws as [|w l IH]; [reflexivity|]. cbn. rewrite Hid by (now left). rewrite Hg. apply IH. intros; apply Hid; now right. }
    constructor; cbn.
    - split; [exact Hws|apply incl_refl].
    - exists n. assert (LE : length (enumerate tasks) = n) by (unfold enumerate; rewrite combine_length, seq_length; lia).
      rewrite !EF by reflexivity. split; [lia|]. split; [rewrite <- LE at 1; now rewrite firstn_all|]. cbn. repeat split; auto.
      now rewrite Nat.sub_diag.
    - intros w Hw. left. auto.
    - split; [apply repeat_length|]. easy.
    - reflexivity.
    - exact I.
  Qed.

  Ltac use_inv H := destruct H as [[IW1 IW2] [m [IM [IT [IP1 [IP2 [IS IPE]]]]]] IWK [IR1 IR2] IQ IPH].

  Lemma nth_set_nth_same {B} (l : list B) i v : (i < length l)%nat -> nth_error (set_nth i v l) i = Some v.
  Proof. revert i; induction l as [|b l IH]; intros [|i] H; cbn in *; try lia; auto. apply IH. lia. Qed.
  Lemma nth_set_nth_other {B} (l : list B) i j v : i <> j -> nth_error (set_nth i v l) j = nth_error l j.
  Proof. revert i j; induction l as [|b l IH]; intros [|i] [|j] H; cbn; auto; try easy. Qed.
  Lemma set_nth_length {B} (l : list B) i v : length (set_nth i v l) = length l.
  Proof. revert i; induction l as [|b l IH]; intros [|i]; cbn; auto. Qed.

  Lemma visible_one (s : @worker A R) tid r : one_task s -> status s = Visible tid r ->
    exists a, nth_error tasks tid = Some a /\ r = func a /\ s = {| inbox := []; status := Visible tid r |}.
  Proof. intros (t & a & Ha & [E|[E|[E|E]]]) Hs; rewrite E in Hs; try discriminate. injection Hs as -> <-. exists a. auto. Qed.

  Lemma worker_case p w : Inv p -> In w ws -> status (wk p w) <> Waiting \/ inbox (wk p w) <> [] -> ~ In w (wset p) /\ one_task (wk p w).
  Proof. intros H Hw Hs. destruct (i_work p H w Hw) as [[H1 H2]|H1]; auto. rewrite H2 in Hs. cbn in Hs. tauto. Qed.

  Lemma step_inv a p q : Inv p -> step ws func a p q -> Inv q.
  Proof using Hws.
    intros HI HS. pose proof HI as HI0. use_inv HI.
    destruct HS as [p Hp Hz|p w l1 l2 tid a tl Hp Hz Hset Htl|p Hp Hz Hor|p Hp Htl Hv|p Hp Hv|p w tid r Hp Hw Hst|p l1 w l2 Hp|p Hp|p w tid f a q0 Hw Hst Hin|p w q0 Hw Hst Hin|p w tid f a Hw Hst|p w tid r Hw Hst];
    rewrite ?Hp in IPH.
    - constructor; cbn; eauto. exists m; auto 10.
    - (* send *)
      destruct (firstn_enumerate_last m tl tid a IM (eq_trans (eq_sym Htl) IT)) as [m' [-> [-> [Ha ->]]]].
      assert (Hw : In w ws) by (apply IW2; rewrite Hset; apply in_elt).
      rewrite Hset in IW1. pose proof (NoDup_remove_2 _ _ _ IW1) as Hnw. pose proof (NoDup_remove_1 _ _ _ IW1) as Hnd.
      assert (Eid : wk p w = idle). { destruct (IWK w Hw) as [[_ E]|[H _]]; auto. destruct H. rewrite Hset. apply in_elt. }
      rewrite Eid. cbn [inbox status idle app].
      destruct (held_split (wk p) held w {| inbox := [MTask m' func a]; status := Waiting |} Hw) as [L1 [A1 A2]].
      destruct (held_split (wk p) uneval w {| inbox := [MTask m' func a]; status := Waiting |} Hw) as [L2 [B1 B2]].
      rewrite Eid in A1, B1. cbn in A1, A2, B1, B2.
      constructor; cbn.
      + split; auto. intros x Hx. apply IW2. rewrite Hset. apply in_or_app. apply in_app_or in Hx. cbn. tauto.
      + exists m'. split; [lia|]. split; [reflexivity|]. split; [|split; [|split]].
        * rewrite <- IP1. rewrite A1, A2. apply Permutation_app_head. rewrite seq_S. cbn.
          rewrite (Permutation_app_comm (seq 0 m') [m']). cbn. apply Permutation_middle.
        * rewrite <- IP2. rewrite B1, B2. apply Permutation_app_head. rewrite seq_S. cbn.
          rewrite (Permutation_app_comm (seq 0 m') [m']). cbn. apply Permutation_middle.
        * rewrite IS. replace (n - m')%nat with (S (n - S m')) by lia. reflexivity.
        * rewrite IPE, (Permutation_length A1), (Permutation_length A2). cbn. lia.
      + intros w' Hw'. destruct (Nat.eq_dec w' w) as [->|Hne].
        * right. split; [exact Hnw|]. rewrite set_worker_same. exists m', a. auto.
        * rewrite set_worker_other by auto. destruct (IWK w' Hw') as [[H1 H2]|[H1 H2]]; [left|right]; split; auto.
          -- rewrite Hset in H1. apply in_app_or in H1. apply in_or_app. cbn in H1. destruct H1 as [|[|]]; auto. congruence.
          -- intros H. apply H1. rewrite Hset. apply in_app_or in H. apply in_or_app. cbn. tauto.
      + auto.
      + auto.
      + exact Hz.
    - constructor; cbn; eauto. exists m; auto 10.
    - constructor; cbn; eauto. exists m; auto 10.
    - constructor; cbn; eauto. exists m; auto 10.
    - (* receive *)
      destruct (worker_case p w HI0 Hw) as [Hnin Hone]; [left; rewrite Hst; discriminate|].
      destruct (visible_one _ _ _ Hone Hst) as [a [Ha [-> Es]]]. rewrite Es. cbn [inbox].
      destruct (held_split (wk p) held w {| inbox := []; status := Waiting |} Hw) as [L1 [A1 A2]].
      destruct (held_split (wk p) uneval w {| inbox := []; status := Waiting |} Hw) as [L2 [B1 B2]].
      rewrite Es in A1, B1. cbn in A1, A2, B1, B2.
      constructor; cbn.
      + split; [constructor; auto|]. intros x [<-|Hx]; auto.
      + exists m. split; [lia|]. split; [exact IT|]. split; [|split; [|split]].
        * rewrite <- IP1, A1, A2. cbn. apply Permutation_middle.
        * rewrite <- IP2, B1, B2. reflexivity.
        * exact IS.
        * rewrite IPE, (Permutation_length A1), (Permutation_length A2). cbn. lia.
      + intros w' Hw'. destruct (Nat.eq_dec w' w) as [->|Hne].
        * left. rewrite set_worker_same. auto.
        * rewrite set_worker_other by auto. destruct (IWK w' Hw') as [[H1 H2]|[H1 H2]]; [left|right]; split; auto. cbn. intros [->|H]; tauto.
      + split; [now rewrite set_nth_length|]. assert (Hlt : (tid < n)%nat) by (apply nth_error_Some; congruence).
        intros t b Hin Hb. destruct (Nat.eq_dec tid t) as [<-|Hne].
        * rewrite nth_set_nth_same by lia. congruence.
        * rewrite nth_set_nth_other by auto. destruct Hin as [|Hin]; [congruence|eauto].
      + auto.
      + exact I.
    - destruct IPH.
    - destruct IPH.
    - (* take *)
      destruct (worker_case p w HI0 Hw) as [Hnin (t & b & Hb & [E|[E|[E|E]]])]; [right; rewrite Hin; discriminate| | | |];
        rewrite E in Hin; try discriminate. cbn in Hin. injection Hin as <- <- <- <-.
      destruct (held_split (wk p) held w {| inbox := []; status := Busy t func b |} Hw) as [L1 [A1 A2]].
      destruct (held_split (wk p) uneval w {| inbox := []; status := Busy t func b |} Hw) as [L2 [B1 B2]].
      rewrite E in A1, B1. cbn in A1, A2, B1, B2.
      constructor; cbn.
      + auto.
      + exists m. rewrite A2, <- A1, B2, <- B1. auto 10.
      + intros w' Hw'. destruct (Nat.eq_dec w' w) as [->|Hne].
        * right. rewrite set_worker_same. split; auto. exists t, b. auto.
        * rewrite set_worker_other by auto. auto.
      + auto.
      + auto.
      + destruct (ph p); auto. destruct IPH as [H1 (w' & t' & r' & H2 & H3)]. split; auto. exists w', t', r'. split; auto. cbn.
        rewrite set_worker_other; auto. intros ->. rewrite E in H3. discriminate.
    - (* a worker at work never holds a quit message during map *)
      destruct (worker_case p w HI0 Hw) as [Hnin (t & b & Hb & [E|[E|[E|E]]])]; [right; rewrite Hin; discriminate| | | |];
        rewrite E in Hin; discriminate.
    - (* eval *)
      destruct (worker_case p w HI0 Hw) as [Hnin (t & b & Hb & [E|[E|[E|E]]])]; [left; rewrite Hst; discriminate| | | |];
        rewrite E in Hst; try discriminate. cbn in Hst. injection Hst as <- <- <-. rewrite E. cbn [inbox].
      destruct (held_split (wk p) held w {| inbox := []; status := Posted t (func b) |} Hw) as [L1 [A1 A2]].
      destruct (held_split (wk p) uneval w {| inbox := []; status := Posted t (func b) |} Hw) as [L2 [B1 B2]].
      rewrite E in A1, B1. cbn in A1, A2, B1, B2.
      constructor; cbn.
      + auto.
      + exists m. rewrite A2, <- A1. split; [auto|]. split; [auto|]. split; [auto|]. split; [|auto].
        rewrite <- IP2, B1, B2. cbn. apply Permutation_middle.
      + intros w' Hw'. destruct (Nat.eq_dec w' w) as [->|Hne].
        * right. rewrite set_worker_same. split; auto. exists t, b. auto.
        * rewrite set_worker_other by auto. auto.
      + auto.
      + auto.
      + destruct (ph p); auto. destruct IPH as [H1 (w' & t' & r' & H2 & H3)]. split; auto. exists w', t', r'. split; auto. cbn.
        rewrite set_worker_other; auto. intros ->. rewrite E in H3. discriminate.
    - (* arrive *)
      destruct (worker_case p w HI0 Hw) as [Hnin (t & b & Hb & [E|[E|[E|E]]])]; [left; rewrite Hst; discriminate| | | |];
        rewrite E in Hst; try discriminate. cbn in Hst. injection Hst as <- <-. rewrite E. cbn [inbox].
      destruct (held_split (wk p) held w {| inbox := []; status := Visible t (func b) |} Hw) as [L1 [A1 A2]].
      destruct (held_split (wk p) uneval w {| inbox := []; status := Visible t (func b) |} Hw) as [L2 [B1 B2]].
      rewrite E in A1, B1. cbn in A1, A2, B1, B2.
      constructor; cbn.
      + auto.
      + exists m. rewrite A2, <- A1, B2, <- B1. auto 10.
      + intros w' Hw'. destruct (Nat.eq_dec w' w) as [->|Hne].
        * right. rewrite set_worker_same. split; auto. exists t, b. auto 10.
        * rewrite set_worker_other by auto. auto.
      + auto.
      + auto.
      + destruct (ph p); auto. destruct IPH as [H1 (w' & t' & r' & H2 & H3)]. split; auto. exists w', t', r'. split; auto. cbn.
        rewrite set_worker_other; auto. intros ->. rewrite E in H3. discriminate.
  Qed.

  Lemma reachable_inv p0 p : Inv p0 -> reachable ws func p0 p -> Inv p.
  Proof using Hws. intros H0 H. induction H; auto. eapply step_inv; eauto. Qed.

  (** ** What a finished map looks like *)
  Lemma done_facts p : Inv p -> pend p = 0%nat ->
    resl p = map (fun a => Some (func a)) tasks /\ map fst (sent p) = seq 0 n /\
    Permutation (evaluated p) (seq 0 n) /\ Permutation (received p) (seq 0 n) /\
    (forall w, In w ws -> wk p w = idle).
  Proof.
    intros HI Hz. use_inv HI.
    assert (m = 0%nat) by lia. subst m. assert (EH : flat_map (fun w => held (wk p w)) ws = []).
    { destruct (flat_map _ ws); auto. cbn in IPE. lia. }
    assert (Hidle : forall w, In w ws -> wk p w = idle).
    { intros w Hw. destruct (IWK w Hw) as [[_ E]|[_ (t & a & _ & H)]]; auto. exfalso.
      assert (In t (flat_map (fun w => held (wk p w)) ws)); [|rewrite EH in H0; easy].
      apply in_flat_map. exists w. split; auto. destruct H as [E|[E|[E|E]]]; rewrite E; cbn; auto. }
    assert (EU : flat_map (fun w => uneval (wk p w)) ws = []).
    { clear -Hidle. induction ws as [|w l IH]; [reflexivity|]. cbn. rewrite Hidle by (now left). apply IH. intros; apply Hidle; now right. }
    rewrite EH in IP1. rewrite EU in IP2. cbn in IP1, IP2. rewrite !app_nil_r in *.
    split; [|split; [|split; [|split]]]; auto.
    - assert (G : forall k, nth_error (resl p) k = nth_error (map (fun a => Some (func a)) tasks) k).
      { intros k. destruct (nth_error tasks k) as [a|] eqn:Ek.
        - rewrite (map_nth_error _ _ _ Ek). apply IR2; auto. apply (Permutation_in _ (Permutation_sym IP1)). apply in_seq.
          assert (k < n)%nat by (apply nth_error_Some; congruence). lia.
        - apply nth_error_None in Ek. rewrite (proj2 (nth_error_None _ _)) by lia. symmetry. apply nth_error_None. now rewrite map_length. }
      clear -G. revert G. generalize (map (fun a => Some (func a)) tasks). generalize (resl p). 
      intros l; induction l as [|x l IH]; intros [|y l'] G; auto; try (specialize (G 0); discriminate).
      f_equal; [specialize (G 0); now injection G|]. apply IH. intros k. apply (G (S k)).
    - now rewrite Nat.sub_0_r in IS.
  Qed.

  (** ** Progress *)
  (** stages still to go: 5 per queued task, then 4, 3, 2, 1 *)
  Definition togo (s : @worker A R) : nat :=
    4 * length (inbox s) + match status s with Busy _ _ _ => 3 | Posted _ _ => 2 | Visible _ _ => 1 | _ => 0 end.
  Definition work p : nat := 5 * length (tlist p) + list_sum (map (fun w => togo (wk p w)) ws).

  Lemma list_sum_split (g g' : nat -> nat) w : In w ws -> (forall w', w' <> w -> g' w' = g w') ->
    (list_sum (map g' ws) + g w = list_sum (map g ws) + g' w)%nat.
  Proof using Hws.
    intros Hin Hg. apply in_split in Hin as [l1 [l2 E]].
    assert (HN : ~ In w l1 /\ ~ In w l2).
    { rewrite E in Hws. apply NoDup_remove_2 in Hws. split; intros H; apply Hws; apply in_or_app; auto. }
    assert (EX : forall l, ~ In w l -> map g' l = map g l).
    { intros l Hl. apply map_ext_in. intros w' H. apply Hg. intros ->. tauto. }
    rewrite E, !map_app. cbn [map]. rewrite (EX l1), (EX l2) by tauto.
    rewrite !list_sum_app. cbn. lia.
  Qed.
  Lemma togo_split (f : nat -> @worker A R) w s : In w ws ->
    (list_sum (map (fun w' => togo (set_worker f w s w')) ws) + togo (f w) = list_sum (map (fun w => togo (f w)) ws) + togo s)%nat.
  Proof using Hws.
    intros Hin. pose proof (list_sum_split (fun w => togo (f w)) (fun w' => togo (set_worker f w s w')) w Hin) as H.
    cbn beta in H. rewrite set_worker_same in H. apply H. intros w' Hw. now rewrite set_worker_other.
  Qed.

  Definition same p q : Prop := wset p = wset q /\ tlist p = tlist q /\ pend p = pend q /\ wk p = wk q.

  Lemma step_work a p q : Inv p -> step ws func a p q -> (work q < work p)%nat \/ (same p q /\ a = Master).
  Proof using Hws.
    intros HI HS. unfold work, same. pose proof (i_phase p HI) as IPH. pose proof (i_wset p HI) as [_ IW2].
    destruct HS as [p Hp Hz|p w l1 l2 tid a tl Hp Hz Hset Htl|p Hp Hz Hor|p Hp Htl Hv|p Hp Hv|p w tid r Hp Hw Hst|p l1 w l2 Hp|p Hp|p w tid f a q0 Hw Hst Hin|p w q0 Hw Hst Hin|p w tid f a Hw Hst|p w tid r Hw Hst];
    cbn [tlist wk wset pend]; rewrite ?Hp in IPH; try (right; tauto); try (now destruct IPH).
    - left. assert (Hw : In w ws) by (apply IW2; rewrite Hset; apply in_elt).
      pose proof (togo_split (wk p) w {| inbox := inbox (wk p w) ++ [MTask tid func a]; status := status (wk p w) |} Hw) as E.
      unfold togo at 2 4 in E. cbn [inbox status] in E. rewrite app_length in E. cbn [length] in E. rewrite Htl, app_length. cbn [length]. lia.
    - left. pose proof (togo_split (wk p) w {| inbox := inbox (wk p w); status := Waiting |} Hw) as E.
      unfold togo at 2 4 in E. cbn [inbox status] in E. rewrite Hst in E. lia.
    - left. pose proof (togo_split (wk p) w {| inbox := q0; status := Busy tid f a |} Hw) as E.
      unfold togo at 2 4 in E. cbn [inbox status] in E. rewrite Hst, Hin in E. cbn [length] in E. lia.
    - left. pose proof (togo_split (wk p) w {| inbox := q0; status := Exited |} Hw) as E.
      unfold togo at 2 4 in E. cbn [inbox status] in E. rewrite Hst, Hin in E. cbn [length] in E. lia.
    - left. pose proof (togo_split (wk p) w {| inbox := inbox (wk p w); status := Posted tid (f a) |} Hw) as E.
      unfold togo at 2 4 in E. cbn [inbox status] in E. rewrite Hst in E. lia.
    - left. pose proof (togo_split (wk p) w {| inbox := inbox (wk p w); status := Visible tid r |} Hw) as E.
      unfold togo at 2 4 in E. cbn [inbox status] in E. rewrite Hst in E. lia.
  Qed.

  (** a worker that can move *)
  Definition movable (s : @worker A R) : bool :=
    match status s with Waiting => negb (Nat.eqb (length (inbox s)) 0) | Busy _ _ _ | Posted _ _ => true | _ => false end.
  Lemma movable_enabled p w : In w ws -> movable (wk p w) = true -> enabled ws func (Worker w) p.
  Proof.
    intros Hw H. unfold movable in H. destruct (status (wk p w)) eqn:E; try discriminate.
    - destruct (inbox (wk p w)) as [|[t f a|] q] eqn:Ei; [discriminate| |]; eexists; [eapply w_take|eapply w_quit]; eauto.
    - eexists. eapply w_eval; eauto.
    - eexists. eapply w_arrive; eauto.
  Qed.

  Definition visible_b (s : @worker A R) : bool := match status s with Visible _ _ => true | _ => false end.
  Lemma some_visible_b p : existsb (fun w => visible_b (wk p w)) ws = true <-> some_visible ws p.
  Proof.
    rewrite existsb_exists. unfold visible_b, some_visible. split.
    - intros [w [Hw H]]. destruct (status (wk p w)) eqn:E; try discriminate. eauto 10.
    - intros (w & t & r & Hw & E). exists w. now rewrite E.
  Qed.

  (** when no worker can move, what the master faces *)
  Lemma stuck_master p : Inv p -> ws <> [] -> pend p <> 0%nat -> (forall w, In w ws -> movable (wk p w) = false) ->
    some_visible ws p \/ (wset p <> [] /\ tlist p <> []).
  Proof.
    intros HI Hne Hp Hm. destruct (existsb (fun w => visible_b (wk p w)) ws) eqn:E; [left; now apply some_visible_b|right].
    assert (Hall : forall w, In w ws -> In w (wset p) /\ wk p w = idle).
    { intros w Hw. destruct (i_work p HI w Hw) as [|[_ (t & a & _ & H)]]; auto. exfalso. specialize (Hm w Hw).
      assert (Hv : visible_b (wk p w) = false).
      { destruct (visible_b (wk p w)) eqn:Ev; auto. assert (existsb (fun w => visible_b (wk p w)) ws = true) by (apply existsb_exists; eauto). congruence. }
      destruct H as [H|[H|[H|H]]]; rewrite H in Hm, Hv; discriminate. }
    use_inv HI. split.
    - destruct ws as [|w l]; [easy|]. destruct (Hall w (or_introl eq_refl)) as [H _]. intros E2. rewrite E2 in H. easy.
    - intros Ht. rewrite Ht in IT.
      assert (m = 0%nat). { symmetry in IT. apply (f_equal (@length _)) in IT. rewrite firstn_length in IT. unfold enumerate in IT. rewrite combine_length, seq_length in IT. cbn in IT. lia. }
      assert (EH : flat_map (fun w => held (wk p w)) ws = []).
      { clear -Hall. induction ws as [|w l IH]; [reflexivity|]. cbn. destruct (Hall w (or_introl eq_refl)) as [_ ->]. apply IH. intros; apply Hall; now right. }
      rewrite EH in IPE. cbn in IPE. lia.
  Qed.

  Definition prank p : nat := match ph p with Returned => 0 | _ => 
    if existsb (fun w => visible_b (wk p w)) ws
    then match ph p with Loop => 3 | Probing => 2 | _ => 1 end
    else match ph p with Probing => 2 | _ => 1 end end.

  (** the master, when no worker can move: enabled, and each of its steps makes progress *)
  Lemma master_enabled p : Inv p -> ws <> [] -> ph p <> Returned -> (forall w, In w ws -> movable (wk p w) = false) -> enabled ws func Master p.
  Proof.
    intros HI Hne Hr Hm. pose proof (i_phase p HI) as IPH. destruct (ph p) eqn:Ep; try easy.
    - destruct (Nat.eq_dec (pend p) 0) as [Hz|Hz]; [eexists; eapply s_return; eauto|].
      destruct (wset p) as [|w l] eqn:Ew; [eexists; eapply s_skip; eauto|].
      destruct (tlist p) as [|x tl] eqn:Et; [eexists; eapply s_skip; eauto|].
      destruct (exists_last (l := x :: tl)) as [l' [[tid a] El]]; [discriminate|].
      eexists. eapply (s_send ws func p w [] l tid a l'); eauto. now rewrite Et, El.
    - destruct (stuck_master p HI Hne IPH Hm) as [Hv|[_ Ht]]; [eexists; eapply s_probe; eauto|].
      destruct (existsb (fun w => visible_b (wk p w)) ws) eqn:Ev.
      + eexists; eapply s_probe; eauto. now apply some_visible_b.
      + eexists; eapply s_continue; eauto. intros H. apply some_visible_b in H. congruence.
    - destruct IPH as [_ (w & t & r & Hw & Hs)]. eexists; eapply s_recv; eauto.
  Qed.

  Lemma master_progress p q : Inv p -> ws <> [] -> ph p <> Returned -> (forall w, In w ws -> movable (wk p w) = false) ->
    step ws func Master p q -> (work q < work p)%nat \/ (same p q /\ prank q < prank p)%nat.
  Proof using Hws.
    intros HI Hne Hr Hm HS. destruct (step_work _ _ _ HI HS) as [H|[Hs _]]; auto.
    pose proof (i_phase p HI) as IPH. unfold prank.
    inversion HS as [p' Hp Hz|p' w l1 l2 tid a tl Hp Hz Hset Htl|p' Hp Hz Hor|p' Hp Htl Hv|p' Hp Hv|p' w tid r Hp Hw Hst|p' l1 w l2 Hp|p' Hp| | | |]; subst p'; subst q; rewrite Hp in *; try (now destruct IPH).
    - right. split; auto. cbn. destruct (existsb _ ws); lia.
    - left. exfalso. destruct Hs as [Hs _]. cbn in Hs. rewrite Hset in Hs. apply (f_equal (@length _)) in Hs. rewrite !app_length in Hs. cbn in Hs. lia.
    - right. split; auto. cbn. destruct (existsb _ ws) eqn:Ev; [lia|].
      destruct (stuck_master p HI Hne Hz Hm) as [Hv|[H1 H2]]; [apply some_visible_b in Hv; congruence|tauto].
    - right. split; auto. cbn. destruct (existsb _ ws) eqn:Ev; [|lia]. exfalso. apply Hv. now apply some_visible_b.
    - right. split; auto. cbn. apply some_visible_b in Hv. rewrite Hv. lia.
    - exfalso. destruct Hs as (Hs & _). cbn in Hs. apply (f_equal (@length _)) in Hs. cbn in Hs. lia.
  Qed.

  (** Deadlock freedom: something that is not busy waiting can always happen. *)
  Lemma no_deadlock p : Inv p -> ws <> [] -> ph p <> Returned -> exists a, enabled ws func a p.
  Proof.
    intros HI Hne Hr. destruct (existsb (fun w => movable (wk p w)) ws) eqn:E.
    - apply existsb_exists in E as [w [Hw H]]. exists (Worker w). now apply movable_enabled.
    - exists Master. apply master_enabled; auto. intros w Hw. destruct (movable (wk p w)) eqn:Em; auto.
      assert (existsb (fun w => movable (wk p w)) ws = true) by (apply existsb_exists; eauto). congruence.
  Qed.

  (** ** Fair schedules *)
  Section Fair.
    Variables (run : nat -> @pool A R) (who : nat -> option actor) (p0 : @pool A R).
    Hypothesis (H0 : Inv p0) (HS : schedule ws func p0 run who) (HF : fair ws func run who) (Hne : ws <> []).

    Lemma run_reachable k : reachable ws func p0 (run k).
    Proof using HS.
      destruct HS as [E H]. induction k; [rewrite E; constructor|]. specialize (H k). destruct (who k); [econstructor; eauto|now rewrite H].
    Qed.
    Lemma run_inv k : Inv (run k).
    Proof using H0 HS Hws. eapply reachable_inv; eauto using run_reachable. Qed.

    Lemma same_refl p : same p p. Proof. repeat split. Qed.
    Lemma same_trans p q r : same p q -> same q r -> same p r.
    Proof. unfold same. intuition congruence. Qed.

    Lemma work_later k j : (k <= j)%nat -> (work (run j) < work (run k))%nat \/ same (run k) (run j).
    Proof using H0 HS Hws.
      induction 1 as [|j Hj IH]; [right; apply same_refl|].
      destruct HS as [_ H]. specialize (H j). destruct (who j) as [a|]; [|now rewrite H].
      destruct (step_work _ _ _ (run_inv j) H) as [Hl|[Hs _]].
      - left. destruct IH as [IH|IH]; [lia|]. destruct IH as (E1 & E2 & E3 & E4). unfold work in *. rewrite E2, E4. exact Hl.
      - destruct IH as [IH|IH]; [left; destruct Hs as (E1 & E2 & E3 & E4); unfold work in *; rewrite <- E2, <- E4; exact IH|right; eapply same_trans; eauto].
    Qed.

    Lemma worker_moves k w : In w ws -> movable (wk (run k) w) = true -> exists j, (k < j)%nat /\ (work (run j) < work (run k))%nat.
    Proof using H0 HS HF Hws.
      intros Hw Hm. destruct (HF (Worker w) k) as [j [Hj HE]].
      destruct (work_later k j Hj) as [Hl|Hs].
      - exists j. split; auto. destruct (Nat.eq_dec k j) as [->|]; lia.
      - destruct HE as [HE|HE].
        + exfalso. apply HE. apply movable_enabled; auto. destruct Hs as (_ & _ & _ & E). now rewrite <- E.
        + pose proof (proj2 HS j) as Hst. rewrite HE in Hst. destruct (step_work _ _ _ (run_inv j) Hst) as [Hl|[_ Hx]]; [|discriminate].
          exists (S j). split; [lia|]. destruct Hs as (E1 & E2 & E3 & E4). unfold work in *. rewrite E2, E4. exact Hl.
    Qed.

    Lemma prank_same p q : same p q -> ph p = ph q -> prank p = prank q.
    Proof. intros (E1 & E2 & E3 & E4) E. unfold prank. now rewrite E4, E. Qed.

    (** between two moments with no progress and no master step the phase is unchanged *)
    Lemma phase_until k j : (k <= j)%nat -> (work (run j) < work (run k))%nat \/ (same (run k) (run j) /\ ph (run j) = ph (run k)) \/
      (exists i, (k <= i < j)%nat /\ who i = Some Master /\ same (run k) (run i) /\ ph (run i) = ph (run k)).
    Proof using H0 HS Hws.
      induction 1 as [|j Hj IH]; [right; left; split; auto using same_refl|].
      destruct IH as [IH|[[IH1 IH2]|(i & Hi & IH)]].
      - left. destruct (work_later j (S j)) as [Hl|Hs]; [lia|lia|]. destruct Hs as (_ & E2 & _ & E4). unfold work in *. now rewrite <- E2, <- E4.
      - destruct HS as [_ H]. specialize (H j). destruct (who j) as [[|w]|] eqn:Ew.
        + right; right. exists j. repeat split; auto; try lia; apply IH1.
        + destruct (step_work _ _ _ (run_inv j) H) as [Hl|[_ Hx]]; [|discriminate].
          left. destruct IH1 as (_ & E2 & _ & E4). unfold work in *. now rewrite E2, E4.
        + right; left. now rewrite H.
      - right; right. exists i. split; [lia|auto].
    Qed.

    Lemma progress k : ph (run k) <> Returned -> exists j, (k < j)%nat /\ ((work (run j) < work (run k))%nat \/
       (work (run j) = work (run k) /\ prank (run j) < prank (run k))%nat).
    Proof using H0 HS HF Hne Hws.
      intros Hr. destruct (existsb (fun w => movable (wk (run k) w)) ws) eqn:E.
      - apply existsb_exists in E as [w [Hw Hm]]. destruct (worker_moves k w Hw Hm) as [j [Hj Hl]]. eauto.
      - assert (Hm : forall w, In w ws -> movable (wk (run k) w) = false).
        { intros w Hw. destruct (movable (wk (run k) w)) eqn:Em; auto.
          assert (existsb (fun w => movable (wk (run k) w)) ws = true) by (apply existsb_exists; eauto). congruence. }
        assert (Key : forall i, same (run k) (run i) -> ph (run i) = ph (run k) -> who i = Some Master -> (k <= i)%nat ->
          exists j, (k < j)%nat /\ ((work (run j) < work (run k))%nat \/ (work (run j) = work (run k) /\ prank (run j) < prank (run k))%nat)).
        { intros i Hs Hph Hwho Hi. pose proof (proj2 HS i) as Hst. rewrite Hwho in Hst. exists (S i). split; [lia|].
          assert (Hmi : forall w, In w ws -> movable (wk (run i) w) = false).
          { intros w Hw. destruct Hs as (_ & _ & _ & E4). rewrite <- E4. auto. }
          assert (Ew : work (run i) = work (run k)). { destruct Hs as (_ & E2 & _ & E4). unfold work. now rewrite E2, E4. }
          rewrite <- Hph in Hr.
          destruct (master_progress _ _ (run_inv i) Hne Hr Hmi Hst) as [Hl|[Hs2 Hl]].
          - left. lia.
          - right. rewrite <- (prank_same _ _ Hs (eq_sym Hph)) in Hl. split; auto. rewrite <- Ew. destruct Hs2 as (_ & E2 & _ & E4). unfold work. now rewrite E2, E4. }
        destruct (HF Master k) as [j [Hj HE]].
        destruct (phase_until k j Hj) as [Hl|[[Hs Hph]|(i & Hi & Hwho & Hs & Hph)]].
        + exists j. split; auto. destruct (Nat.eq_dec k j) as [->|]; lia.
        + destruct HE as [HE|HE]; [|eapply Key; eauto]. exfalso. apply HE. apply master_enabled; auto using run_inv.
          * now rewrite Hph.
          * intros w Hw. destruct Hs as (_ & _ & _ & E4). rewrite <- E4. auto.
        + apply (Key i); auto. lia.
    Qed.

    Lemma fair_returns : exists k, ph (run k) = Returned.
    Proof using H0 HS HF Hne Hws.
      assert (G : forall m r k, (work (run k) <= m)%nat -> (prank (run k) <= r)%nat -> exists k, ph (run k) = Returned).
      { induction m as [m IHm] using lt_wf_ind. induction r as [r IHr] using lt_wf_ind. intros k Hw Hp.
        assert (Dec : ph (run k) = Returned \/ ph (run k) <> Returned) by (destruct (ph (run k)); [right|right|right|left|right|right]; congruence).
        destruct Dec as [|Hr]; [eauto|]. destruct (progress k Hr) as [j [_ [Hl|[He Hl]]]].
        - destruct (le_lt_dec m (work (run j))) as [|Hlt]; [lia|]. apply (IHm _ Hlt (prank (run j)) j); lia.
        - assert (Hlt : (prank (run j) < r)%nat) by lia. apply (IHr _ Hlt j); lia. }
      apply (G (work (run 0)) (prank (run 0)) 0%nat); lia.
    Qed.
  End Fair.
End Facts.

(** * Proofs about np.random.choice with probabilities, in exact arithmetic *)
From Coq Require Import Reals ZArith List Bool Lra Lia.
From Coquelicot Require Import Coquelicot.
From Coq Require Import List.
From Verif Require Import Num PyBase XReal RList Tools ToolsFacts SpecTools TrimFacts ResampleFacts.
Import ListNotations.
Open Scope R_scope.

Fixpoint cumR (acc : R) (l : list R) : list R :=
  match l with [] => [] | w :: r => (acc + w) :: cumR (acc + w) r end.
Lemma cumsum_fin acc ws : cumsum (Fin acc) (map Fin ws) = map Fin (cumR acc ws).
Proof. revert acc; induction ws as [|w r IH]; intros acc; [reflexivity|]. cbn. f_equal. apply IH. Qed.
Lemma cumR_last acc ws d : ws <> [] -> last (cumR acc ws) d = acc + Rsum ws.
Proof.
  revert acc; induction ws as [|w r IH]; intros acc H; [easy|].
  destruct r as [|w' r]; [cbn; lra|].
  change (last (cumR (acc + w) (w' :: r)) d = acc + (w + Rsum (w' :: r))). rewrite IH by easy. lra.
Qed.
Lemma last_map_fin l d : last (map Fin l) (Fin d) = Fin (last l d).
Proof. induction l as [|a [|b l] IH]; [reflexivity|reflexivity|]. exact IH. Qed.
Lemma cumR_ge acc ws : Forall (fun w => 0 <= w) ws -> Forall (fun c => acc <= c) (cumR acc ws).
Proof.
  intros H; revert acc; induction H as [|w r Hw Hr IH]; intros acc; constructor; [lra|].
  eapply Forall_impl; [|apply IH]. intros c Hc; simpl in Hc; lra.
Qed.
Lemma filter_none {A} (f : A -> bool) l : Forall (fun a => f a = false) l -> filter f l = [].
Proof. induction 1; cbn; [easy|]. now rewrite H. Qed.

Lemma search_spec ws : Forall (fun w => 0 <= w) ws -> forall acc q, acc <= q < acc + Rsum ws ->
  let i := length (filter (fun c => Rleb c q) (cumR acc ws)) in
  (i < length ws)%nat /\ acc + cum ws i <= q < acc + cum ws (S i).
Proof.
  intros H; induction H as [|w r Hw Hr IH]; intros acc q Hq; cbn zeta; [cbn in Hq; lra|].
  cbn [cumR filter]. destruct (Rleb (acc + w) q) eqn:E.
  - apply Rleb_true in E. destruct (IH (acc + w) q) as [I1 I2].
    { change (Rsum (w :: r)) with (w + Rsum r) in Hq. lra. }
    cbn [length]. split; [lia|].
    change (cum (w :: r) (S ?k)) with (w + cum r k). lra.
  - apply Rleb_false in E. rewrite filter_none.
    + cbn [length]. split; [lia|]. rewrite cum_0. change (cum (w :: r) 1) with (w + cum r 0). rewrite cum_0. lra.
    + eapply Forall_impl; [|apply cumR_ge, Hr]. intros c Hc. cbn in Hc. apply Rleb_false. lra.
Qed.

Lemma searchsorted_fin tot cs u : 0 < tot ->
  searchsorted_right (map (fun c => (c / Fin tot)%num) (map Fin cs)) (Fin u) = length (filter (fun c => Rleb c (u * tot)) cs).
Proof.
  intros Ht. unfold searchsorted_right. rewrite map_map.
  induction cs as [|c cs IH]; [reflexivity|]. cbn [map filter].
  change (@ndiv X XNum) with xdiv in *. rewrite xdiv_fin by lra.
  change (@nleb X XNum) with xleb in *. cbn [xleb].
  assert (E : Rleb (c / tot) u = Rleb c (u * tot)).
  { apply eq_true_iff_eq. rewrite !Rleb_true. split; intros H.
    - apply (Rmult_le_compat_r tot) in H; [|lra]. replace (c / tot * tot) with c in H by (field; lra). exact H.
    - apply (Rmult_le_reg_r tot); [lra|]. replace (c / tot * tot) with c by (field; lra). exact H. }
  rewrite E. destruct (Rleb c (u * tot)); cbn [length]; [f_equal|]; exact IH.
Qed.

Lemma existsb_nan_fin ws : existsb nisnan (map Fin ws) = false.
Proof. induction ws; [reflexivity|]. exact IHws. Qed.
Lemma existsb_neg_fin ws : existsb (fun w => (w <? nofZ 0)%num) (map Fin ws) = true <-> Exists (fun w => w < 0) ws.
Proof.
  rewrite existsb_exists, Exists_exists. split.
  - intros [x [Hx Hl]]. apply in_map_iff in Hx as [w [<- Hw]]. exists w. split; [exact Hw|]. now apply Rltb_true in Hl.
  - intros [w [Hw Hl]]. exists (Fin w). split; [now apply in_map|]. now apply Rltb_true.
Qed.

Lemma random_choice_spec us ws : Forall (fun w => 0 <= w) ws -> Rabs (total ws - 1) <= / 2 ^ 26 ->
  Forall (fun u => 0 <= u < 1) us ->
  exists idx, random_choice (map Fin us) (map Fin ws) = Ok idx /\
    Forall2 (fun u i => (i < length ws)%nat /\ 0 < nth i ws 0 /\
                        total (firstn i ws) <= u * total ws < total (firstn (S i) ws)) us idx.
Proof.
  rewrite total_Rsum. intros Hn Ht Hu.
  unfold random_choice. rewrite existsb_nan_fin.
  destruct (existsb _ (map Fin ws)) eqn:En.
  { exfalso. apply existsb_neg_fin in En. apply Exists_exists in En as [w [Hw Hl]].
    rewrite Forall_forall in Hn. specialize (Hn w Hw). lra. }
  rewrite nsum_fin, SQRTEPS_fin.
  change (Fin (/ 2 ^ 26) <? nabs (Fin (Rsum ws) - nofZ 1))%num with (Rltb (/ 2 ^ 26) (Rabs (Rsum ws - 1))).
  rewrite (proj2 (Rltb_false _ _)) by exact Ht.
  assert (P : 0 < Rsum ws). { apply Rabs_le_between in Ht. assert (/ 2 ^ 26 < 1); [|lra]. apply (Rmult_lt_reg_r (2 ^ 26)); [lra|]. rewrite Rinv_l; lra. }
  assert (NE : ws <> []). { intros ->. cbn in P. lra. }
  change (nofZ 0) with (Fin 0). rewrite cumsum_fin, last_map_fin, cumR_last by exact NE.
  eexists. split; [reflexivity|].
  rewrite map_map. induction Hu as [|u us Hu Hus IH]; cbn [map]; constructor; [|exact IH].
  rewrite searchsorted_fin by lra. rewrite !total_Rsum.
  destruct (search_spec ws Hn 0 (u * (0 + Rsum ws))) as [S1 S2].
  { split; [nra|]. nra. }
  set (i := length (filter _ _)) in *. split; [exact S1|].
  rewrite cum_S in S2 by exact S1. change (Rsum (firstn i ws)) with (cum ws i). change (Rsum (firstn (S i) ws)) with (cum ws (S i)). rewrite cum_S by exact S1.
  split; [lra|]. replace (u * (0 + Rsum ws)) with (u * Rsum ws) in S2 by ring. lra.
Qed.

Lemma random_choice_error us ws :
  (random_choice (map Fin us) (map Fin ws) = Err ValueError <->
   Exists (fun w => w < 0) ws \/ / 2 ^ 26 < Rabs (total ws - 1)) /\
  (forall e, random_choice (map Fin us) (map Fin ws) = Err e -> e = ValueError).
Proof.
  rewrite total_Rsum. unfold random_choice. rewrite existsb_nan_fin.
  pose proof (existsb_neg_fin ws) as EN. rewrite nsum_fin, SQRTEPS_fin.
  change (Fin (/ 2 ^ 26) <? nabs (Fin (Rsum ws) - nofZ 1))%num with (Rltb (/ 2 ^ 26) (Rabs (Rsum ws - 1))).
  destruct (existsb _ (map Fin ws)).
  - split; [|intros e He; now inversion He]. split; [|easy]. intros _. left. now apply EN.
  - destruct (Rltb _ _) eqn:E.
    + split; [|intros e He; now inversion He]. split; [|easy]. intros _. right. now apply Rltb_true.
    + split; [|discriminate]. split; [discriminate|]. intros [H|H].
      * apply EN in H. discriminate.
      * apply Rltb_false in E. lra.
Qed.

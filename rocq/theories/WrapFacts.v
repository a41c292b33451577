(** * Proofs about the periodic and reflective boundary conditions *)
From Coq Require Import Reals ZArith List Bool Lra Lia.
From Verif Require Import Num PyBase PyBaseFacts XReal RList FloatNum Scaler ScalerStruct SpecScaler.
Import ListNotations.
Open Scope R_scope.

(** ** The while loops on reals *)
Lemma while_gt_stop fuel h step x : x <= h -> @while_gt X XNumT fuel (Fin h) step (Fin x) = Ok (Fin x).
Proof. intros H. destruct fuel; cbn; rewrite (proj2 (Rltb_false h x)) by lra; reflexivity. Qed.
Lemma while_lt_stop fuel l step x : l <= x -> @while_lt X XNumT fuel (Fin l) step (Fin x) = Ok (Fin x).
Proof. intros H. destruct fuel; cbn; rewrite (proj2 (Rltb_false x l)) by lra; reflexivity. Qed.
Lemma while_gt_step f h step x y : h < x -> step (Fin x) = Fin y ->
  @while_gt X XNumT (S f) (Fin h) step (Fin x) = while_gt f (Fin h) step (Fin y).
Proof. intros H E. cbn [while_gt]. change (@nltb X _ (Fin h) (Fin x)) with (Rltb h x). rewrite (proj2 (Rltb_true h x)) by lra. now rewrite E. Qed.
Lemma while_lt_step f l step x y : x < l -> step (Fin x) = Fin y ->
  @while_lt X XNumT (S f) (Fin l) step (Fin x) = while_lt f (Fin l) step (Fin y).
Proof. intros H E. cbn [while_lt]. change (@nltb X _ (Fin x) (Fin l)) with (Rltb x l). rewrite (proj2 (Rltb_true x l)) by lra. now rewrite E. Qed.

Section Wrap.
  Context (l h : R) (Hlh : l < h).

  Lemma periodic_gt N : forall x fuel, x <= h + INR N * (h - l) -> (N <= fuel)%nat ->
    exists y (k : nat), @while_gt X XNumT fuel (Fin h) (fun x => nsub (nadd (Fin l) x) (Fin h)) (Fin x) = Ok (Fin y) /\
      y = x - INR k * (h - l) /\ y <= h /\ (h < x -> l < y) /\ (x <= h -> y = x).
  Proof using Hlh.
    induction N as [|N IH]; intros x fuel Hx Hf.
    - simpl in Hx. exists x, 0%nat. rewrite while_gt_stop by lra. simpl. repeat split; try lra.
    - destruct (Rle_dec x h) as [Hc|Hc].
      { exists x, 0%nat. rewrite while_gt_stop by lra. simpl. repeat split; try lra. }
      destruct fuel as [|fuel]; [lia|].
      rewrite (while_gt_step _ _ _ _ (l + x - h)) by (try lra; reflexivity).
      rewrite S_INR in Hx.
      destruct (IH (l + x - h) fuel) as [y [k [E [Ey [H1 [H2 H3]]]]]]; [lra|lia|].
      exists y, (S k). rewrite S_INR. split; [exact E|]. split; [lra|]. split; [lra|]. split; [|intros; lra].
      intros _. destruct (Rle_dec (l + x - h) h) as [H4|H4]; [rewrite (H3 H4); lra|apply H2; lra].
  Qed.
  Lemma periodic_lt N : forall x fuel, l - INR N * (h - l) <= x -> (N <= fuel)%nat ->
    exists y (k : nat), @while_lt X XNumT fuel (Fin l) (fun x => nsub (nadd (Fin h) x) (Fin l)) (Fin x) = Ok (Fin y) /\
      y = x + INR k * (h - l) /\ l <= y /\ (x < l -> y < h) /\ (l <= x -> y = x).
  Proof using Hlh.
    induction N as [|N IH]; intros x fuel Hx Hf.
    - simpl in Hx. exists x, 0%nat. rewrite while_lt_stop by lra. simpl. repeat split; try lra.
    - destruct (Rle_dec l x) as [Hc|Hc].
      { exists x, 0%nat. rewrite while_lt_stop by lra. simpl. repeat split; try lra. }
      destruct fuel as [|fuel]; [lia|].
      rewrite (while_lt_step _ _ _ _ (h + x - l)) by (try lra; reflexivity).
      rewrite S_INR in Hx.
      destruct (IH (h + x - l) fuel) as [y [k [E [Ey [H1 [H2 H3]]]]]]; [lra|lia|].
      exists y, (S k). rewrite S_INR. split; [exact E|]. split; [lra|]. split; [lra|]. split; [|intros; lra].
      intros _. destruct (Rle_dec l (h + x - l)) as [H4|H4]; [rewrite (H3 H4); lra|apply H2; lra].
  Qed.

  Lemma nat_above a : exists N, a <= INR N.
  Proof. destruct (archimed a) as [H _]. exists (Z.to_nat (up a)).
    destruct (Z_le_dec 0 (up a)).
    - rewrite INR_IZR_INZ, Z2Nat.id by assumption. lra.
    - replace (Z.to_nat (up a)) with 0%nat by lia. assert (IZR (up a) <= 0) by (apply IZR_le; lia). simpl. lra. Qed.

  (** the value of the periodic wrap *)
  Definition is_periodic_wrap (x y : R) : Prop :=
    l <= y <= h /\ (exists k : Z, y = x + IZR k * (h - l)) /\ (l <= x <= h -> y = x).

  Lemma wrap_periodic_ok x : exists y fuel0, is_periodic_wrap x y /\
    forall fuel, (fuel0 <= fuel)%nat -> @wrap_periodic X XNumT fuel (Fin l) (Fin h) (Fin x) = Ok (Fin y).
  Proof using Hlh.
    assert (W : 0 < h - l) by lra.
    destruct (nat_above ((x - h) / (h - l))) as [N1 H1]. destruct (nat_above ((l - x) / (h - l))) as [N2 H2].
    assert (B1 : x <= h + INR N1 * (h - l)).
    { apply (Rmult_le_compat_r (h - l)) in H1; [|lra]. unfold Rdiv in H1. rewrite Rmult_assoc, Rinv_l in H1 by lra. lra. }
    assert (B2 : l - INR N2 * (h - l) <= x).
    { apply (Rmult_le_compat_r (h - l)) in H2; [|lra]. unfold Rdiv in H2. rewrite Rmult_assoc, Rinv_l in H2 by lra. lra. }
    pose proof (pos_INR N2) as P2.
    destruct (periodic_gt N1 x (Nat.max N1 N2) B1 ltac:(lia)) as [y [k [E1 [Ey [Y1 [Y2 Y3]]]]]].
    assert (B3 : l - INR N2 * (h - l) <= y).
    { destruct (Rle_dec x h) as [Hx|Hx]; [rewrite (Y3 Hx); lra|]. assert (l < y) by (apply Y2; lra). nra. }
    destruct (periodic_lt N2 y (Nat.max N1 N2) B3 ltac:(lia)) as [z [k' [E2 [Ez [Z1 [Z2 Z3]]]]]].
    exists z, (Nat.max N1 N2). split.
    - assert (z <= h). { destruct (Rle_dec l y) as [Hy|Hy]; [rewrite (Z3 Hy); lra|]. left. apply Z2. lra. }
      split; [lra|]. split.
      + exists (Z.of_nat k' - Z.of_nat k)%Z. rewrite minus_IZR, <- !INR_IZR_INZ. rewrite Ez, Ey. ring.
      + intros [H3 H4]. rewrite Z3; rewrite (Y3 H4); auto.
    - intros fuel Hf. unfold wrap_periodic. xnum.
      destruct (periodic_gt N1 x fuel B1 ltac:(lia)) as [y' [k1 [E1' [Ey' [Y1' [Y2' Y3']]]]]].
      rewrite E1'. cbn [bind].
      assert (EY : y' = y).
      { destruct (Rle_dec x h) as [Hx|Hx]; [rewrite Y3, Y3' by assumption; reflexivity|].
        assert (l < y) by (apply Y2; lra). assert (l < y') by (apply Y2'; lra).
        assert (Q : y' - y = (INR k - INR k1) * (h - l)) by lra.
        rewrite !INR_IZR_INZ, <- minus_IZR in Q.
        destruct (Z.lt_trichotomy (Z.of_nat k - Z.of_nat k1) 0) as [C|[C|C]].
        - assert (IZR (Z.of_nat k - Z.of_nat k1) <= -1) by (apply IZR_le; lia). nra.
        - rewrite C in Q. lra.
        - assert (1 <= IZR (Z.of_nat k - Z.of_nat k1)) by (apply IZR_le; lia). nra. }
      rewrite EY.
      destruct (periodic_lt N2 y fuel B3 ltac:(lia)) as [z' [k2 [E2' [Ez' [Z1' [Z2' Z3']]]]]].
      transitivity (Ok (Fin z')); [exact E2'|]. f_equal. f_equal.
      destruct (Rle_dec l y) as [Hy|Hy]; [rewrite Z3, Z3' by assumption; reflexivity|].
      assert (z < h) by (apply Z2; lra). assert (z' < h) by (apply Z2'; lra).
      assert (Q : z' - z = (INR k2 - INR k') * (h - l)) by lra.
      rewrite !INR_IZR_INZ, <- minus_IZR in Q.
      destruct (Z.lt_trichotomy (Z.of_nat k2 - Z.of_nat k') 0) as [C|[C|C]].
      + assert (IZR (Z.of_nat k2 - Z.of_nat k') <= -1) by (apply IZR_le; lia). nra.
      + rewrite C in Q. lra.
      + assert (1 <= IZR (Z.of_nat k2 - Z.of_nat k')) by (apply IZR_le; lia). nra.
  Qed.

  (** the value of the reflective fold *)
  Definition reflect (x : R) : R :=
    if Rlt_dec h x then (if Rlt_dec (2 * h - x) l then x - 2 * (h - l) else 2 * h - x)
    else if Rlt_dec x l then 2 * l - x else x.

  Lemma wrap_reflective_ok x fuel : (1 <= fuel)%nat ->
    @wrap_reflective X XNumT fuel (Fin l) (Fin h) (Fin x) = Ok (Fin (reflect x)).
  Proof using Hlh.
    intros Hf. destruct fuel as [|fuel]; [lia|]. unfold wrap_reflective, reflect. xnum.
    destruct (Rlt_dec h x) as [H1|H1].
    - rewrite (while_gt_step _ _ _ _ (h - x + h)) by (try lra; reflexivity).
      rewrite while_gt_stop by lra. cbn [bind].
      destruct (Rlt_dec (2 * h - x) l) as [H2|H2].
      + rewrite (while_lt_step _ _ _ _ (l + l - (h - x + h))) by (try lra; reflexivity).
        rewrite while_lt_stop by lra. f_equal. f_equal. ring.
      + rewrite while_lt_stop by lra. f_equal. f_equal. ring.
    - rewrite while_gt_stop by lra. cbn [bind].
      destruct (Rlt_dec x l) as [H2|H2].
      + rewrite (while_lt_step _ _ _ _ (l + l - x)) by (try lra; reflexivity).
        rewrite while_lt_stop by lra. f_equal. f_equal. ring.
      + rewrite while_lt_stop by lra. reflexivity.
  Qed.
  Lemma reflect_range x : l <= reflect x <= h <-> l - (h - l) <= x <= h + 2 * (h - l).
  Proof using Hlh. unfold reflect. repeat destruct Rlt_dec; lra. Qed.
  Lemma reflect_inside x : l <= x <= h -> reflect x = x.
  Proof using Hlh. unfold reflect. intros; repeat destruct Rlt_dec; lra. Qed.
  Lemma reflect_cases x : reflect x = x \/ reflect x = 2 * h - x \/ reflect x = 2 * l - x \/ reflect x = x - 2 * (h - l).
  Proof using Hlh. unfold reflect. repeat destruct Rlt_dec; auto. Qed.
End Wrap.

(** in-range entries are not touched, whatever the (admissible) bounds *)
Lemma wrap_periodic_inside fuel lo hi x : inside_closed lo hi x -> admissible lo hi ->
  @wrap_periodic X XNumT fuel lo hi (Fin x) = Ok (Fin x).
Proof.
  intros [A B] Ha. unfold wrap_periodic. xnum.
  assert (E1 : forall step, @while_gt X XNumT fuel hi step (Fin x) = Ok (Fin x)).
  { intros. destruct hi as [h| | |]; try (destruct lo; contradiction); [apply while_gt_stop; auto| |]; destruct fuel; reflexivity. }
  assert (E2 : forall step, @while_lt X XNumT fuel lo step (Fin x) = Ok (Fin x)).
  { intros. destruct lo as [l| | |]; try contradiction; [apply while_lt_stop; auto| |]; destruct fuel; reflexivity. }
  rewrite E1. cbn [bind]. apply E2.
Qed.
Lemma wrap_reflective_inside fuel lo hi x : inside_closed lo hi x -> admissible lo hi ->
  @wrap_reflective X XNumT fuel lo hi (Fin x) = Ok (Fin x).
Proof.
  intros [A B] Ha. unfold wrap_reflective. xnum.
  assert (E1 : forall step, @while_gt X XNumT fuel hi step (Fin x) = Ok (Fin x)).
  { intros. destruct hi as [h| | |]; try (destruct lo; contradiction); [apply while_gt_stop; auto| |]; destruct fuel; reflexivity. }
  assert (E2 : forall step, @while_lt X XNumT fuel lo step (Fin x) = Ok (Fin x)).
  { intros. destruct lo as [l| | |]; try contradiction; [apply while_lt_stop; auto| |]; destruct fuel; reflexivity. }
  rewrite E1. cbn [bind]. apply E2.
Qed.

(** ** Indices *)
Lemma col_index_designates n z : valid_index n z -> exists i, (i < n)%nat /\ column_of n z = i /\ col_index n z = Some i.
Proof.
  unfold valid_index, column_of, col_index. intros H.
  destruct (Z.leb_spec 0 z).
  - destruct (Z.ltb_spec z 0); [lia|]. destruct (Z.ltb_spec z (Z.of_nat n)); [|lia]. exists (Z.to_nat z). split; [lia|auto].
  - destruct (Z.ltb_spec z 0); [|lia]. destruct (Z.leb_spec 0 (z + Z.of_nat n)); [|lia]. exists (Z.to_nat (z + Z.of_nat n)). split; [lia|auto].
Qed.
Lemma py_index_column {A} (l : list A) z d : valid_index (length l) z ->
  py_index l z = Some (nth (column_of (length l) z) l d).
Proof.
  unfold valid_index, column_of, py_index. intros H.
  destruct (Z.leb_spec 0 z).
  - destruct (Z.ltb_spec z 0); [lia|]. apply nth_error_nth'. lia.
  - destruct (Z.ltb_spec z 0); [|lia]. destruct (Z.leb_spec 0 (z + Z.of_nat (length l))); [|lia]. apply nth_error_nth'. lia.
Qed.

Section Rows.
  Context (wrap : X -> X -> X -> res X) (lo hi : list X) (n : nat).
  Context (Hlo : length lo = n) (Hhi : length hi = n).

  (** one pass over the row: column i ends with a value satisfying P i *)
  Lemma wrap_row_one z idx row y : valid_index n z -> length row = n ->
    wrap (nth (column_of n z) lo NaN) (nth (column_of n z) hi NaN) (Fin (nth (column_of n z) row 0)) = Ok (Fin y) ->
    wrap_row wrap (z :: idx) lo hi (map Fin row) = wrap_row wrap idx lo hi (map Fin (set_nth (column_of n z) y row)).
  Proof using Hlo Hhi.
    intros Hz Hr HW. cbn [wrap_row]. rewrite map_length, Hr.
    destruct (col_index_designates n z Hz) as [i [Hi [Ei Ec]]]. rewrite Ec. cbn [of_option bind].
    rewrite Ei in *. rewrite (nth_error_nth' (map Fin row) (Fin 0)) by (rewrite map_length; lia). cbn [of_option bind].
    rewrite (py_index_column hi z NaN) by (now rewrite Hhi). rewrite Hhi, Ei. cbn [of_option bind].
    rewrite (py_index_column lo z NaN) by (now rewrite Hlo). rewrite Hlo, Ei. cbn [of_option bind].
    rewrite map_nth, HW. cbn [bind]. now rewrite set_nth_map.
  Qed.
End Rows.

Lemma nth_set_nth {A} i j (v d : A) l : (i < length l)%nat -> nth j (set_nth i v l) d = if Nat.eqb j i then v else nth j l d.
Proof.
  intros H. destruct (Nat.eqb_spec j i); [subst; now apply nth_set_nth_eq|apply nth_set_nth_neq; lia].
Qed.

Section PeriodicRow.
  Context (lo hi : list X) (n : nat) (Hlo : length lo = n) (Hhi : length hi = n).
  Definition fin_range (i : nat) : Prop := exists l h, nth i lo NaN = Fin l /\ nth i hi NaN = Fin h /\ l < h.
  Definition periodic_col (i : nat) (x y : R) : Prop :=
    forall l h, nth i lo NaN = Fin l -> nth i hi NaN = Fin h ->
      l <= y <= h /\ (exists k : Z, y = x + IZR k * (h - l)) /\ (l <= x <= h -> y = x).

  Lemma periodic_row idx : Forall (valid_index n) idx -> Forall (fun z => fin_range (column_of n z)) idx ->
    forall row, length row = n -> exists out fuel0, length out = n /\
      (forall i, (i < n)%nat -> if designated n idx i then periodic_col i (nth i row 0) (nth i out 0) else nth i out 0 = nth i row 0) /\
      forall fuel, (fuel0 <= fuel)%nat -> wrap_row (@wrap_periodic X XNumT fuel) idx lo hi (map Fin row) = Ok (map Fin out).
  Proof using Hlo Hhi.
    induction idx as [|z idx IH]; intros HV HF row Hr.
    - exists row, 0%nat. repeat split; auto.
    - pose proof (Forall_inv HV) as H1. pose proof (Forall_inv_tail HV) as H2. pose proof (Forall_inv HF) as H5. pose proof (Forall_inv_tail HF) as H6.
      cbv beta in H5. destruct H5 as [l [h [El [Eh Hlh]]]].
      remember (column_of n z) as c eqn:Ec.
      assert (Hc : (c < length row)%nat) by (destruct (col_index_designates _ z H1) as [i [Hi [Ei _]]]; rewrite Ec, Hr, Ei; exact Hi).
      destruct (wrap_periodic_ok l h Hlh (nth c row 0)) as [y [f0 [Hy HW]]].
      destruct (IH H2 H6 (set_nth c y row)) as [out [f1 [Lo [Ho Hout]]]]; [now rewrite set_nth_length|].
      exists out, (Nat.max f0 f1). split; [auto|]. split.
      + intros i Hi. specialize (Ho i Hi). rewrite nth_set_nth in Ho by assumption.
        unfold designated in Ho |- *. cbn [existsb]. rewrite <- Ec. unfold designated in Ho. destruct (Nat.eqb_spec i c) as [Heq|Hne]; [subst i|].
        * rewrite (Nat.eqb_refl c). cbn [orb]. intros l' h' El' Eh'. rewrite El in El'; injection El' as <-. rewrite Eh in Eh'; injection Eh' as <-.
          destruct Hy as [Y1 [[k Y2] Y3]].
          destruct (existsb _ _) in Ho.
          -- destruct (Ho l h El Eh) as [O1 [[k' O2] O3]]. rewrite (O3 Y1). repeat split; try lra; eauto.
          -- rewrite Ho. repeat split; try lra; eauto.
        * replace (Nat.eqb c i) with false by (symmetry; apply Nat.eqb_neq; lia). cbn [orb]. exact Ho.
      + intros fuel Hf. rewrite (wrap_row_one _ lo hi n Hlo Hhi z idx row y); auto.
        * rewrite <- Ec; apply Hout. lia.
        * rewrite <- Ec, El, Eh. apply HW. lia.
  Qed.

  Lemma reflective_row idx : Forall (valid_index n) idx -> Forall (fun z => fin_range (column_of n z)) idx ->
    NoDup (map (column_of n) idx) ->
    forall row, length row = n -> exists out, length out = n /\
      (forall i, (i < n)%nat ->
         if designated n idx i
         then forall l h, nth i lo NaN = Fin l -> nth i hi NaN = Fin h -> nth i out 0 = reflect l h (nth i row 0)
         else nth i out 0 = nth i row 0) /\
      forall fuel, (1 <= fuel)%nat -> wrap_row (@wrap_reflective X XNumT fuel) idx lo hi (map Fin row) = Ok (map Fin out).
  Proof using Hlo Hhi.
    induction idx as [|z idx IH]; intros HV HF HD row Hr.
    - exists row. repeat split; auto.
    - pose proof (Forall_inv HV) as H1. pose proof (Forall_inv_tail HV) as H2. pose proof (Forall_inv HF) as H5. pose proof (Forall_inv_tail HF) as H6.
      cbn [map] in HD. apply NoDup_cons_iff in HD as [H9 H10]. cbv beta in H5. destruct H5 as [l [h [El [Eh Hlh]]]].
      remember (column_of n z) as c eqn:Ec.
      assert (Hc : (c < length row)%nat) by (destruct (col_index_designates _ z H1) as [i [Hi [Ei _]]]; rewrite Ec, Hr, Ei; exact Hi).
      pose proof (wrap_reflective_ok l h Hlh (nth c row 0)) as HW.
      destruct (IH H2 H6 H10 (set_nth c (reflect l h (nth c row 0)) row)) as [out [Lo [Ho Hout]]]; [now rewrite set_nth_length|].
      exists out. split; [auto|]. split.
      + intros i Hi. specialize (Ho i Hi). rewrite nth_set_nth in Ho by assumption.
        unfold designated in Ho |- *. cbn [existsb]. rewrite <- Ec. unfold designated in Ho. destruct (Nat.eqb_spec i c) as [Heq|Hne]; [subst i|].
        * rewrite (Nat.eqb_refl c). cbn [orb]. intros l' h' El' Eh'. rewrite El in El'; injection El' as <-. rewrite Eh in Eh'; injection Eh' as <-.
          destruct (existsb _ _) eqn:Ex in Ho; [|exact Ho].
          exfalso. apply H9. apply existsb_exists in Ex as [z' [Hin He]]. apply Nat.eqb_eq in He. rewrite <- He. now apply in_map.
        * replace (Nat.eqb c i) with false by (symmetry; apply Nat.eqb_neq; lia). cbn [orb]. exact Ho.
      + intros fuel Hf. rewrite (wrap_row_one _ lo hi n Hlo Hhi z idx row (reflect l h (nth c row 0))); auto; [rewrite <- Ec; now apply Hout|].
        rewrite <- Ec, El, Eh. now apply HW.
  Qed.

  Lemma wrap_row_noop wrap idx row :
    (forall lo hi x, inside_closed lo hi x -> admissible lo hi -> wrap lo hi (Fin x) = Ok (Fin x)) ->
    Forall (valid_index n) idx -> length row = n ->
    (forall i, (i < n)%nat -> inside_closed (nth i lo NaN) (nth i hi NaN) (nth i row 0) /\ admissible (nth i lo NaN) (nth i hi NaN)) ->
    wrap_row wrap idx lo hi (map Fin row) = Ok (map Fin row).
  Proof using Hlo Hhi.
    intros HW HV Hr HI. induction HV as [|z idx Hz HV IH]; [reflexivity|].
    destruct (col_index_designates _ z Hz) as [i [Hi [Ei _]]].
    rewrite (wrap_row_one _ lo hi n Hlo Hhi z idx row (nth (column_of n z) row 0)); auto.
    - rewrite set_nth_same. exact IH.
    - rewrite Ei. apply HW; now apply HI.
  Qed.
End PeriodicRow.

(** ** Divergence *)
Lemma periodic_fixed_diverges {T} {NT : NumT T} (lo hi x : T) :
  nltb hi x = true -> nsub (nadd lo x) hi = x -> forall fuel, wrap_periodic fuel lo hi x = Err Diverge.
Proof.
  intros H1 H2 fuel. unfold wrap_periodic.
  assert (E : while_gt fuel hi (fun x => nsub (nadd lo x) hi) x = Err Diverge).
  { induction fuel; cbn [while_gt]; rewrite H1; auto. rewrite H2. exact IHfuel. }
  now rewrite E.
Qed.

(** * Concrete objects used to show that the hypotheses of PropScaler.v are met,
      and three small lemmas *)
From Coq Require Import Reals ZArith List Bool Lra Lia.
From Coquelicot Require Import Coquelicot.
From Coq Require Import List.
From Verif Require Import Num PyBase PyBaseFacts XReal RList FloatNum Scaler ScalerStruct SpecScaler ScalerFacts WrapFacts ScalerSpecFacts.
Import ListNotations.
Open Scope R_scope.

Definition mkr (n : nat) (rows : list (X * X)) per refl (t : transf) (sc dg : bool) mu sigma L Li ld : reparam X :=
  let K := map2 kind_of (map fst rows) (map snd rows) in
  {| ndim := n; low := map fst rows; high := map snd rows; periodic := per; reflective := refl; transform := t;
     scale := sc; diagonal := dg; mask_none := map is_none K; mask_left := map is_left K; mask_right := map is_right K;
     mask_both := map is_both K; mu := mu; sigma := sigma; Lmat := L; L_inv := Li; log_det_L := ld |}.

Definition case_rows : list (X * X) := [(NaN, PInf); (Fin 0, PInf); (NInf, Fin (-1)); (Fin 0, Fin 1)].
Definition case_reparam : reparam X :=
  mkr 4 case_rows None None Logit true true (Some (map Fin [1; 2; 3; 4])) (Some (map Fin [1; 2; 1/2; 3])) None None None.
Lemma case_constructed : constructed case_reparam 4 case_rows.
Proof.
  split; [reflexivity|]. split.
  - intros p [<-|[<-|[<-|[<-|[]]]]]; simpl; auto. lra.
  - exists (fun x => x), None, None, Logit, true, true, (mkr 4 case_rows None None Logit true true None None None None None).
    split; [reflexivity|]. repeat split.
Qed.
Lemma case_diagonal : diagonal_scaling case_reparam 4.
Proof. right. split; [reflexivity|]. exists [1; 2; 3; 4], [1; 2; 1/2; 3]. repeat split. fall. Qed.
Lemma case_fitted : fitted case_reparam.
Proof. right. split; eexists; reflexivity. Qed.
Ltac ins := split; intros ? E; inversion E; subst; lra.
Lemma case_inside : Forall (row_inside (map fst case_rows) (map snd case_rows)) [[5; 1; -3; 1/2]; [-5; 2; -4; 1/4]].
Proof.
  apply Forall_cons; [|apply Forall_cons; [|apply Forall_nil]]; (split; [reflexivity|]; intros [|[|[|[|i]]]] Hi; cbn in *; try lia; ins).
Qed.
Lemma case_closed : Forall (fun x => length x = 4%nat /\ forall i, (i < 4)%nat ->
     inside_closed (nth i (map fst case_rows) NaN) (nth i (map snd case_rows) NaN) (nth i x 0)) [[5; 1; -1; 1]].
Proof. apply Forall_cons; [|apply Forall_nil]. split; [reflexivity|]. intros [|[|[|[|i]]]] Hi; cbn in *; try lia; ins. Qed.
Lemma case_two_values i : (i < 4)%nat -> exists x y, In x [[5; 1; -3; 1/2]; [-5; 2; -4; 1/4]] /\ In y [[5; 1; -3; 1/2]; [-5; 2; -4; 1/4]] /\ nth i x 0 <> nth i y 0.
Proof.
  intros Hi. exists [5; 1; -3; 1/2], [-5; 2; -4; 1/4]. split; [simpl; auto|]. split; [simpl; auto|].
  destruct i as [|[|[|[|i]]]]; cbn; try lia; lra.
Qed.

Definition case_rows_full : list (X * X) := [(Fin 0, PInf); (Fin 0, Fin 1)].
Definition case_reparam_full : reparam X :=
  mkr 2 case_rows_full None None Probit true false (Some (map Fin [1; 2])) None
    (Some (map (map Fin) [[2; 0]; [1; 4]])) (Some (map (map Fin) [[1/2; 0]; [-1/8; 1/4]])) (Some (Fin (ln 8))).
Lemma case_full_constructed : constructed case_reparam_full 2 case_rows_full.
Proof.
  split; [reflexivity|]. split.
  - intros p [<-|[<-|[]]]; simpl; auto. lra.
  - exists (fun x => x), None, None, Probit, true, false, (mkr 2 case_rows_full None None Probit true false None None None None None).
    split; [reflexivity|]. repeat split.
Qed.
Lemma case_full_scaling : scaling_ok case_reparam_full 2.
Proof.
  right; right. split; [reflexivity|]. exists [1; 2], [[2; 0]; [1; 4]], [[1/2; 0]; [-1/8; 1/4]], (Fin (ln 8)).
  repeat (split; [reflexivity|]). intros [|a [|b [|c v]]] Hv; simpl in Hv; try lia.
  unfold Rmatvec, Rdot; simpl. split; repeat f_equal; lra.
Qed.

Definition case_rows_per : list (X * X) := [(NInf, PInf); (Fin 0, Fin 1)].
Definition case_periodic : reparam X := mkr 2 case_rows_per (Some [(-1)%Z]) None Probit false true None None None None None.
Definition case_reflective : reparam X := mkr 2 case_rows_per None (Some [1%Z]) Probit false true None None None None None.
Lemma case_per_constructed per refl : constructed (mkr 2 case_rows_per per refl Probit false true None None None None None) 2 case_rows_per.
Proof.
  split; [reflexivity|]. split.
  - intros p [<-|[<-|[]]]; simpl; auto. lra.
  - exists (fun x => x), per, refl, Probit, false, true, (mkr 2 case_rows_per per refl Probit false true None None None None None).
    split; [reflexivity|]. repeat split.
Qed.
Lemma case_periodic_ok : constructed case_periodic 2 case_rows_per /\ periodic case_periodic = Some [(-1)%Z] /\ reflective case_periodic = None /\
  Forall (valid_index 2) [(-1)%Z] /\
  (forall z, In z [(-1)%Z] -> exists l h, nth (column_of 2 z) case_rows_per (NaN, NaN) = (Fin l, Fin h)) /\
  Forall (fun x => length x = 2%nat) [[1; 1000]; [2; -1000]].
Proof.
  split; [apply case_per_constructed|]. split; [reflexivity|]. split; [reflexivity|]. split; [constructor; [unfold valid_index; simpl; lia|constructor]|].
  split; [|repeat constructor]. intros z [<-|[]]. exists 0, 1. reflexivity.
Qed.
Lemma case_reflective_ok : constructed case_reflective 2 case_rows_per /\ periodic case_reflective = None /\ reflective case_reflective = Some [1%Z] /\
  Forall (valid_index 2) [1%Z] /\ NoDup (map (column_of 2) [1%Z]) /\
  (forall z, In z [1%Z] -> exists l h, nth (column_of 2 z) case_rows_per (NaN, NaN) = (Fin l, Fin h)) /\
  Forall (fun x => length x = 2%nat) [[1; 7/2]; [2; -1000]].
Proof.
  split; [apply case_per_constructed|]. split; [reflexivity|]. split; [reflexivity|]. split; [constructor; [unfold valid_index; simpl; lia|constructor]|].
  split; [constructor; [easy|constructor]|]. split; [|repeat constructor]. intros z [<-|[]]. exists 0, 1. reflexivity.
Qed.
Lemma case_periodic_noop : constructed case_periodic 2 case_rows_per /\ scaling_ok case_periodic 2 /\
  index_list_ok 2 (periodic case_periodic) /\ index_list_ok 2 (reflective case_periodic).
Proof.
  split; [apply case_per_constructed|]. split; [now left|]. split; [|exact I]. constructor; [unfold valid_index; simpl; lia|constructor].
Qed.

Lemma inverse_strictly_inside r n rows junk us :
  constructed r n rows -> scaling_ok r n -> length junk = n -> Forall (fun u => length u = n) us ->
  exists xs lds, inverse r junk (map (map Fin) us) = Ok (map (map Fin) xs, lds) /\
    Forall (row_inside (map fst rows) (map snd rows)) xs.
Proof.
  intros H1 H2 H3 H4. destruct (forward_of_inverse r n rows junk junk us true H1 H2 H3 H3 H4) as [xs [lds [A [B _]]]]. eauto.
Qed.

Lemma float_diverges exp log pow erf erfinv pi fuel :
  @wrap_periodic B64 (B64NumT exp log pow erf erfinv pi) fuel (b64_ofZ 0) (b64_ofZ 1) (b64_ofZ (10 ^ 17)) = Err Diverge.
Proof. apply periodic_fixed_diverges; vm_compute; reflexivity. Qed.

Lemma infinite_diverges l h fuel :
  @wrap_periodic X XNumT fuel (Fin l) (Fin h) PInf = Err Diverge /\
  @wrap_periodic X XNumT fuel (Fin l) (Fin h) NInf = Err Diverge.
Proof.
  split.
  - apply periodic_fixed_diverges; reflexivity.
  - unfold wrap_periodic. replace (while_gt _ _ _ NInf) with (Ok NInf : res X) by (destruct fuel; reflexivity). cbn [bind].
    induction fuel; [reflexivity|]. exact IHfuel.
Qed.

Lemma jacobian_full r n rows junk us m L ld :
  constructed r n rows -> scale r = true -> diagonal r = false ->
  mu r = Some (map Fin m) -> Lmat r = Some (map (map Fin) L) -> log_det_L r = Some (Fin ld) ->
  length m = n -> length L = n -> length junk = n -> Forall (fun u => length u = n) us ->
  let affine u := map (fun i => nth i m 0 + Rdot (nth i L []) u) (seq 0 n) in
  exists (g d : nat -> R -> R),
    (forall i v, (i < n)%nat -> is_derive (g i) v (d i v) /\ d i v <> 0) /\
    inverse r junk (map (map Fin) us) =
      Ok (map (fun u => map (fun i => Fin (g i (nth i (affine u) 0))) (seq 0 n)) us,
          map (fun u => Fin (ld + Rsum (map (fun i => ln (Rabs (d i (nth i (affine u) 0)))) (seq 0 n)))) us).
Proof.
  intros HC Hs Hd Hm HL Hld Lm LL HJ HU affine. destruct (constructed_facts r n rows HC) as [W [N [ELo [EHi HA]]]].
  set (t := transform r) in *.
  assert (L1 : length (low r) = n) by (destruct W; congruence).
  assert (L2 : length (high r) = n) by (destruct W; congruence).
  exists (fun i u => gR t (nth i (low r) NaN) (nth i (high r) NaN) u), (fun i u => dR t (nth i (low r) NaN) (nth i (high r) NaN) u).
  split.
  - intros i u Hi. apply gR_derive. apply Forall2_nth; auto. lia.
  - assert (LA : forall u, length (affine u) = n) by (intros; unfold affine; now rewrite map_length, seq_length).
    assert (EA : forall u, map2 Rplus m (Rmatvec L u) = affine u).
    { intros u. unfold affine, Rmatvec. clear -Lm LL. revert m L Lm LL. induction n as [|k IH]; intros [|a m] [|b L] Lm LL; simpl in *; try lia; auto.
      f_equal. rewrite <- seq_shift, map_map. apply IH; lia. }
    rewrite (inverse_batch r junk us (fun u => map (fun i => gR t (nth i (low r) NaN) (nth i (high r) NaN) (nth i (affine u) 0)) (seq 0 n))
       (fun u => Fin (ld + Rsum (map (fun i => ln (Rabs (dR t (nth i (low r) NaN) (nth i (high r) NaN) (nth i (affine u) 0)))) (seq 0 n)))) n).
    + rewrite map_map. f_equal. f_equal. apply map_ext. intros; now rewrite map_map.
    + intros u Hu. destruct (inverse_row_formula r n rows junk u HC HJ Hu) as [_ E].
      rewrite (E Hs (affine u) (Fin ld)); [|apply LA|].
      * fold t. unfold GR, LDR. rewrite (map3'_seq _ _ _ _ NaN NaN 0 n) by auto. rewrite (map3'_seq _ (low r) (high r) (affine u) NaN NaN 0 n) by auto. reflexivity.
      * unfold inverse_affine_row. rewrite Hm, Hd, HL, Hld. cbn [of_option bind]. rewrite !map_length, Hu, Lm, Nat.eqb_refl. cbn [bind]. xnum. rewrite matvec_fin, vadd_fin, EA.
        change (nmul (Fin ld) (nofZ 1)) with (Fin (ld * 1)). now rewrite Rmult_1_r.
    + assumption.
Qed.

(** * Adding a constant to extended reals *)
From Coq Require Import ZArith Reals Lra Lia.
From Coq Require Import List Bool.
From Verif Require Import Num PyBase XReal SpecShift.
Import ListNotations.
Set Bullet Behavior "Strict Subproofs".
Local Open Scope R_scope.

Section Shift.
  Variable c : R.
  Notation sh := (sh c).
  Lemma sh_sub a b : xsub (sh a) (sh b) = xsub a b.
  Proof. destruct a, b; cbn; try reflexivity. f_equal. ring. Qed.
  Lemma sh_add a b : xadd (sh a) b = sh (xadd a b).
  Proof. destruct a, b; cbn; try reflexivity. f_equal. ring. Qed.
  Lemma sh_sub_r a b : xsub (sh a) b = sh (xsub a b).
  Proof. destruct a, b; cbn; try reflexivity. f_equal. ring. Qed.
  Lemma sh_ltb a b : xltb (sh a) (sh b) = xltb a b.
  Proof. destruct a, b; cbn; try reflexivity. unfold Rltb. destruct (Rlt_dec _ _), (Rlt_dec _ _); try reflexivity; lra. Qed.
  Lemma sh_eqb a b : xeqb (sh a) (sh b) = xeqb a b.
  Proof. destruct a, b; cbn; try reflexivity. unfold Reqb. destruct (Req_EM_T _ _), (Req_EM_T _ _); try reflexivity; lra. Qed.
  Lemma sh_inf a : nisinf (sh a) = nisinf a.
  Proof. destruct a; reflexivity. Qed.
  Lemma sh_isfinite a : xisfinite (sh a) = xisfinite a.
  Proof. destruct a; reflexivity. Qed.
  Lemma sh_tempered a b d : xsub (xmul (sh a) (Fin d)) (xmul (sh b) (Fin d)) = xsub (xmul a (Fin d)) (xmul b (Fin d)).
  Proof. destruct a, b; cbn; try reflexivity; unfold xinf_mul; repeat rcase; cbn; try reflexivity. f_equal. ring. Qed.

  Lemma sum_shift l : nsum (map sh l) = xadd (nsum l) (Fin (INR (length l) * c)).
  Proof.
    induction l as [|a l IH]; [cbn; f_equal; ring|]. change (nsum (map sh (a :: l))) with (xadd (sh a) (nsum (map sh l))). change (nsum (a :: l)) with (xadd a (nsum l)).
    rewrite IH. cbn [length]. rewrite S_INR. destruct a, (nsum l); cbn; try reflexivity. f_equal. ring.
  Qed.
  Lemma mean_shift l : nmean (map sh l) = sh (nmean l).
  Proof.
    unfold nmean. rewrite sum_shift, map_length. destruct l as [|a l].
    - cbn. unfold Reqb. destruct (Req_EM_T 0 0) as [_|n]; [|lra]. rewrite Rmult_0_l, Rplus_0_r. unfold Rltb. destruct (Rlt_dec 0 0); [lra|reflexivity].
    - set (n := length (a :: l)). assert (Hn : 0 < INR n) by (apply lt_0_INR; unfold n; cbn; lia). clearbody n. rewrite INR_IZR_INZ in *.
      change (nofZ (Z.of_nat n)) with (Fin (IZR (Z.of_nat n))). xnum. destruct (nsum (a :: l)) as [s| | |]; cbn; try reflexivity.
      + unfold Reqb. destruct (Req_EM_T _ _); [lra|]. cbn. f_equal. field. lra.
      + unfold Rltb. destruct (Rlt_dec _ 0); reflexivity.
      + unfold Rltb. destruct (Rlt_dec _ 0); reflexivity.
  Qed.
  Lemma map2_shift (f : X -> X -> X) : (forall a b, f (sh a) b = sh (f a b)) -> forall l m, map2 f (map sh l) m = map sh (map2 f l m).
  Proof. intros H l. induction l as [|a l IH]; intros [|b m]; cbn; try reflexivity. now rewrite H, IH. Qed.
  Lemma where_shift m : forall a b, where_ m (map sh a) (map sh b) = map sh (where_ m a b).
  Proof. induction m as [|x m IH]; intros [|a l] [|b k]; cbn; try reflexivity. rewrite IH. now destruct x. Qed.
  Lemma scatter_shift mask : forall vals base, match scatter mask (map sh vals) base, scatter mask vals base with
    | Ok r', Ok r => length r = Nat.min (length mask) (length base) /\ fill_not mask NInf r' = map sh (fill_not mask NInf r)
    | Err e', Err e => e' = e
    | _, _ => False end.
  Proof.
    induction mask as [|m mask IH]; intros vals base; [destruct vals; cbn; auto|].
    destruct base as [|b base]; [destruct vals; cbn; auto|]. cbn [scatter]. destruct m.
    - destruct vals as [|v vals]; [reflexivity|]. cbn [map]. specialize (IH vals base). destruct (scatter mask (map sh vals) base), (scatter mask vals base); try contradiction; cbn [bind]; auto.
      destruct IH as [L IH]. cbn. split; [now rewrite L|]. f_equal. exact IH.
    - specialize (IH vals base). destruct (scatter mask (map sh vals) base), (scatter mask vals base); try contradiction; cbn [bind]; auto.
      destruct IH as [L IH]. cbn. split; [now rewrite L|]. f_equal. exact IH.
  Qed.
  Lemma gather_map {A} (f : A -> A) l idx : gather (map f l) idx = match gather l idx with Ok r => Ok (map f r) | Err e => Err e end.
  Proof.
    unfold gather. induction idx as [|i idx IH]; [reflexivity|]. cbn [mapM]. rewrite nth_error_map. destruct (nth_error l i) as [a|]; cbn [option_map of_option bind]; [|reflexivity].
    rewrite IH. now destruct (mapM (fun i => of_option IndexError (nth_error l i)) idx).
  Qed.
  Lemma compress_map {A} (f : A -> A) m : forall l, compress m (map f l) = map f (compress m l).
  Proof. induction m as [|x m IH]; intros [|a l]; cbn; try reflexivity. rewrite IH. now destruct x. Qed.

  (** ** Log-sum-exp *)
  Lemma logaddexp_shift a b : nlogaddexp (sh a) (sh b) = sh (nlogaddexp a b).
  Proof.
    unfold nlogaddexp. xnum. change (@neqb X _ (sh a) (sh b)) with (xeqb (sh a) (sh b)). change (@neqb X _ a b) with (xeqb a b). rewrite sh_eqb.
    destruct (xeqb a b); [apply sh_add|]. change (@nsub X _ (sh a) (sh b)) with (xsub (sh a) (sh b)). change (@nsub X _ a b) with (xsub a b). rewrite sh_sub.
    set (t := xsub a b). destruct (nltb _ t) eqn:E1; [apply sh_add|]. destruct (nleb t _) eqn:E2; [apply sh_add|].
    destruct t; cbn in *; try reflexivity; unfold Rltb, Rleb in *; destruct (Rlt_dec _ _), (Rle_dec _ _); try discriminate; lra.
  Qed.
  Lemma lse_shift l : nlse (map sh l) = sh (nlse l).
  Proof.
    unfold nlse. change (@nopp X _ ninf) with NInf. replace NInf with (sh NInf) at 1 by reflexivity. generalize NInf.
    induction l as [|b l IH]; intros a; cbn [map fold_left]; [reflexivity|]. rewrite logaddexp_shift. apply IH.
  Qed.
End Shift.

(** * The exact extended-real instance [X] of the number class

    Reals with +inf, -inf and NaN under the IEEE-754 rules for special values.
    Not modelled: rounding, overflow, underflow, signed zero (x/0 has the sign
    of x, 0/0 is NaN). *)
From Coq Require Import Reals ZArith List Bool Lra Lia.
From Coquelicot Require Import Coquelicot.
From Coq Require Import List.
From Verif Require Import Num PyBase.
Import ListNotations.
Open Scope R_scope.

Inductive X := Fin (r : R) | PInf | NInf | NaN.

Definition Rltb (a b : R) : bool := if Rlt_dec a b then true else false.
Definition Rleb (a b : R) : bool := if Rle_dec a b then true else false.
Definition Reqb (a b : R) : bool := if Req_EM_T a b then true else false.

Definition xadd (a b : X) : X :=
  match a, b with
  | NaN, _ | _, NaN => NaN
  | PInf, NInf | NInf, PInf => NaN
  | PInf, _ | _, PInf => PInf
  | NInf, _ | _, NInf => NInf
  | Fin x, Fin y => Fin (x + y)
  end.
Definition xopp (a : X) : X :=
  match a with Fin x => Fin (- x) | PInf => NInf | NInf => PInf | NaN => NaN end.
Definition xsub (a b : X) : X :=
  match a, b with
  | NaN, _ | _, NaN => NaN
  | PInf, PInf | NInf, NInf => NaN
  | PInf, _ => PInf
  | NInf, _ => NInf
  | Fin _, PInf => NInf
  | Fin _, NInf => PInf
  | Fin x, Fin y => Fin (x - y)
  end.
(** an infinity of sign [s] (true = positive) times a real *)
Definition xinf_mul (s : bool) (y : R) : X :=
  if Rltb 0 y then (if s then PInf else NInf)
  else if Rltb y 0 then (if s then NInf else PInf)
  else NaN.
Definition xmul (a b : X) : X :=
  match a, b with
  | NaN, _ | _, NaN => NaN
  | PInf, PInf | NInf, NInf => PInf
  | PInf, NInf | NInf, PInf => NInf
  | PInf, Fin y | Fin y, PInf => xinf_mul true y
  | NInf, Fin y | Fin y, NInf => xinf_mul false y
  | Fin x, Fin y => Fin (x * y)
  end.
Definition xdiv (a b : X) : X :=
  match a, b with
  | NaN, _ | _, NaN => NaN
  | PInf, PInf | PInf, NInf | NInf, PInf | NInf, NInf => NaN
  | Fin _, PInf | Fin _, NInf => Fin 0
  | PInf, Fin y => if Rltb y 0 then NInf else PInf
  | NInf, Fin y => if Rltb y 0 then PInf else NInf
  | Fin x, Fin y =>
      if Reqb y 0 then (if Rltb 0 x then PInf else if Rltb x 0 then NInf else NaN)
      else Fin (x / y)
  end.
Definition xabs (a : X) : X :=
  match a with Fin x => Fin (Rabs x) | PInf | NInf => PInf | NaN => NaN end.
Definition xsqrt (a : X) : X :=
  match a with
  | Fin x => if Rltb x 0 then NaN else Fin (sqrt x)
  | PInf => PInf | NInf => NaN | NaN => NaN
  end.
Definition xltb (a b : X) : bool :=
  match a, b with
  | NaN, _ | _, NaN => false
  | Fin x, Fin y => Rltb x y
  | NInf, NInf => false
  | NInf, _ => true
  | _, NInf => false
  | PInf, _ => false
  | Fin _, PInf => true
  end.
Definition xleb (a b : X) : bool :=
  match a, b with
  | NaN, _ | _, NaN => false
  | Fin x, Fin y => Rleb x y
  | NInf, _ => true
  | _, NInf => false
  | _, PInf => true
  | PInf, Fin _ => false
  end.
Definition xeqb (a b : X) : bool :=
  match a, b with
  | Fin x, Fin y => Reqb x y
  | PInf, PInf | NInf, NInf => true
  | _, _ => false
  end.
Definition xisfinite (a : X) : bool := match a with Fin _ => true | _ => false end.
Definition xisnan (a : X) : bool := match a with NaN => true | _ => false end.
Definition xtrunc (a : X) : option Z :=
  match a with
  | Fin x => Some (if Rltb x 0 then (- Int_part (- x))%Z else Int_part x)
  | _ => None
  end.

#[global] Instance XNum : Num X := {
  nofZ := fun z => Fin (IZR z);
  nadd := xadd; nsub := xsub; nmul := xmul; ndiv := xdiv;
  nopp := xopp; nabs := xabs; nsqrt := xsqrt;
  nltb := xltb; nleb := xleb; neqb := xeqb;
  nisfinite := xisfinite; nisnan := xisnan;
  ninf := PInf; ntrunc := xtrunc
}.

(** ** Transcendental functions *)
Definition xexp (a : X) : X :=
  match a with Fin x => Fin (exp x) | PInf => PInf | NInf => Fin 0 | NaN => NaN end.
Definition xlog (a : X) : X :=
  match a with
  | Fin x => if Rltb 0 x then Fin (ln x) else if Rltb x 0 then NaN else NInf
  | PInf => PInf | NInf => NaN | NaN => NaN
  end.
(** [x ** y] for the exponents that occur in pocoMC (finite, positive, not an
    even integer): NaN for a negative base. *)
Definition xpow (a b : X) : X :=
  match a, b with
  | Fin x, Fin y =>
      if Rltb 0 x then Fin (Rpower x y)
      else if Rltb x 0 then NaN
      else if Rltb 0 y then Fin 0 else if Rltb y 0 then PInf else Fin 1
  | PInf, Fin y => if Rltb 0 y then PInf else if Rltb y 0 then Fin 0 else Fin 1
  | _, _ => NaN
  end.

(** The error function, by its integral, and its inverse on (-1,1) as the
    supremum of the points where [erf] is at most y. *)
Definition erfR (x : R) : R := 2 / sqrt PI * RInt (fun t => exp (- (t * t))) 0 x.
Definition erfinvR (y : R) : R := real (Lub_Rbar (fun x => erfR x <= y)).

Definition xerf (a : X) : X :=
  match a with Fin x => Fin (erfR x) | PInf => Fin 1 | NInf => Fin (-1) | NaN => NaN end.
Definition xerfinv (a : X) : X :=
  match a with
  | Fin y =>
      if Rltb y (-1) then NaN else if Rltb 1 y then NaN
      else if Reqb y 1 then PInf else if Reqb y (-1) then NInf
      else Fin (erfinvR y)
  | _ => NaN
  end.

#[global] Instance XNumT : NumT X := {
  numT_Num := XNum;
  nexp := xexp; nlog := xlog; npow := xpow;
  nerf := xerf; nerfinv := xerfinv; npi := Fin PI
}.

(** ** Reflection lemmas *)
Lemma Rltb_true a b : Rltb a b = true <-> a < b.
Proof. unfold Rltb; destruct (Rlt_dec a b); split; intros; try easy. Qed.
Lemma Rltb_false a b : Rltb a b = false <-> b <= a.
Proof. unfold Rltb; destruct (Rlt_dec a b); split; intros; try easy; lra. Qed.
Lemma Rleb_true a b : Rleb a b = true <-> a <= b.
Proof. unfold Rleb; destruct (Rle_dec a b); split; intros; try easy. Qed.
Lemma Rleb_false a b : Rleb a b = false <-> b < a.
Proof. unfold Rleb; destruct (Rle_dec a b); split; intros; try easy; lra. Qed.
Lemma Reqb_true a b : Reqb a b = true <-> a = b.
Proof. unfold Reqb; destruct (Req_EM_T a b); split; intros; try easy. Qed.
Lemma Reqb_false a b : Reqb a b = false <-> a <> b.
Proof. unfold Reqb; destruct (Req_EM_T a b); split; intros; try easy. Qed.

(** case analysis on every boolean real comparison in the goal *)
Ltac rcase :=
  match goal with
  | |- context [Rltb ?a ?b] =>
      let E := fresh "E" in destruct (Rltb a b) eqn:E;
      [apply Rltb_true in E | apply Rltb_false in E]
  | |- context [Rleb ?a ?b] =>
      let E := fresh "E" in destruct (Rleb a b) eqn:E;
      [apply Rleb_true in E | apply Rleb_false in E]
  | |- context [Reqb ?a ?b] =>
      let E := fresh "E" in destruct (Reqb a b) eqn:E;
      [apply Reqb_true in E | apply Reqb_false in E]
  end.
Ltac rcase_in H :=
  match type of H with
  | context [Rltb ?a ?b] =>
      let E := fresh "E" in destruct (Rltb a b) eqn:E;
      [apply Rltb_true in E | apply Rltb_false in E]
  | context [Rleb ?a ?b] =>
      let E := fresh "E" in destruct (Rleb a b) eqn:E;
      [apply Rleb_true in E | apply Rleb_false in E]
  | context [Reqb ?a ?b] =>
      let E := fresh "E" in destruct (Reqb a b) eqn:E;
      [apply Reqb_true in E | apply Reqb_false in E]
  end.

Definition is_fin (a : X) : Prop := exists r, a = Fin r.
Lemma is_fin_isfinite a : xisfinite a = true <-> is_fin a.
Proof. split; destruct a; simpl; try easy; intros; [eexists; reflexivity | | |]; now destruct H. Qed.

Lemma xadd_fin a b : xadd (Fin a) (Fin b) = Fin (a + b).
Proof. reflexivity. Qed.
Lemma xsub_fin a b : xsub (Fin a) (Fin b) = Fin (a - b).
Proof. reflexivity. Qed.
Lemma xmul_fin a b : xmul (Fin a) (Fin b) = Fin (a * b).
Proof. reflexivity. Qed.
Lemma xdiv_fin a b : b <> 0 -> xdiv (Fin a) (Fin b) = Fin (a / b).
Proof. intros; simpl; destruct (Reqb b 0) eqn:E; [apply Reqb_true in E; contradiction | reflexivity]. Qed.
Lemma xlog_fin a : 0 < a -> xlog (Fin a) = Fin (ln a).
Proof. intros; simpl; apply Rltb_true in H; now rewrite H. Qed.
Lemma xsqrt_fin a : 0 <= a -> xsqrt (Fin a) = Fin (sqrt a).
Proof. intros; simpl; apply Rltb_false in H; now rewrite H. Qed.
Lemma xltb_fin a b : xltb (Fin a) (Fin b) = Rltb a b.
Proof. reflexivity. Qed.
Lemma xleb_fin a b : xleb (Fin a) (Fin b) = Rleb a b.
Proof. reflexivity. Qed.

(** ** Sums of reals *)
Fixpoint Rsum (l : list R) : R := match l with [] => 0 | x :: r => x + Rsum r end.

Lemma nsum_fin (l : list R) : nsum (map Fin l) = Fin (Rsum l).
Proof. induction l as [|a l IH]; [reflexivity|]. change (nsum (map Fin (a :: l))) with (xadd (Fin a) (nsum (map Fin l))). now rewrite IH. Qed.

Lemma nmax2_fin a b : nmax2 (Fin a) (Fin b) = Fin (Rmax a b).
Proof.
  unfold nmax2; simpl. rcase.
  - now rewrite Rmax_right by lra.
  - now rewrite Rmax_left by lra.
Qed.
Lemma nmin2_fin a b : nmin2 (Fin a) (Fin b) = Fin (Rmin a b).
Proof.
  unfold nmin2; simpl. rcase.
  - now rewrite Rmin_right by lra.
  - now rewrite Rmin_left by lra.
Qed.

(** ** logaddexp and log-sum-exp *)
Lemma nlogaddexp_fin a b : nlogaddexp (Fin a) (Fin b) = Fin (ln (exp a + exp b)).
Proof.
  unfold nlogaddexp; cbn -[xlog xadd].
  destruct (Reqb a b) eqn:E; [apply Reqb_true in E | apply Reqb_false in E].
  - subst. rewrite xlog_fin by lra. cbv [xadd]. f_equal.
    replace (exp b + exp b) with (2 * exp b) by ring.
    rewrite ln_mult by (try lra; apply exp_pos). rewrite ln_exp. ring.
  - destruct (Rltb 0 (a - b)) eqn:E1; [apply Rltb_true in E1 | apply Rltb_false in E1].
    + rewrite xadd_fin, xlog_fin by (pose proof (exp_pos (-(a-b))); lra). cbv [xadd]. f_equal.
      rewrite <- (ln_exp a) at 1.
      rewrite <- ln_mult by (try apply exp_pos; pose proof (exp_pos (-(a-b))); lra).
      f_equal. rewrite Rmult_plus_distr_l, <- exp_plus. rewrite Rmult_1_r. f_equal. f_equal. ring.
    + destruct (Rleb (a - b) 0) eqn:E2; [|apply Rleb_false in E2; exfalso; lra].
      rewrite xadd_fin, xlog_fin by (pose proof (exp_pos (a-b)); lra). cbv [xadd]. f_equal.
      rewrite <- (ln_exp b) at 1.
      rewrite <- ln_mult by (try apply exp_pos; pose proof (exp_pos (a-b)); lra).
      f_equal. rewrite Rmult_plus_distr_l, <- exp_plus. rewrite Rmult_1_r.
      rewrite Rplus_comm. f_equal. f_equal. ring.
Qed.

Lemma nlogaddexp_ninf_fin b : nlogaddexp NInf (Fin b) = Fin b.
Proof.
  unfold nlogaddexp; cbn -[xlog xadd]. rewrite xadd_fin, xlog_fin by lra.
  cbv [xadd]. f_equal. rewrite Rplus_0_r, ln_1. ring.
Qed.

Lemma nlse_aux (l : list R) (s : R) : 0 < s ->
  fold_left nlogaddexp (map Fin l) (Fin (ln s)) = Fin (ln (s + Rsum (map exp l))).
Proof.
  revert s; induction l as [|a l IH]; intros s Hs; simpl.
  - now rewrite Rplus_0_r.
  - rewrite nlogaddexp_fin. rewrite exp_ln by assumption.
    pose proof (exp_pos a).
    rewrite IH by lra. f_equal. f_equal. ring.
Qed.

Lemma Rsum_pos (l : list R) : Forall (fun x => 0 < x) l -> l <> [] -> 0 < Rsum l.
Proof.
  induction 1; [easy|]. intros _. simpl. destruct l; simpl in *; [lra|].
  assert (0 < r + Rsum l) by (apply IHForall; discriminate). lra.
Qed.
Lemma Rsum_nonneg (l : list R) : Forall (fun x => 0 <= x) l -> 0 <= Rsum l.
Proof. induction 1; simpl; lra. Qed.
Lemma Rsum_exp_pos (l : list R) : l <> [] -> 0 < Rsum (map exp l).
Proof.
  intros H. apply Rsum_pos. 
  - apply Forall_forall. intros x Hx. apply in_map_iff in Hx as [y [<- _]]. apply exp_pos.
  - destruct l; [easy|discriminate].
Qed.

Lemma nlse_fin (l : list R) : l <> [] -> nlse (map Fin l) = Fin (ln (Rsum (map exp l))).
Proof.
  destruct l as [|a l]; [easy|]. intros _.
  unfold nlse. simpl map; simpl fold_left.
  change (nlogaddexp (xopp PInf) (Fin a)) with (nlogaddexp NInf (Fin a)).
  rewrite nlogaddexp_ninf_fin. rewrite <- (ln_exp a) at 1.
  rewrite nlse_aux by apply exp_pos. reflexivity.
Qed.

(** the [Num] part of the instance [XNumT] is [XNum] *)
Ltac xnum := change (@numT_Num X XNumT) with XNum in *.

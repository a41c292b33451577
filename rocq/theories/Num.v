(** * Number operations

    The operations on Python floats / numpy float64 scalars that pocoMC uses,
    as a type class WITHOUT laws.  The model is written over this class; a
    theorem quantified over every instance holds for any arithmetic,
    binary64 included.  [XReal.v] gives the exact extended-real instance,
    [FloatNum.v] the binary64 one. *)
From Coq Require Import ZArith List Bool.
Import ListNotations.

Class Num (T : Type) := {
  nofZ : Z -> T;                       (** integer converted to float *)
  nadd : T -> T -> T;
  nsub : T -> T -> T;
  nmul : T -> T -> T;
  ndiv : T -> T -> T;
  nopp : T -> T;
  nabs : T -> T;                       (** np.abs *)
  nsqrt : T -> T;                      (** np.sqrt *)
  nltb : T -> T -> bool;               (** [<], false if an operand is NaN *)
  nleb : T -> T -> bool;               (** [<=] *)
  neqb : T -> T -> bool;               (** [==] *)
  nisfinite : T -> bool;               (** np.isfinite *)
  nisnan : T -> bool;                  (** np.isnan *)
  ninf : T;                            (** np.inf *)
  ntrunc : T -> option Z               (** int(x); [None] when it raises *)
}.

(** Transcendental functions (numpy / scipy.special). *)
Class NumT (T : Type) := {
  numT_Num :> Num T;
  nexp : T -> T;
  nlog : T -> T;
  npow : T -> T -> T;                  (** [x ** y] for a real exponent *)
  nerf : T -> T;
  nerfinv : T -> T;
  npi : T
}.

Declare Scope num_scope.
Delimit Scope num_scope with num.
Infix "+" := nadd : num_scope.
Infix "-" := nsub : num_scope.
Infix "*" := nmul : num_scope.
Infix "/" := ndiv : num_scope.
Notation "- x" := (nopp x) : num_scope.
Infix "<?" := nltb : num_scope.
Infix "<=?" := nleb : num_scope.
Infix "=?" := neqb : num_scope.
Notation "# z" := (nofZ z) (at level 8, z at level 8, format "# z") : num_scope.

Section NumHelpers.
  Context {T : Type} {N : Num T}.
  Open Scope num_scope.

  (** [np.isinf] *)
  Definition nisinf (x : T) : bool := negb (nisfinite x) && negb (nisnan x).

  (** Decimal literal [a/b] such as 0.234 = 234/1000 (a correctly rounded
      literal equals the correctly rounded quotient of the two integers). *)
  Definition nfrac (a b : Z) : T := nofZ a / nofZ b.

  (** [np.maximum] / [np.minimum]: NaN propagates. *)
  Definition nmax2 (a b : T) : T :=
    if nisnan a then a else if nisnan b then b else if a <? b then b else a.
  Definition nmin2 (a b : T) : T :=
    if nisnan a then a else if nisnan b then b else if b <? a then b else a.

  (** [np.sum] of a 1-d array (numpy sums pairwise; the order is immaterial in
      exact arithmetic). *)
  Definition nsum (l : list T) : T := fold_right nadd (nofZ 0) l.

  (** [np.max] of a non-empty array; [None] (ValueError) on an empty one. *)
  Definition nmaximum (l : list T) : option T :=
    match l with [] => None | x :: r => Some (fold_left nmax2 r x) end.

  (** [np.mean] of a 1-d array. *)
  Definition nmean (l : list T) : T := nsum l / nofZ (Z.of_nat (length l)).

  (** [x ** k] for a non-negative integer k. *)
  Fixpoint npown (x : T) (k : nat) : T :=
    match k with O => nofZ 1 | S k' => x * npown x k' end.

  (** [x ** 2.0] *)
  Definition nsqr (x : T) : T := x * x.
End NumHelpers.

Section NumTHelpers.
  Context {T : Type} {NT : NumT T}.
  Open Scope num_scope.

  (** [np.logaddexp], numpy's npy_logaddexp case by case. *)
  Definition nlogaddexp (a b : T) : T :=
    if a =? b then a + nlog (nofZ 2)
    else
      let tmp := a - b in
      if nofZ 0 <? tmp then a + nlog (nofZ 1 + nexp (- tmp))
      else if tmp <=? nofZ 0 then b + nlog (nofZ 1 + nexp tmp)
      else tmp.

  (** [np.logaddexp.reduce]: identity -inf. *)
  Definition nlse (l : list T) : T := fold_left nlogaddexp l (nopp ninf).
End NumTHelpers.

(** * Python / numpy scaffolding shared by the model *)
From Coq Require Import ZArith List Bool.
From Verif Require Import Num.
Import ListNotations.

(** Exceptions are values.  [Diverge] is not a Python exception: it is the
    result of a loop whose fuel ran out. *)
Inductive exn :=
| ValueError | IndexError | TypeError | AttributeError | ZeroDivisionError
| KeyError | LinAlgError | OverflowError | RuntimeError | FileNotFoundError | UnpicklingError
| Diverge.

Inductive res (A : Type) := Ok (a : A) | Err (e : exn).
Arguments Ok {A} a.
Arguments Err {A} e.

Definition bind {A B} (m : res A) (f : A -> res B) : res B :=
  match m with Ok a => f a | Err e => Err e end.
Notation "'let!' x ':=' m 'in' k" := (bind m (fun x => k))
  (at level 200, x pattern, m at level 100, k at level 200, right associativity).

Definition of_option {A} (e : exn) (o : option A) : res A :=
  match o with Some a => Ok a | None => Err e end.

(** Monadic map (a Python comprehension that may raise). *)
Fixpoint mapM {A B} (f : A -> res B) (l : list A) : res (list B) :=
  match l with
  | [] => Ok []
  | a :: r => let! b := f a in let! bs := mapM f r in Ok (b :: bs)
  end.

(** Python indexing [l[i]] with negative indices; [None] is IndexError. *)
Definition py_index {A} (l : list A) (i : Z) : option A :=
  if (0 <=? i)%Z then nth_error l (Z.to_nat i)
  else if (0 <=? i + Z.of_nat (length l))%Z
       then nth_error l (Z.to_nat (i + Z.of_nat (length l)))
       else None.

(** [a[mask]] *)
Fixpoint compress {A} (mask : list bool) (l : list A) : list A :=
  match mask, l with
  | b :: mask', a :: l' => if b then a :: compress mask' l' else compress mask' l'
  | _, _ => []
  end.

(** [a[mask] = vals]: the selected positions are filled in order; ValueError
    when the number of values does not match (numpy's broadcasting of a single
    value is not modelled, it does not occur with row-wise functions). *)
Fixpoint scatter {A} (mask : list bool) (vals base : list A) : res (list A) :=
  match mask, base with
  | b :: mask', a :: base' =>
      if b then
        match vals with
        | v :: vals' => let! r := scatter mask' vals' base' in Ok (v :: r)
        | [] => Err ValueError
        end
      else let! r := scatter mask' vals base' in Ok (a :: r)
  | _, _ => match vals with [] => Ok [] | _ => Err ValueError end
  end.

(** [a[~mask] = c] for a scalar c. *)
Fixpoint fill_not {A} (mask : list bool) (c : A) (base : list A) : list A :=
  match mask, base with
  | b :: mask', a :: base' => (if b then a else c) :: fill_not mask' c base'
  | _, _ => []
  end.

(** [a[mask] = b[mask]] for arrays of equal length. *)
Fixpoint where_ {A} (mask : list bool) (new old : list A) : list A :=
  match mask, new, old with
  | m :: mask', n :: new', o :: old' => (if m then n else o) :: where_ mask' new' old'
  | _, _, _ => []
  end.

(** Fancy indexing [a[idx]] with non-negative integer indices. *)
Definition gather {A} (l : list A) (idx : list nat) : res (list A) :=
  mapM (fun i => of_option IndexError (nth_error l i)) idx.

(** Replace element [i]. *)
Fixpoint set_nth {A} (i : nat) (v : A) (l : list A) : list A :=
  match i, l with
  | O, _ :: r => v :: r
  | S i', a :: r => a :: set_nth i' v r
  | _, [] => []
  end.

(** [a[idx] = vals] (fancy assignment, left to right). *)
Fixpoint put {A} (idx : list nat) (vals : list A) (l : list A) : list A :=
  match idx, vals with
  | i :: idx', v :: vals' => put idx' vals' (set_nth i v l)
  | _, _ => l
  end.

Definition and_mask (a b : list bool) : list bool := map (fun p => fst p && snd p) (combine a b).

Fixpoint count_true (m : list bool) : nat :=
  match m with [] => 0 | b :: r => (if b then 1 else 0) + count_true r end.

(** Element-wise combination of two arrays of equal length. *)
Fixpoint map2 {A B C} (f : A -> B -> C) (l1 : list A) (l2 : list B) : list C :=
  match l1, l2 with
  | a :: r1, b :: r2 => f a b :: map2 f r1 r2
  | _, _ => []
  end.

(** [np.where(mask)] as positions. *)
Fixpoint true_positions (i : nat) (m : list bool) : list nat :=
  match m with
  | [] => []
  | b :: r => if b then i :: true_positions (S i) r else true_positions (S i) r
  end.

(** Vectors and matrices of numbers. *)
Section Vec.
  Context {T : Type} {N : Num T}.
  Open Scope num_scope.

  Definition vec := list T.
  Definition mat := list vec.

  Definition vadd (a b : vec) : vec := map2 nadd a b.
  Definition vsub (a b : vec) : vec := map2 nsub a b.
  Definition vscale (c : T) (a : vec) : vec := map (nmul c) a.
  Definition dot (a b : vec) : T := nsum (map2 nmul a b).
  Definition matvec (m : mat) (v : vec) : vec := map (fun row => dot row v) m.

  (** column means, [np.mean(a, axis=0)] for rows of dimension d *)
  Definition col (m : mat) (i : nat) : vec := map (fun row => nth i row (nofZ 0)) m.
  Definition mean_axis0 (d : nat) (m : mat) : vec := map (fun i => nmean (col m i)) (seq 0 d).
End Vec.
Arguments vec : clear implicits.
Arguments mat : clear implicits.

(** * Small specifications for geometry.py and student.py: real matrices *)
From Coq Require Import Reals ZArith List.
From Verif Require Import Num PyBase XReal Geometry.
Import ListNotations.
Open Scope R_scope.

Definition sum_over (l : list nat) (f : nat -> R) : R := fold_right Rplus 0 (map f l).
(** sum for i < d *)
Definition sum_lt (d : nat) (f : nat -> R) : R := sum_over (seq 0 d) f.

Definition entry (S : list (list R)) (i j : nat) : R := nth j (nth i S []) 0.
Definition square (d : nat) (S : list (list R)) : Prop := length S = d /\ Forall (fun r => length r = d) S.
Definition symmetric (d : nat) (S : list (list R)) : Prop := forall i j, (i < d)%nat -> (j < d)%nat -> entry S i j = entry S j i.
(** the quadratic form z^T S z *)
Definition quad (d : nat) (S : list (list R)) (z : nat -> R) : R := sum_lt d (fun i => sum_lt d (fun j => z i * entry S i j * z j)).
Definition psd (d : nat) (S : list (list R)) : Prop := forall z, 0 <= quad d S z.
Definition pd (d : nat) (S : list (list R)) : Prop := forall z, (exists i, (i < d)%nat /\ z i <> 0) -> 0 < quad d S z.

(** a linear form, and points that are not all in one hyperplane *)
Definition lin (d : nat) (z : nat -> R) (x : list R) : R := sum_lt d (fun i => z i * nth i x 0).
Definition spanning (d : nat) (xs : list (list R)) : Prop :=
  forall z c, (forall x, In x xs -> lin d z x = c) -> forall i, (i < d)%nat -> z i = 0.

(** y solves S y = x *)
Definition solves (d : nat) (S : list (list R)) (y x : list R) : Prop :=
  forall i, (i < d)%nat -> sum_lt d (fun j => entry S i j * nth j y 0) = nth i x 0.

Definition fin_mat (S : list (list R)) : mat X := map (map Fin) S.

(** What is assumed of np.linalg.solve and scipy.optimize.bisect: an answer of
    solve is a solution; bisect answers inside its bracket. *)
Definition good_solve (d : nat) (o : fit_oracles X) : Prop :=
  forall S x y, square d S -> length x = d -> o_solve o (fin_mat S) (map Fin x) = Ok y ->
  exists y', y = map Fin y' /\ length y' = d /\ solves d S y' x.
Definition good_bisect (o : fit_oracles X) : Prop :=
  forall f v, o_bisect o f = Ok v -> exists r, v = Fin r /\ / IZR (10 ^ 300) <= r <= IZR (10 ^ 300).
(** For the result that the fit cannot raise: solve succeeds on positive
    definite matrices, bisect succeeds. *)
Definition total_solve (d : nat) (o : fit_oracles X) : Prop :=
  forall S x, square d S -> pd d S -> length x = d -> exists y, o_solve o (fin_mat S) (map Fin x) = Ok y.

(** At least two samples carry weight. *)
Definition two_weights (ws : list R) : Prop :=
  exists i j, (i < j < length ws)%nat /\ 0 < nth i ws 0 /\ 0 < nth j ws 0.

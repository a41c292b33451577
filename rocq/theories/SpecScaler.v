(** * Small specification vocabulary for the reparameterisation *)
From Coq Require Import Reals ZArith List.
From Verif Require Import XReal Num PyBase Scaler.
Import ListNotations.
Open Scope R_scope.

(** A parameter range: a finite end, or none (infinite or NaN); finite ends in order. *)
Definition admissible (lo hi : X) : Prop :=
  match lo, hi with
  | PInf, _ | _, NInf => False
  | Fin l, Fin h => l < h
  | _, _ => True
  end.

(** x is strictly inside / inside the closed range. *)
Definition inside (lo hi : X) (x : R) : Prop :=
  (forall l, lo = Fin l -> l < x) /\ (forall h, hi = Fin h -> x < h).
Definition inside_closed (lo hi : X) (x : R) : Prop :=
  (forall l, lo = Fin l -> l <= x) /\ (forall h, hi = Fin h -> x <= h).

(** a row strictly inside the ranges, coordinate by coordinate *)
Definition row_inside (low high : list X) (x : list R) : Prop :=
  length x = length low /\
  forall i, (i < length x)%nat -> inside (nth i low NaN) (nth i high NaN) (nth i x 0).

(** product of a matrix (list of rows) and a vector *)
Definition Rdot (a b : list R) : R := Rsum (map (fun p => fst p * snd p) (combine a b)).
Definition Rmatvec (m : list (list R)) (v : list R) : list R := map (fun row => Rdot row v) m.

(** The object was built by the constructor for [n] parameters with ranges
    [rows]; afterwards [fit] may have stored scaling attributes. *)
Definition constructed (r : reparam X) (n : nat) (rows : list (X * X)) : Prop :=
  length rows = n /\ (forall p, In p rows -> admissible (fst p) (snd p)) /\
  exists to_f32 per refl t sc dg r0,
    init_reparam to_f32 n (BArray true rows) per refl t sc dg = Ok r0 /\
    ndim r = ndim r0 /\ low r = low r0 /\ high r = high r0 /\ periodic r = periodic r0 /\
    reflective r = reflective r0 /\ transform r = transform r0 /\ scale r = scale r0 /\
    diagonal r = diagonal r0 /\ mask_none r = mask_none r0 /\ mask_left r = mask_left r0 /\
    mask_right r = mask_right r0 /\ mask_both r = mask_both r0.

(** The scaling attributes: no rescaling; a diagonal one with non-zero scales;
    or a full one whose two matrices are inverse to each other. *)
Definition scaling_ok (r : reparam X) (n : nat) : Prop :=
  scale r = false \/
  (diagonal r = true /\ exists m s, mu r = Some (map Fin m) /\ sigma r = Some (map Fin s) /\
     length m = n /\ length s = n /\ Forall (fun x => x <> 0) s) \/
  (diagonal r = false /\ exists m L Li ld,
     mu r = Some (map Fin m) /\ Lmat r = Some (map (map Fin) L) /\ L_inv r = Some (map (map Fin) Li) /\
     log_det_L r = Some ld /\ length m = n /\ length L = n /\ length Li = n /\
     forall v, length v = n -> Rmatvec L (Rmatvec Li v) = v /\ Rmatvec Li (Rmatvec L v) = v).

(** Python column indices of an array with [n] columns: -n <= z < n, negative
    ones counting from the end. *)
Definition valid_index (n : nat) (z : Z) : Prop := (- Z.of_nat n <= z < Z.of_nat n)%Z.
(** an optional list of such indices *)
Definition index_list_ok (n : nat) (o : option (list Z)) : Prop :=
  match o with None => True | Some idx => Forall (valid_index n) idx end.
Definition column_of (n : nat) (z : Z) : nat := Z.to_nat (if (z <? 0)%Z then z + Z.of_nat n else z).
(** column [i] is named by the index list *)
Definition designated (n : nat) (idx : list Z) (i : nat) : bool :=
  existsb (fun z => Nat.eqb (column_of n z) i) idx.

(** Order on extended numbers; NaN is comparable with nothing. *)
Definition le_ext (a b : X) : Prop :=
  match a, b with
  | NaN, _ | _, NaN => False
  | NInf, _ | _, PInf => True
  | Fin x, Fin y => x <= y
  | _, _ => False
  end.
Definition lt_ext (a b : X) : Prop := le_ext a b /\ a <> b.
(** inside the interval whose ends are open or closed; a NaN end is no end
    (i.e. infinite) *)
Definition in_interval (left_open right_open : bool) (lo hi x : X) : Prop :=
  let lo := match lo with NaN => NInf | _ => lo end in
  let hi := match hi with NaN => PInf | _ => hi end in
  (if left_open then lt_ext lo x else le_ext lo x) /\ (if right_open then lt_ext x hi else le_ext x hi).

(** every row of an array lies in the intervals *)
Definition all_in_interval (left_open right_open : bool) (low high : list X) (xs : list (list X)) : Prop :=
  forall row, In row xs -> forall i, (i < length low)%nat ->
    in_interval left_open right_open (nth i low NaN) (nth i high NaN) (nth i row NaN).

(** rescaling switched off, or its attributes have been stored by [fit] *)
Definition fitted (r : reparam X) : Prop :=
  scale r = false \/
  ((exists m, mu r = Some m) /\
   if diagonal r then exists s, sigma r = Some s else exists Li, L_inv r = Some Li).

(** no rescaling, or the diagonal one with positive scales (standard deviations) *)
Definition diagonal_scaling (r : reparam X) (n : nat) : Prop :=
  scale r = false \/
  (diagonal r = true /\ exists m s, mu r = Some (map Fin m) /\ sigma r = Some (map Fin s) /\
     length m = n /\ length s = n /\ Forall (fun x => 0 < x) s).

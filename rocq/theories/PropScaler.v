(** * Property theorems for scaler.py and input_validation.py (C03 - C13, C76) *)
From Coq Require Import Reals ZArith List Bool Lra Lia.
From Coquelicot Require Import Coquelicot.
From Coq Require Import List.
From Verif Require Import Num PyBase XReal RList FloatNum Scaler SpecScaler ScalerFacts WrapFacts ScalerSpecFacts ScalerFitFacts ScalerCases.
Import ListNotations.
Open Scope R_scope.

Theorem C03_inverse_of_forward r n rows junk junk' xs check :
  constructed r n rows -> scaling_ok r n -> length junk = n -> length junk' = n ->
  Forall (row_inside (map fst rows) (map snd rows)) xs ->
  exists us lds, forward r junk (map (map Fin) xs) check = Ok (map (map Fin) us) /\
    inverse r junk' (map (map Fin) us) = Ok (map (map Fin) xs, lds).
Proof. exact (inverse_of_forward r n rows junk junk' xs check). Qed.
Print Assumptions C03_inverse_of_forward.
(** a four-parameter object with all four kinds of range, fitted scales *)
Example C03_case : constructed case_reparam 4 case_rows /\ scaling_ok case_reparam 4 /\ length (repeat NaN 4) = 4%nat /\
  Forall (row_inside (map fst case_rows) (map snd case_rows)) [[5; 1; -3; 1/2]; [-5; 2; -4; 1/4]].
Proof. exact (conj case_constructed (conj (diagonal_scaling_ok _ _ case_diagonal) (conj eq_refl case_inside))). Qed.
(** and one with a full covariance *)
Example C03_case_full : constructed case_reparam_full 2 case_rows_full /\ scaling_ok case_reparam_full 2.
Proof. exact (conj case_full_constructed case_full_scaling). Qed.

Theorem C04_forward_of_inverse r n rows junk junk' us check :
  constructed r n rows -> scaling_ok r n -> length junk = n -> length junk' = n ->
  Forall (fun u => length u = n) us ->
  exists xs lds, inverse r junk' (map (map Fin) us) = Ok (map (map Fin) xs, lds) /\
    Forall (row_inside (map fst rows) (map snd rows)) xs /\
    forward r junk (map (map Fin) xs) check = Ok (map (map Fin) us).
Proof. exact (forward_of_inverse r n rows junk junk' us check). Qed.
Print Assumptions C04_forward_of_inverse.
Example C04_case : constructed case_reparam 4 case_rows /\ scaling_ok case_reparam 4 /\ length (repeat NaN 4) = 4%nat /\
  Forall (fun u => length u = 4%nat) [[100; -7; 0; 3]].
Proof.
  split; [exact case_constructed|].
  repeat split; solve [exact (diagonal_scaling_ok _ _ case_diagonal) | exact case_fitted | repeat constructor].
Qed.

(** the part of C04 that users rely on as the hard bounds *)
Theorem C05_strictly_inside r n rows junk us :
  constructed r n rows -> scaling_ok r n -> length junk = n -> Forall (fun u => length u = n) us ->
  exists xs lds, inverse r junk (map (map Fin) us) = Ok (map (map Fin) xs, lds) /\
    Forall (row_inside (map fst rows) (map snd rows)) xs.
Proof. exact (inverse_strictly_inside r n rows junk us). Qed.
Print Assumptions C05_strictly_inside.

Theorem C06_jacobian r n rows junk us :
  constructed r n rows -> diagonal_scaling r n -> length junk = n -> Forall (fun u => length u = n) us ->
  exists (g d : nat -> R -> R),
    (forall i u, (i < n)%nat -> is_derive (g i) u (d i u) /\ d i u <> 0) /\
    inverse r junk (map (map Fin) us) =
      Ok (map (fun u => map (fun i => Fin (g i (nth i u 0))) (seq 0 n)) us,
          map (fun u => Fin (Rsum (map (fun i => ln (Rabs (d i (nth i u 0)))) (seq 0 n)))) us).
Proof. exact (jacobian r n rows junk us). Qed.
Print Assumptions C06_jacobian.
Example C06_case : constructed case_reparam 4 case_rows /\ diagonal_scaling case_reparam 4.
Proof. exact (conj case_constructed case_diagonal). Qed.

(** Full covariance: the reported value is numpy's log|det L| plus the sum of
    the log-derivatives of the coordinate maps at m + L u. *)
Theorem C06_jacobian_full r n rows junk us m L ld :
  constructed r n rows -> scale r = true -> diagonal r = false ->
  mu r = Some (map Fin m) -> Lmat r = Some (map (map Fin) L) -> log_det_L r = Some (Fin ld) ->
  length m = n -> length L = n -> length junk = n -> Forall (fun u => length u = n) us ->
  let affine u := map (fun i => nth i m 0 + Rdot (nth i L []) u) (seq 0 n) in
  exists (g d : nat -> R -> R),
    (forall i v, (i < n)%nat -> is_derive (g i) v (d i v) /\ d i v <> 0) /\
    inverse r junk (map (map Fin) us) =
      Ok (map (fun u => map (fun i => Fin (g i (nth i (affine u) 0))) (seq 0 n)) us,
          map (fun u => Fin (ld + Rsum (map (fun i => ln (Rabs (d i (nth i (affine u) 0)))) (seq 0 n)))) us).
Proof. exact (jacobian_full r n rows junk us m L ld). Qed.
Print Assumptions C06_jacobian_full.

Theorem C07_interval_check left_open right_open low high xs :
  length high = length low -> Forall (fun row => length row = length low) xs ->
  (all_in_interval left_open right_open low high xs -> assert_array_within_interval xs low high left_open right_open = Ok tt) /\
  (~ all_in_interval left_open right_open low high xs -> assert_array_within_interval xs low high left_open right_open = Err ValueError).
Proof. exact (interval_check left_open right_open low high xs). Qed.
Print Assumptions C07_interval_check.

Theorem C07_forward r n rows junk xs :
  constructed r n rows -> fitted r -> length junk = n -> Forall (fun row => length row = n) xs ->
  let inrange := all_in_interval false false (map fst rows) (map snd rows) xs in
  (inrange -> exists us, forward r junk xs true = Ok us) /\
  (~ inrange -> forward r junk xs true = Err ValueError) /\
  (exists us, forward r junk xs false = Ok us).
Proof. exact (forward_check r n rows junk xs). Qed.
Print Assumptions C07_forward.
Example C07_case : constructed case_reparam 4 case_rows /\ fitted case_reparam /\
  Forall (fun row => length row = 4%nat) [[Fin 5; Fin 1; NaN; Fin 3]; [Fin 5; PInf; Fin (-3); Fin 1]].
Proof.
  split; [exact case_constructed|].
  repeat split; solve [exact (diagonal_scaling_ok _ _ case_diagonal) | exact case_fitted | repeat constructor].
Qed.

Theorem C07_fit la r n rows junk xs :
  constructed r n rows -> length junk = n -> Forall (fun row => length row = n) xs ->
  let inrange := all_in_interval false false (map fst rows) (map snd rows) xs in
  (inrange -> diagonal r = true -> exists r', fit la r junk xs = Ok r') /\
  (~ inrange -> fit la r junk xs = Err ValueError).
Proof. exact (fit_check la r n rows junk xs). Qed.
Print Assumptions C07_fit.

Theorem C08_boundary_infinite r n rows junk xs :
  constructed r n rows -> diagonal_scaling r n -> length junk = n ->
  Forall (fun x => length x = n /\ forall i, (i < n)%nat -> inside_closed (nth i (map fst rows) NaN) (nth i (map snd rows) NaN) (nth i x 0)) xs ->
  exists us, forward r junk (map (map Fin) xs) true = Ok us /\ length us = length xs /\
    forall j i, (j < length xs)%nat -> (i < n)%nat ->
      let x := nth i (nth j xs []) 0 in let u := nth i (nth j us []) NaN in
      (inside (nth i (map fst rows) NaN) (nth i (map snd rows) NaN) x -> exists v, u = Fin v) /\
      (~ inside (nth i (map fst rows) NaN) (nth i (map snd rows) NaN) x -> u = PInf \/ u = NInf).
Proof. exact (boundary_infinite r n rows junk xs). Qed.
Print Assumptions C08_boundary_infinite.
(** the last two coordinates of this point are on the boundary *)
Example C08_case : constructed case_reparam 4 case_rows /\ diagonal_scaling case_reparam 4 /\
  Forall (fun x => length x = 4%nat /\ forall i, (i < 4)%nat ->
     inside_closed (nth i (map fst case_rows) NaN) (nth i (map snd case_rows) NaN) (nth i x 0)) [[5; 1; -1; 1]].
Proof. exact (conj case_constructed (conj case_diagonal case_closed)). Qed.

Theorem C09_bounds_none_unusable to_f32 n per refl t sc dg r la junk xs :
  init_reparam to_f32 n BNone per refl t sc dg = Ok r -> (1 <= n)%nat -> xs <> [] -> Forall (fun x => length x = n) xs ->
  forward r junk (map (map Fin) xs) true = Err ValueError /\ fit la r junk (map (map Fin) xs) = Err ValueError.
Proof. exact (fun H1 H2 H3 H4 => bounds_none_unusable to_f32 n per refl t sc dg r la junk xs true H1 H2 H3 H4 eq_refl). Qed.
Print Assumptions C09_bounds_none_unusable.
Example C09_case : exists r : reparam X, init_reparam (fun x => x) 3 BNone None None Probit true true = Ok r /\ (1 <= 3)%nat /\
  [[0; 0; 0]] <> [] /\ Forall (fun x => length x = 3%nat) [[0; 0; 0]].
Proof. eexists. split; [reflexivity|]. split; [lia|]. split; [discriminate|repeat constructor]. Qed.

Theorem C10_periodic r n rows idx xs :
  constructed r n rows -> periodic r = Some idx -> reflective r = None ->
  Forall (valid_index n) idx ->
  (forall z, In z idx -> exists l h, nth (column_of n z) rows (NaN, NaN) = (Fin l, Fin h)) ->
  Forall (fun x => length x = n) xs ->
  exists ys fuel0,
    (forall fuel, (fuel0 <= fuel)%nat -> apply_boundary_conditions_x fuel r (map (map Fin) xs) = Ok (map (map Fin) ys)) /\
    Forall2 (fun x y => length y = n /\ forall i, (i < n)%nat ->
      if designated n idx i
      then forall l h, nth i rows (NaN, NaN) = (Fin l, Fin h) ->
        l <= nth i y 0 <= h /\ (exists k : Z, nth i y 0 = nth i x 0 + IZR k * (h - l)) /\ (l <= nth i x 0 <= h -> nth i y 0 = nth i x 0)
      else nth i y 0 = nth i x 0) xs ys.
Proof. exact (periodic_batch r n rows idx xs). Qed.
Print Assumptions C10_periodic.
Example C10_case : constructed case_periodic 2 case_rows_per /\ periodic case_periodic = Some [(-1)%Z] /\ reflective case_periodic = None /\
  Forall (valid_index 2) [(-1)%Z] /\
  (forall z, In z [(-1)%Z] -> exists l h, nth (column_of 2 z) case_rows_per (NaN, NaN) = (Fin l, Fin h)) /\
  Forall (fun x => length x = 2%nat) [[1; 1000]; [2; -1000]].
Proof. exact case_periodic_ok. Qed.

Theorem C11_reflective r n rows idx xs :
  constructed r n rows -> periodic r = None -> reflective r = Some idx ->
  Forall (valid_index n) idx -> NoDup (map (column_of n) idx) ->
  (forall z, In z idx -> exists l h, nth (column_of n z) rows (NaN, NaN) = (Fin l, Fin h)) ->
  Forall (fun x => length x = n) xs ->
  exists ys,
    (forall fuel, (1 <= fuel)%nat -> apply_boundary_conditions_x fuel r (map (map Fin) xs) = Ok (map (map Fin) ys)) /\
    Forall2 (fun x y => length y = n /\ forall i, (i < n)%nat ->
      if designated n idx i
      then forall l h, nth i rows (NaN, NaN) = (Fin l, Fin h) ->
        let a := nth i x 0 in let b := nth i y 0 in
        (b = a \/ b = 2 * h - a \/ b = 2 * l - a \/ b = a - 2 * (h - l)) /\
        (l <= a <= h -> b = a) /\ (l <= b <= h <-> l - (h - l) <= a <= h + 2 * (h - l))
      else nth i y 0 = nth i x 0) xs ys.
Proof. exact (reflective_batch r n rows idx xs). Qed.
Print Assumptions C11_reflective.
Example C11_case : constructed case_reflective 2 case_rows_per /\ periodic case_reflective = None /\ reflective case_reflective = Some [1%Z] /\
  Forall (valid_index 2) [1%Z] /\ NoDup (map (column_of 2) [1%Z]) /\
  (forall z, In z [1%Z] -> exists l h, nth (column_of 2 z) case_rows_per (NaN, NaN) = (Fin l, Fin h)) /\
  Forall (fun x => length x = 2%nat) [[1; 7/2]; [2; -1000]].
Proof. exact case_reflective_ok. Qed.

Theorem C12_boundary_conditions_no_effect r n rows junk us fuel :
  constructed r n rows -> scaling_ok r n -> length junk = n ->
  index_list_ok n (periodic r) -> index_list_ok n (reflective r) -> Forall (fun u => length u = n) us ->
  exists x ld, inverse r junk (map (map Fin) us) = Ok (x, ld) /\
    apply_boundary_conditions_x fuel r x = Ok x /\
    forward r junk x true = Ok (map (map Fin) us).
Proof. exact (boundary_conditions_no_effect r n rows junk us fuel). Qed.
Print Assumptions C12_boundary_conditions_no_effect.
Example C12_case : constructed case_periodic 2 case_rows_per /\ scaling_ok case_periodic 2 /\
  index_list_ok 2 (periodic case_periodic) /\ index_list_ok 2 (reflective case_periodic).
Proof. exact case_periodic_noop. Qed.

(** binary64, parameter range [0, 1], input 1e17, whatever libm computes *)
Theorem C13_periodic_float_diverges exp log pow erf erfinv pi fuel :
  @wrap_periodic B64 (B64NumT exp log pow erf erfinv pi) fuel (b64_ofZ 0) (b64_ofZ 1) (b64_ofZ (10 ^ 17)) = Err Diverge.
Proof. exact (float_diverges exp log pow erf erfinv pi fuel). Qed.
Print Assumptions C13_periodic_float_diverges.

(** an infinite entry never comes back, for any finite range *)
Theorem C13_periodic_infinite_diverges l h fuel :
  @wrap_periodic X XNumT fuel (Fin l) (Fin h) PInf = Err Diverge /\
  @wrap_periodic X XNumT fuel (Fin l) (Fin h) NInf = Err Diverge.
Proof. exact (infinite_diverges l h fuel). Qed.
Print Assumptions C13_periodic_infinite_diverges.

(** in any arithmetic: whenever the step is absorbed by rounding *)
Theorem C13_absorbed_step_diverges {T} {NT : NumT T} (lo hi x : T) :
  nltb hi x = true -> nsub (nadd lo x) hi = x -> forall fuel, wrap_periodic fuel lo hi x = Err Diverge.
Proof. exact (periodic_fixed_diverges lo hi x). Qed.
Print Assumptions C13_absorbed_step_diverges.

Theorem C76_fit_standardises la r n rows junk xs :
  constructed r n rows -> diagonal r = true -> length junk = n -> xs <> [] ->
  Forall (row_inside (map fst rows) (map snd rows)) xs -> scale r = true ->
  (forall i, (i < n)%nat -> exists x y, In x xs /\ In y xs /\ nth i x 0 <> nth i y 0) ->
  exists r' vs, fit la r junk (map (map Fin) xs) = Ok r' /\ constructed r' n rows /\ diagonal_scaling r' n /\
    forward r' junk (map (map Fin) xs) true = Ok (map (map Fin) vs) /\ length vs = length xs /\
    forall i, (i < n)%nat ->
      let column := map (fun v => nth i v 0) vs in
      Rsum column / INR (length column) = 0 /\
      Rsum (map (fun v => v * v) column) / INR (length (map (fun v => v * v) column)) = 1.
Proof. exact (fit_standardises la r n rows junk xs). Qed.
Print Assumptions C76_fit_standardises.

Theorem C76_constant_coordinate_nan la r n rows junk xs i :
  constructed r n rows -> diagonal r = true -> length junk = n -> xs <> [] ->
  Forall (row_inside (map fst rows) (map snd rows)) xs ->
  scale r = true -> (i < n)%nat -> (exists v, forall x, In x xs -> nth i x 0 = v) ->
  exists r' vs, fit la r junk (map (map Fin) xs) = Ok r' /\ forward r' junk (map (map Fin) xs) true = Ok vs /\
    forall j, (j < length xs)%nat -> nth i (nth j vs []) (Fin 0) = NaN.
Proof. exact (fun H1 H2 H3 H4 H5 => fit_constant_nan la r n rows junk xs H1 H2 H3 H4 H5 i). Qed.
Print Assumptions C76_constant_coordinate_nan.
Example C76_case : constructed case_reparam 4 case_rows /\ diagonal case_reparam = true /\ scale case_reparam = true /\
  (forall i, (i < 4)%nat -> exists x y, In x [[5; 1; -3; 1/2]; [-5; 2; -4; 1/4]] /\ In y [[5; 1; -3; 1/2]; [-5; 2; -4; 1/4]] /\ nth i x 0 <> nth i y 0).
Proof. exact (conj case_constructed (conj eq_refl (conj eq_refl case_two_values))). Qed.

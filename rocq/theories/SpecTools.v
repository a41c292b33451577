(** * Small specifications for the statistics of tools.py

    Written without reference to the model. *)
From Coq Require Import Reals ZArith List Permutation Sorted.
Import ListNotations.
Open Scope R_scope.

(** Sum of a list of reals. *)
Definition total (l : list R) : R := fold_left Rplus l 0.

(** Kish's effective sample size of a list of weights. *)
Definition kish_ess (w : list R) : R := (total w) ^ 2 / total (map (fun x => x ^ 2) w).

(** Expected number of distinct values among k independent draws from
    {0..n-1} with probabilities p: the sum over all n^k sequences. *)
Fixpoint sequences (n k : nat) : list (list nat) :=
  match k with
  | O => [[]]
  | S k' => flat_map (fun i => map (cons i) (sequences n k')) (seq 0 n)
  end.
Definition sequence_probability (p : nat -> R) (s : list nat) : R :=
  fold_right (fun i acc => p i * acc) 1 s.
Definition expected_distinct_draws (n k : nat) (p : nat -> R) : R :=
  total (map (fun s => sequence_probability p s * INR (length (nodup Nat.eq_dec s))) (sequences n k)).

(** [v] is the q-th percentile (0 <= q <= 100) of the data with linear
    interpolation between order statistics. *)
Definition is_percentile (data : list R) (q v : R) : Prop :=
  exists sorted, Permutation sorted data /\ StronglySorted Rle sorted /\
  let h := (INR (length data) - 1) * (q / 100) in
  exists k : nat, INR k <= h < INR k + 1 /\
    v = nth k sorted 0 +
        (nth (Nat.min (S k) (length data - 1)) sorted 0 - nth k sorted 0) * (h - INR k).

(** The i-th of [bins] equidistant points of [0,99]. *)
Definition grid_point (bins i : nat) : R :=
  if Nat.eqb bins 1 then 0 else 99 * INR i / INR (bins - 1).

(** Number of occurrences of index i. *)
Definition copies (i : nat) (l : list nat) : nat := count_occ Nat.eq_dec l i.

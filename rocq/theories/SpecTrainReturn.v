(** * Small specification of a training of the flow that returns *)
From Coq Require Import Reals ZArith List Permutation.
From Coq Require Import List.
From Verif Require Import Num PyBase XReal Flow SpecFlow.
Import ListNotations.
Local Open Scope R_scope.

(** the options: a validation split of 0, or one that leaves something to train on
    and something to validate on when there are [n] samples; positive batches;
    progress is not printed, or there is an epoch to print *)
Record training_options (c : fit_config X) (n : nat) : Prop := {
  to_split : exists v, c_validation_split c = Fin v /\ (v = 0 \/ (1 <= v * INR n /\ v < 1));
  to_batch : (0 < c_batch_size c)%Z;
  to_verbose : (c_verbose c <= 0 \/ c_epochs c <> 0)%Z }.
(** [k] of the [n] samples are trained on: all of them if the split is 0, otherwise
    the fraction given by the split, rounded down *)
Definition trained_on (c : fit_config X) (n k : nat) : Prop :=
  exists v, c_validation_split c = Fin v /\ ((v = 0 /\ k = n) \/ (0 < v /\ INR k <= v * INR n < INR k + 1)).
(** if the samples are shuffled, the random numbers of the training are permutations
    of the samples and, in each epoch, of either part of them *)
Definition training_numbers (c : fit_config X) (rnd : fit_rand X) (n : nat) : Prop :=
  c_shuffle c = true -> Permutation (fr_perm rnd) (seq 0 n) /\
    forall k, trained_on c n k -> forall e, Permutation (fr_loader rnd false e) (seq 0 k) /\ Permutation (fr_loader rnd true e) (seq 0 (n - k)).
(** two of the samples differ *)
Definition two_samples (xs : list (list R)) : Prop := exists a b, In a xs /\ In b xs /\ a <> b.

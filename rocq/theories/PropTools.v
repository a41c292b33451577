(** * Property theorems for tools.py (C14 - C22, C77) *)
From Coq Require Import Reals ZArith List Bool Lra Lia Sorted.
From Coquelicot Require Import Coquelicot.
From Coq Require Import List.
From Verif Require Import Num PyBase XReal RList Tools SpecTools TrimFacts ResampleFacts ToolsSpecFacts ChoiceFacts.
Import ListNotations.
Open Scope R_scope.

Theorem C14_effective_sample_size ws :
  Forall (fun w => 0 <= w) ws -> 0 < total ws ->
  exists e,
    effective_sample_size (map Fin ws) = (Fin e, map Fin (map (fun w => w / total ws) ws)) /\
    e = kish_ess ws /\ 1 <= e <= INR (length ws) /\
    (e = INR (length ws) <-> exists c, Forall (fun w => w = c) ws) /\
    (e = 1 <-> exists i, (i < length ws)%nat /\ 0 < nth i ws 0 /\ forall j, j <> i -> nth j ws 0 = 0) /\
    (forall c, 0 < c -> fst (effective_sample_size (map Fin (map (fun w => c * w) ws))) = Fin e).
Proof. exact (C14_lemma ws). Qed.
Print Assumptions C14_effective_sample_size.
Example C14_case : Forall (fun w => 0 <= w) [1; 2; 0; 5] /\ 0 < total [1; 2; 0; 5].
Proof. split; [fall | cbn; lra]. Qed.

Theorem C15_unique_sample_size ws (k : option nat) :
  Forall (fun w => 0 <= w) ws -> 0 < total ws ->
  let k' := match k with Some k => k | None => length ws end in
  exists e,
    unique_sample_size (map Fin ws) k = (Fin e, map Fin (map (fun w => w / total ws) ws)) /\
    e = expected_distinct_draws (length ws) k' (fun i => nth i ws 0 / total ws) /\
    e <= INR (length ws) /\ e <= INR k' /\ ((1 <= k')%nat -> 1 <= e) /\
    (forall c, 0 < c -> fst (unique_sample_size (map Fin (map (fun w => c * w) ws)) k) = Fin e).
Proof. exact (C15_lemma ws k). Qed.
Print Assumptions C15_unique_sample_size.
Example C15_case : Forall (fun w => 0 <= w) [3; 1; 0] /\ 0 < total [3; 1; 0] /\ (1 <= 3)%nat.
Proof. split; [fall | split; [cbn; lra | lia]]. Qed.

Theorem C16_trim_weights {A} (samples : list A) ws ess bins :
  Forall (fun w => 0 <= w) ws -> 0 < total ws -> length samples = length ws ->
  (1 <= bins)%nat -> ess <= 1 ->
  let p := map (fun w => w / total ws) ws in
  exists (j : nat) (tau : R),
    (j < bins)%nat /\ is_percentile p (grid_point bins j) tau /\
    let kept := filter (fun sw => Rleb tau (snd sw)) (combine samples p) in
    let kw := map snd kept in
    trim_weights samples (map Fin ws) (Fin ess) bins =
      Ok (map fst kept, map Fin (map (fun w => w / total kw) kw), map Fin p) /\
    0 < total kw /\
    ess * kish_ess ws <= kish_ess kw <= kish_ess ws /\
    (forall j' tau', (j < j' < bins)%nat -> is_percentile p (grid_point bins j') tau' ->
       kish_ess (filter (Rleb tau') p) < ess * kish_ess ws).
Proof. exact (trim_weights_ok samples ws ess bins). Qed.
Print Assumptions C16_trim_weights.
Example C16_case :
  Forall (fun w => 0 <= w) [4; 1; 0; 5] /\ 0 < total [4; 1; 0; 5] /\
  length [10; 20; 30; 40]%nat = length [4; 1; 0; 5] /\ (1 <= 1000)%nat /\ 99 / 100 <= 1.
Proof. split; [fall | split; [cbn; lra | split; [reflexivity | split; [lia | lra]]]]. Qed.

Theorem C17_trim_unattainable {A} (samples : list A) ws ess bins :
  Forall (fun w => 0 <= w) ws -> 0 < total ws -> (1 <= bins)%nat -> 1 < ess ->
  trim_weights samples (map Fin ws) (Fin ess) bins = Err IndexError.
Proof. exact (trim_weights_unattainable samples ws ess bins). Qed.
Print Assumptions C17_trim_unattainable.
Example C17_case : Forall (fun w => 0 <= w) [4; 1] /\ 0 < total [4; 1] /\ (1 <= 1000)%nat /\ 1 < 101 / 100.
Proof. split; [fall | split; [cbn; lra | split; [lia | lra]]]. Qed.

Theorem C17_trim_nan {A} (samples : list A) (ws : list X) ess bins :
  In NaN ws -> (1 <= bins)%nat -> trim_weights samples ws ess bins = Err IndexError.
Proof. exact (trim_weights_nan samples ws ess bins). Qed.
Print Assumptions C17_trim_nan.
Example C17_nan_case : In NaN [Fin 1; NaN; Fin 2] /\ (1 <= 1000)%nat.
Proof. split; [simpl; auto | lia]. Qed.

(** [exact_weights ws]: non-negative, positive total, and the total is 1 or
    outside the tolerance 2^-26 within which the code does not renormalise. *)
Theorem C18_systematic_counts u N ws :
  exact_weights ws -> 0 <= u < 1 -> (1 <= N)%nat ->
  exists idx,
    systematic_resample (Fin u) N (map Fin ws) = Ok idx /\
    length idx = N /\ StronglySorted le idx /\ Forall (fun i => (i < length ws)%nat) idx /\
    (forall i, (i < length ws)%nat ->
       Rabs (INR (copies i idx) - INR N * (nth i ws 0 / total ws)) <= 1) /\
    (0 < u -> forall i, (i < length ws)%nat ->
       Rabs (INR (copies i idx) - INR N * (nth i ws 0 / total ws)) < 1).
Proof. exact (systematic_counts u N ws). Qed.
Print Assumptions C18_systematic_counts.
Example C18_case : exact_weights [1/2; 0; 1/4; 1/4] /\ exact_weights [3; 5; 0] /\ 0 <= 1/3 < 1 /\ (1 <= 7)%nat.
Proof.
  unfold exact_weights. split; [|split; [|split; [lra|lia]]].
  - split; [fall|]. cbn. split; [lra|]. left. lra.
  - split; [fall|]. cbn. split; [lra|]. right. rewrite Rabs_right by lra. lra.
Qed.

Theorem C19_systematic_unbiased N ws i :
  exact_weights ws -> (1 <= N)%nat -> (i < length ws)%nat ->
  is_RInt (fun u => copies_of i (systematic_resample (Fin u) N (map Fin ws))) 0 1
          (INR N * (nth i ws 0 / total ws)).
Proof. exact (systematic_unbiased N ws i). Qed.
Print Assumptions C19_systematic_unbiased.
Example C19_case : exact_weights [3; 5; 0] /\ (1 <= 7)%nat /\ (1 < length [3; 5; 0])%nat.
Proof.
  split; [|split; [lia|simpl; lia]]. split; [fall|]. cbn. split; [lra|]. right.
  rewrite Rabs_right by lra. lra.
Qed.

(** Exactly when systematic_resample fails: the total is below 1 within the
    tolerance and the offset exceeds 1 - N (1 - total). *)
Theorem C20_systematic_index_error u N ws :
  Forall (fun w => 0 <= w) ws -> 0 < total ws -> (1 <= N)%nat -> 0 <= u < 1 ->
  (systematic_resample (Fin u) N (map Fin ws) = Err IndexError <->
   (Rabs (total ws - 1) <= / 2 ^ 26 /\ total ws < 1 /\ 1 - INR N * (1 - total ws) < u)) /\
  (forall e, systematic_resample (Fin u) N (map Fin ws) = Err e -> e = IndexError).
Proof. exact (systematic_crash u N ws). Qed.
Print Assumptions C20_systematic_index_error.

Theorem C20_systematic_index_error_reachable N ws :
  Forall (fun w => 0 <= w) ws -> 0 < total ws < 1 -> 1 - / 2 ^ 26 <= total ws -> (1 <= N)%nat ->
  exists u0, 0 <= u0 < 1 /\
    forall u, u0 < u < 1 -> systematic_resample (Fin u) N (map Fin ws) = Err IndexError.
Proof. exact (systematic_crash_exists N ws). Qed.
Print Assumptions C20_systematic_index_error_reachable.
Example C20_case :
  Forall (fun w => 0 <= w) [1/2; 1/2 - / 2 ^ 27] /\ 0 < total [1/2; 1/2 - / 2 ^ 27] < 1 /\
  1 - / 2 ^ 26 <= total [1/2; 1/2 - / 2 ^ 27] /\ (1 <= 3)%nat.
Proof.
  split; [fall|]. cbn. split; [lra|]. split; [lra|lia].
Qed.

Theorem C21_systematic_positive_weight u N ws idx :
  Forall (fun w => 0 <= w) ws -> 0 < total ws -> (1 <= N)%nat -> 0 < u < 1 ->
  systematic_resample (Fin u) N (map Fin ws) = Ok idx ->
  Forall (fun i => (i < length ws)%nat /\ 0 < nth i ws 0) idx.
Proof. exact (systematic_positive_weight u N ws idx). Qed.
Print Assumptions C21_systematic_positive_weight.

(** The zero offset always picks particle 0, whatever its weight. *)
Theorem C21_systematic_zero_offset N ws idx :
  Forall (fun w => 0 <= w) ws -> 0 < total ws -> (1 <= N)%nat ->
  systematic_resample (Fin 0) N (map Fin ws) = Ok idx -> hd_error idx = Some 0%nat.
Proof. exact (systematic_zero_offset N ws idx). Qed.
Print Assumptions C21_systematic_zero_offset.
Example C21_case : Forall (fun w => 0 <= w) [0; 1/2; 1/2] /\ 0 < total [0; 1/2; 1/2] /\ (1 <= 5)%nat /\
  (exists idx, systematic_resample (Fin (1/3)) 5 (map Fin [0; 1/2; 1/2]) = Ok idx) /\
  (exists idx, systematic_resample (Fin 0) 5 (map Fin [0; 1/2; 1/2]) = Ok idx).
Proof.
  assert (E : exact_weights [0; 1/2; 1/2]).
  { split; [fall|]. cbn. split; [lra|]. left; lra. }
  split; [fall|]. split; [cbn; lra|]. split; [lia|]. split.
  - destruct (C18_systematic_counts (1/3) 5 [0; 1/2; 1/2] E ltac:(lra) ltac:(lia)) as [idx [H _]]. now exists idx.
  - destruct (C18_systematic_counts 0 5 [0; 1/2; 1/2] E ltac:(lra) ltac:(lia)) as [idx [H _]]. now exists idx.
Qed.

Theorem C22_compute_ess_increment_logz l :
  l <> [] ->
  exists e z,
    compute_ess (map Fin l) = Ok (Fin e) /\ increment_logz (map Fin l) = Ok (Fin z) /\
    e = total (map exp l) ^ 2 / (INR (length l) * total (map (fun x => exp (2 * x)) l)) /\ 0 < e <= 1 /\
    exp z = total (map exp l) /\
    forall c, compute_ess (map Fin (map (fun x => x + c) l)) = Ok (Fin e) /\
              increment_logz (map Fin (map (fun x => x + c) l)) = Ok (Fin (z + c)).
Proof. exact (C22_lemma l). Qed.
Print Assumptions C22_compute_ess_increment_logz.
Example C22_case : [-3; 0; 12] <> ([] : list R).
Proof. discriminate. Qed.

(** A uniform draw u picks the index i whose interval
    [sum of the weights before i, ... including i) contains u times the total:
    an interval of length (weight i) / total, empty for a zero weight. *)
Theorem C77_multinomial_draws us ws :
  Forall (fun w => 0 <= w) ws -> Rabs (total ws - 1) <= / 2 ^ 26 -> Forall (fun u => 0 <= u < 1) us ->
  exists idx, random_choice (map Fin us) (map Fin ws) = Ok idx /\
    Forall2 (fun u i => (i < length ws)%nat /\ 0 < nth i ws 0 /\
                        total (firstn i ws) <= u * total ws < total (firstn (S i) ws)) us idx.
Proof. exact (random_choice_spec us ws). Qed.
Print Assumptions C77_multinomial_draws.

Theorem C77_multinomial_error us ws :
  (random_choice (map Fin us) (map Fin ws) = Err ValueError <->
   Exists (fun w => w < 0) ws \/ / 2 ^ 26 < Rabs (total ws - 1)) /\
  (forall e, random_choice (map Fin us) (map Fin ws) = Err e -> e = ValueError).
Proof. exact (random_choice_error us ws). Qed.
Print Assumptions C77_multinomial_error.
Example C77_case : Forall (fun w => 0 <= w) [0; 1/4; 3/4] /\ Rabs (total [0; 1/4; 3/4] - 1) <= / 2 ^ 26 /\
  Forall (fun u => 0 <= u < 1) [0; 1/4; 9/10].
Proof.
  split; [fall|]. split; [|fall]. cbn. replace (0 + 0 + 1 / 4 + 3 / 4 - 1) with 0 by lra. rewrite Rabs_R0. lra.
Qed.

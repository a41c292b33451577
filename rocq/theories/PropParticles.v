(** * Property theorems for particles.py (C23 - C26) *)
From Coq Require Import Reals String ZArith List Bool Lra Lia.
From Verif Require Import Num PyBase XReal Particles SpecTools SpecParticles ParticlesFacts.
Import ListNotations.

(** After any sequence of calls that raises nothing, every key holds what was
    supplied under it, in order. *)
Theorem C23_append_only_log {T B} (calls : list (call T B)) (p : past T B) :
  perform empty_past calls = Ok p -> forall k, get p k = expected k calls [].
Proof. exact (perform_from_empty calls p). Qed.
Print Assumptions C23_append_only_log.

(** The only possible failure: a pop of a key that holds nothing. *)
Theorem C23_only_pop_of_empty_fails {T B} (calls : list (call T B)) e :
  perform empty_past calls = Err e ->
  e = IndexError /\ exists before k after p, calls = before ++ Pop k :: after /\ perform empty_past before = Ok p /\ get p k = [].
Proof. exact (perform_fails calls empty_past e). Qed.
Print Assumptions C23_only_pop_of_empty_fails.

Theorem C23_get_variants {T B} (p : past T B) k :
  (forall l v, get p k = l ++ [v] -> get_index p k (-1) = Ok v) /\
  (forall i, get p k = [] -> get_index p k i = Err IndexError) /\
  (forall chunks, get p k <> [] -> map (rows_of k) (get p k) = map Some chunks -> get_flat p k = Ok (concat chunks)).
Proof. exact (conj (get_index_spec p k) (conj (get_index_empty p k) (get_flat_spec p k))). Qed.
Print Assumptions C23_get_variants.

Definition case_calls : list (call nat nat) :=
  [Update [@Known nat nat Kbeta 3; @Known nat nat Klogl [1; 2]; Unknown "weights"]; Update [@Known nat nat Kbeta 4]; Pop Kbeta; Update [@Known nat nat Kbeta 5]]%nat.
Example C23_case : exists p, perform empty_past case_calls = Ok p /\ get p Kbeta = [3; 5]%nat /\ get p Klogl = [[1; 2]]%nat.
Proof. eexists. repeat split. Qed.

Theorem C24_results_frozen {T B} {NT : NumT T} (s s1 : particles T B) r l :
  compute_results s = (Ok r, s1) -> compute_results (later s1 l) = (Ok r, later s1 l).
Proof. exact (results_frozen s s1 r l). Qed.
Print Assumptions C24_results_frozen.

Theorem C24_results_first_access {T B} {NT : NumT T} (s s1 : particles T B) r :
  p_results s = None -> compute_results s = (Ok r, s1) ->
  r_past r = p_past s /\ exists logw logz, compute_logw_and_logz (p_past s) (nofZ 1) true = Ok (logw, logz) /\ r_logw r = Some logw.
Proof. exact (results_first s s1 r). Qed.
Print Assumptions C24_results_first_access.

(** The finding: whatever is added later is missing from the dictionary. *)
Theorem C24_results_stale {T B} {NT : NumT T} (s s1 : particles T B) r d k v :
  p_results s = None -> compute_results s = (Ok r, s1) -> In (Known k v) d ->
  let s2 := particles_update s1 d in
  fst (compute_results s2) = Ok r /\ get (r_past r) k <> get (p_past s2) k.
Proof. exact (results_stale s s1 r d k v). Qed.
Print Assumptions C24_results_stale.

(** A second finding: if the first access raises (empty history), the second
    one returns a dictionary without the computed weights. *)
Theorem C24_results_after_error {T B} {NT : NumT T} (s s1 : particles T B) e l :
  compute_results s = (Err e, s1) ->
  exists r, r_past r = p_past s /\ r_logw r = None /\ compute_results (later s1 l) = (Ok r, later s1 l).
Proof. exact (results_error_then_silent s s1 e l). Qed.
Print Assumptions C24_results_after_error.

Definition case_past : past X nat :=
  update empty_past [@Known X nat Klogl (map Fin [-3; -1]%R); @Known X nat Kbeta (Fin 0); @Known X nat Klogz (Fin 0);
                     @Known X nat Klogl (map Fin [-1; -2]%R); @Known X nat Kbeta (Fin (1/2)); @Known X nat Klogz (Fin (-1))].
Definition case_particles : particles X nat := {| p_past := case_past; p_results := None |}.
Lemma case_history : history case_past [[-3; -1]; [-1; -2]]%R [0; 1/2]%R [0; -1]%R.
Proof. repeat split; discriminate. Qed.
Example C24_case : exists r s1, p_results case_particles = None /\ compute_results case_particles = (Ok r, s1) /\
  In (@Known X nat Kbeta (Fin 1)) [@Known X nat Kbeta (Fin 1)].
Proof.
  destruct (weights_are_balance_weights case_past _ _ _ 1 case_history) as [_ [lw [lw' [lz [E _]]]]].
  unfold compute_results. change (p_past case_particles) with case_past. change (p_results case_particles) with (@None (results X nat)).
  cbv iota. change (@nofZ X (@numT_Num X XNumT) 1) with (Fin 1). rewrite E. do 2 eexists. repeat split. left. reflexivity.
Qed.
Example C24_error_case : compute_results (@new_particles X nat) = (Err ValueError, {| p_past := empty_past; p_results := Some {| r_past := empty_past; r_logw := None |} |}).
Proof. reflexivity. Qed.

Open Scope R_scope.
Theorem C25_balance_weights {B} (p : past X B) ls bs zs b : history p ls bs zs ->
  let w := map (balance_weight bs zs b) (concat ls) in
  Forall (fun x => 0 < x) w /\
  exists lw lw' lz,
    compute_logw_and_logz p (Fin b) true = Ok (map Fin lw, Fin lz) /\
    compute_logw_and_logz p (Fin b) false = Ok (map Fin lw', Fin lz) /\
    map exp lw' = w /\
    map exp lw = map (fun x => x / total w) w /\ total (map exp lw) = 1 /\
    exp lz = total w / INR (length w).
Proof. exact (weights_are_balance_weights p ls bs zs b). Qed.
Print Assumptions C25_balance_weights.
Example C25_case : history case_past [[-3; -1]; [-1; -2]] [0; 1/2] [0; -1].
Proof. exact case_history. Qed.

Theorem C25_empty_history_raises {T B} {NT : NumT T} b norm : compute_logw_and_logz (@empty_past T B) b norm = Err ValueError.
Proof. exact (compute_empty b norm). Qed.
Print Assumptions C25_empty_history_raises.

Theorem C26_rescaling {B} (p p' : past X B) ls bs zs b c : history p ls bs zs ->
  h_logl p' = map (map (fun l => Fin (l + c))) ls -> h_beta p' = h_beta p -> h_logz p' = map Fin (map2 (fun b z => z + c * b) bs zs) ->
  exists lw lz, compute_logw_and_logz p (Fin b) true = Ok (map Fin lw, Fin lz) /\
                compute_logw_and_logz p' (Fin b) true = Ok (map Fin lw, Fin (lz + c * b)).
Proof. exact (weights_shift p p' ls bs zs b c). Qed.
Print Assumptions C26_rescaling.
Example C26_case : exists p' : past X nat, history case_past [[-3; -1]; [-1; -2]] [0; 1/2] [0; -1] /\
  h_logl p' = map (map (fun l => Fin (l + 7))) [[-3; -1]; [-1; -2]] /\ h_beta p' = h_beta case_past /\
  h_logz p' = map Fin (map2 (fun b z => z + 7 * b) [0; 1/2] [0; -1]).
Proof.
  exists (update empty_past [@Known X nat Klogl (map (fun l => Fin (l + 7)) [-3; -1]); @Known X nat Kbeta (Fin 0); @Known X nat Klogz (Fin (0 + 7 * 0));
                     @Known X nat Klogl (map (fun l => Fin (l + 7)) [-1; -2]); @Known X nat Kbeta (Fin (1/2)); @Known X nat Klogz (Fin (-1 + 7 * (1/2)))]).
  split; [exact case_history|repeat split].
Qed.

Theorem C26_prior_only {B} (p : past X B) ls n : history p ls (repeat 0 n) (repeat 0 n) ->
  compute_logw_and_logz p (Fin 0) true = Ok (repeat (Fin (- ln (INR (length (concat ls))))) (length (concat ls)), Fin 0).
Proof. exact (weights_prior_only p ls n). Qed.
Print Assumptions C26_prior_only.
Example C26_prior_case : history (update (@empty_past X nat)
  [@Known X nat Klogl (map Fin [-3; -1]); @Known X nat Kbeta (Fin 0); @Known X nat Klogz (Fin 0)]) [[-3; -1]] (repeat 0 1) (repeat 0 1).
Proof. repeat split; discriminate. Qed.

(** * Properties of posterior() (C50, C51) *)
From Coq Require Import ZArith Reals Lra Sorted.
From Coq Require Import String List Bool Lia.
From Verif Require Import Num XReal FloatNum PyBase Tools SpecTools Scaler Particles SpecParticles LogLike Geometry Mcmc SpecMcmc McmcNum Flow Sampler
  SpecReach SpecRun SpecExact SpecTrace SpecPosterior RunCase RunCaseFacts ExactCase PosteriorFacts PosteriorExact PosteriorCase PosteriorMain.
Import ListNotations.
Local Open Scope R_scope.

(** ** C50 *)
(** Any arithmetic: whatever the options, the rows returned are stored particles,
    complete and in the order of the history unless resampled. *)
Theorem C50_rows_are_particles {T C P Opt} {NT : NumT T} (undefined random : T -> Prop) (W : world T C P Opt) lp ll bl (drawn : vec T -> Prop) interrupts
  a us offset (s : sampler T C P) o :
  float_like undefined random -> regular W lp ll bl -> reachable W (good_draws random drawn) interrupts s -> posterior a us offset s = Ok o ->
  exists idx rows, at_positions (all_particles s) idx rows /\ StronglySorted lt idx /\ (pa_trim a = false -> rows = all_particles s) /\
    if pa_resample a then exists again rows', at_positions rows again rows' /\ rows_are o (pa_return_blobs a) rows' /\ po_w o = None
    else rows_are o (pa_return_blobs a) rows /\ exists w, po_w o = Some w /\ length w = length rows.
Proof. exact (fun FL RG => main_rows undefined random FL W lp ll bl RG drawn interrupts a us offset s o). Qed.
Print Assumptions C50_rows_are_particles.
Example C50_rows_case : reachable world64 (good_draws b64_random drawn64) true final64 /\
  (exists o, posterior trimmed64 (fun _ => half64) half64 final64 = Ok o /\ length (po_x o) = 14%nat) /\
  (exists o, posterior resampled64 (fun _ => half64) half64 final64 = Ok o /\ length (po_x o) = 14%nat).
Proof. exact (conj final64_reachable (conj (summary64_ok _ _ _ trimmed64_ok) (summary64_ok _ _ _ resampled64_ok))). Qed.

(** Exact arithmetic: the call succeeds; the weights are the importance weights
    of the returned particles, normalised; trimming keeps the particles of at
    least some weight; resampling follows the weights. *)
Theorem C50_weights {C P Opt} (W : world X C P Opt) lp ll bl (drawn : vec X -> Prop) interrupts a us u ess (s : sampler X C P) :
  regular W lp ll bl -> (forall x, drawn x -> ll x <> NaN) -> (forall x, ll x <> PInf) ->
  reachable W (good_draws x_random drawn) interrupts s -> iterations (history_of s) <> 0%nat ->
  pa_ess a = Fin ess -> ess <= 1 -> (1 <= pa_bins a)%nat -> (pa_return_blobs a = true -> blobs_of (s_cfg s) bl <> None) ->
  (forall i, 0 <= us i < 1) -> 0 <= u < 1 ->
  exists ls bs zs o idx rows l,
    history (history_of s) ls bs zs /\ map pt_logl (all_particles s) = map Fin (concat ls) /\
    posterior a (fun i => Fin (us i)) (Fin u) s = Ok o /\
    at_positions (all_particles s) idx rows /\ StronglySorted lt idx /\ map pt_logl rows = map Fin l /\
    let everything := normalised_weights bs zs (concat ls) in let ws := normalised_weights bs zs l in
    Forall (fun w => 0 < w) ws /\ total ws = 1 /\
    (if pa_trim a then exists tau, at_least tau everything idx /\ ess * kish_ess everything <= kish_ess ws else rows = all_particles s) /\
    (if pa_resample a then exists again rows', at_positions rows again rows' /\ length rows' = length rows /\ rows_are o (pa_return_blobs a) rows' /\ po_w o = None /\
         match c_resample (s_cfg s) with
         | MULT => forall k i, nth_error again k = Some i -> total (firstn i ws) <= us k < total (firstn (S i) ws)
         | SYST => forall i, (i < length ws)%nat -> Rabs (INR (copies i again) - INR (length rows) * nth i ws 0) <= 1
         end
     else rows_are o (pa_return_blobs a) rows /\
       po_w o = Some (map Fin (if pa_return_logw a then map (fun x => ln (balance_weight bs zs 1 x / total (map (balance_weight bs zs 1) (concat ls)))) l else ws))).
Proof. exact (fun RG HN HI => posterior_exact W lp ll bl RG drawn HN HI interrupts a us u ess s). Qed.
Print Assumptions C50_weights.
Example C50_weights_case : exists s, reachable worldX (good_draws x_random (strictly_inside rowsX)) true s /\ iterations (history_of s) <> 0%nat /\
  regular worldX (fun _ => Fin 0) likeX None /\ (forall x, likeX x <> NaN) /\ (forall x, likeX x <> PInf) /\ s_have_blobs s = false.
Proof. exact caseX_posterior. Qed.

Theorem C50_no_blobs {T C P} {NT : NumT T} a us offset (s : sampler T C P) :
  pa_return_blobs a = true -> s_have_blobs s = false -> posterior a us offset s = Err ValueError.
Proof. exact (no_blobs a us offset s). Qed.
Print Assumptions C50_no_blobs.
Example C50_no_blobs_case : pa_return_blobs trimmed64 = true /\ s_have_blobs start64 = false.
Proof. exact (conj eq_refl eq_refl). Qed.

(** ** C51 *)
(** [mass] is the sum of the importance weights, normalised over the whole
    history, of the particles that trimming retained. *)
Theorem C51_trimmed_log_weights {C P Opt} (W : world X C P Opt) lp ll bl (drawn : vec X -> Prop) interrupts a us u ess (s : sampler X C P) :
  regular W lp ll bl -> (forall x, drawn x -> ll x <> NaN) -> (forall x, ll x <> PInf) ->
  reachable W (good_draws x_random drawn) interrupts s -> iterations (history_of s) <> 0%nat ->
  pa_ess a = Fin ess -> ess <= 1 -> (1 <= pa_bins a)%nat -> (pa_return_blobs a = true -> blobs_of (s_cfg s) bl <> None) ->
  pa_resample a = false -> pa_trim a = true ->
  exists ls bs zs idx o o' ws,
    history (history_of s) ls bs zs /\ map pt_logl (all_particles s) = map Fin (concat ls) /\
    posterior (with_logw a false) us u s = Ok o /\ posterior (with_logw a true) us u s = Ok o' /\
    po_x o' = po_x o /\ po_logl o' = po_logl o /\ po_logp o' = po_logp o /\ po_blobs o' = po_blobs o /\
    at_positions (map pt_x (all_particles s)) idx (po_x o) /\ StronglySorted lt idx /\
    let mass := total (map (fun i => nth i (normalised_weights bs zs (concat ls)) 0) idx) in
    po_w o = Some (map Fin ws) /\ po_w o' = Some (map Fin (map (fun w => ln w + ln mass) ws)) /\
    0 < mass <= 1 /\ (mass = 1 <-> idx = seq 0 (length (all_particles s))).
Proof. exact (fun RG HN HI => logw_offset W lp ll bl RG drawn HN HI interrupts a us u ess s). Qed.
Print Assumptions C51_trimmed_log_weights.
Example C51_case : exists s, reachable worldX (good_draws x_random (strictly_inside rowsX)) true s /\ iterations (history_of s) <> 0%nat /\
  regular worldX (fun _ => Fin 0) likeX None /\ (forall x, likeX x <> NaN) /\ (forall x, likeX x <> PInf) /\ s_have_blobs s = false.
Proof. exact caseX_posterior. Qed.

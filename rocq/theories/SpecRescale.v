(** * What a sampler looks like when a constant is added to the log-prior

    [rescale_world] is the same problem with log-prior + c (a prior density that
    is not normalised); [rescale_sampler] is the same sampler, except that every
    log-prior it holds is increased by c, and so is the log-evidence if it is the
    importance-sampling estimate (which comes with an error). *)
From Coq Require Import ZArith Reals.
From Coq Require Import List.
From Verif Require Import Num PyBase XReal Tools Scaler Particles LogLike Geometry Mcmc Flow Sampler SpecShift.
Import ListNotations.

Section Rescale.
  Context {C P Opt : Type}.
  Variable c : R.
  Notation B := (list C).
  Notation world := (world X C P Opt).
  Notation sampler := (sampler X C P).
  Notation sh := (sh c).

  Definition rescale_world (W : world) : world :=
    {| wd_logpdf := fun x => res_map (map sh) (wd_logpdf W x); wd_bounds := wd_bounds W; wd_dim := wd_dim W; wd_like := wd_like W;
       wd_vlike := wd_vlike W; wd_mp := wd_mp W; wd_build := wd_build W; wd_train := wd_train W;
       wd_flow_forward := wd_flow_forward W; wd_flow_inverse := wd_flow_inverse W; wd_linalg := wd_linalg W; wd_fit := wd_fit W;
       wd_none_blob := wd_none_blob W; wd_junk := wd_junk W; wd_bc_fuel := wd_bc_fuel W; wd_to_f32 := wd_to_f32 W |}.
  Definition rescale_past (p : past X B) : past X B :=
    {| h_u := h_u p; h_x := h_x p; h_logdetj := h_logdetj p; h_logl := h_logl p; h_logp := map (map sh) (h_logp p); h_logw := h_logw p;
       h_blobs := h_blobs p; h_iter := h_iter p; h_logz := h_logz p; h_calls := h_calls p; h_steps := h_steps p;
       h_efficiency := h_efficiency p; h_ess := h_ess p; h_accept := h_accept p; h_beta := h_beta p |}.
  Definition rescale_results (r : results X B) : results X B := {| r_past := rescale_past (r_past r); r_logw := r_logw r |}.
  Definition rescale_particles (p : particles X B) : particles X B :=
    {| p_past := rescale_past (p_past p); p_results := option_map rescale_results (p_results p) |}.
  Definition rescale_current (k : current X C) : current X C :=
    {| cu_u := cu_u k; cu_x := cu_x k; cu_logl := cu_logl k; cu_logp := map sh (cu_logp k); cu_logdetj := cu_logdetj k; cu_logw := cu_logw k;
       cu_blobs := cu_blobs k; cu_iter := cu_iter k; cu_calls := cu_calls k; cu_steps := cu_steps k; cu_efficiency := cu_efficiency k;
       cu_ess := cu_ess k; cu_accept := cu_accept k; cu_beta := cu_beta k; cu_logz := cu_logz k; cu_weights := cu_weights k |}.
  (** the evidence with an error is the importance-sampling estimate *)
  Definition rescale_evidence (e : option X * option X) : option X * option X :=
    match snd e with Some _ => (option_map sh (fst e), snd e) | None => e end.
  Definition rescale_sampler (s : sampler) : sampler :=
    {| s_cfg := s_cfg s; s_pool := s_pool s; s_n_effective := s_n_effective s; s_have_blobs := s_have_blobs s;
       s_n_total := s_n_total s; s_n_evidence := s_n_evidence s; s_particles := rescale_particles (s_particles s); s_t := s_t s;
       s_u_geometry := s_u_geometry s; s_theta_geometry := s_theta_geometry s; s_flow := s_flow s;
       s_untrained := s_untrained s; s_scaler := s_scaler s; s_prior_samples := s_prior_samples s;
       s_logz := fst (rescale_evidence (evidence s)); s_logz_err := s_logz_err s; s_current := option_map rescale_current (s_current s); s_warmup := s_warmup s;
       s_calls := s_calls s; s_scale := s_scale s; s_evals := s_evals s; s_evidence_evals := s_evidence_evals s |}.
  Definition rescale_event (e : event X C P) : event X C P := {| ev_file := ev_file e; ev_state := rescale_sampler (ev_state e) |}.
  Definition rescale_traced (t : traced X C P) : traced X C P := (map rescale_event (fst t), res_map rescale_sampler (snd t)).
  Definition rescale_posterior (o : posterior_out X C) : posterior_out X C :=
    {| po_x := po_x o; po_w := po_w o; po_logl := po_logl o; po_logp := map sh (po_logp o); po_blobs := po_blobs o |}.

  (** What the user can see of two samplers: the second has the particles,
      inverse temperatures, weights, counters, log-likelihoods and recorded
      log-evidences of the first, and log-priors increased by c.  The evidence
      is the same, or increased by c, according to [flow]. *)
  Record differ_in_prior (flow : bool) (s s' : sampler) : Prop := {
    dp_positions : h_x (p_past (s_particles s')) = h_x (p_past (s_particles s)) /\ h_u (p_past (s_particles s')) = h_u (p_past (s_particles s));
    dp_blobs : h_blobs (p_past (s_particles s')) = h_blobs (p_past (s_particles s));
    dp_logp : h_logp (p_past (s_particles s')) = map (map (fun l => xadd l (Fin c))) (h_logp (p_past (s_particles s)));
    dp_logl : h_logl (p_past (s_particles s')) = h_logl (p_past (s_particles s));
    dp_beta : h_beta (p_past (s_particles s')) = h_beta (p_past (s_particles s));
    dp_logz : h_logz (p_past (s_particles s')) = h_logz (p_past (s_particles s));
    dp_ess : h_ess (p_past (s_particles s')) = h_ess (p_past (s_particles s));
    dp_accept : h_accept (p_past (s_particles s')) = h_accept (p_past (s_particles s));
    dp_steps : h_steps (p_past (s_particles s')) = h_steps (p_past (s_particles s));
    dp_calls : h_calls (p_past (s_particles s')) = h_calls (p_past (s_particles s)) /\ s_calls s' = s_calls s;
    dp_evals : s_evals s' = s_evals s;
    dp_evidence : evidence s' = ((if flow then option_map (fun z => xadd z (Fin c)) (fst (evidence s)) else fst (evidence s)), snd (evidence s));
    dp_posterior : forall a us offset, match posterior a us offset s, posterior a us offset s' with
      | Ok o, Ok o' => po_x o' = po_x o /\ po_w o' = po_w o /\ po_logl o' = po_logl o /\ po_logp o' = map (fun l => xadd l (Fin c)) (po_logp o) /\ po_blobs o' = po_blobs o
      | Err e, Err e' => e' = e
      | _, _ => False
      end
  }.
End Rescale.

(** * What a sampler looks like when a constant is added to the log-likelihood

    [shift_world] is the same problem with log-likelihood + c; [shift_sampler]
    is the same sampler, except that every log-likelihood it holds is increased
    by c, every log-evidence recorded at an inverse temperature beta by c beta,
    and the evidence by c. *)
From Coq Require Import ZArith Reals.
From Coq Require Import List.
From Verif Require Import Num PyBase XReal Tools Scaler Particles LogLike Geometry Mcmc Flow Sampler.
Import ListNotations.

Definition res_map {A A'} (f : A -> A') (r : res A) : res A' := match r with Ok a => Ok (f a) | Err e => Err e end.

Section Shift.
  Context {C P Opt : Type}.
  Variable c : R.
  Notation B := (list C).
  Notation world := (world X C P Opt).
  Notation sampler := (sampler X C P).

  (** x + c *)
  Definition sh (x : X) : X := xadd x (Fin c).
  (** z + c b *)
  Definition tilt (b z : X) : X := xadd z (xmul (Fin c) b).
  Definition shift_ret (r : lret X C) : lret X C :=
    match r with RScalar l => RScalar (sh l) | RArray1 l => RArray1 (sh l) | RTuple l b => RTuple (sh l) b | REmpty => REmpty end.
  Definition shift_world (W : world) : world :=
    {| wd_logpdf := wd_logpdf W; wd_bounds := wd_bounds W; wd_dim := wd_dim W; wd_like := fun x => shift_ret (wd_like W x);
       wd_vlike := fun x => map sh (wd_vlike W x); wd_mp := wd_mp W; wd_build := wd_build W; wd_train := wd_train W;
       wd_flow_forward := wd_flow_forward W; wd_flow_inverse := wd_flow_inverse W; wd_linalg := wd_linalg W; wd_fit := wd_fit W;
       wd_none_blob := wd_none_blob W; wd_junk := wd_junk W; wd_bc_fuel := wd_bc_fuel W; wd_to_f32 := wd_to_f32 W |}.
  Definition shift_past (p : past X B) : past X B :=
    {| h_u := h_u p; h_x := h_x p; h_logdetj := h_logdetj p; h_logl := map (map sh) (h_logl p); h_logp := h_logp p; h_logw := h_logw p;
       h_blobs := h_blobs p; h_iter := h_iter p; h_logz := map2 tilt (h_beta p) (h_logz p); h_calls := h_calls p; h_steps := h_steps p;
       h_efficiency := h_efficiency p; h_ess := h_ess p; h_accept := h_accept p; h_beta := h_beta p |}.
  Definition shift_results (r : results X B) : results X B := {| r_past := shift_past (r_past r); r_logw := r_logw r |}.
  Definition shift_particles (p : particles X B) : particles X B :=
    {| p_past := shift_past (p_past p); p_results := option_map shift_results (p_results p) |}.
  Definition shift_current (k : current X C) : current X C :=
    {| cu_u := cu_u k; cu_x := cu_x k; cu_logl := map sh (cu_logl k); cu_logp := cu_logp k; cu_logdetj := cu_logdetj k; cu_logw := cu_logw k;
       cu_blobs := cu_blobs k; cu_iter := cu_iter k; cu_calls := cu_calls k; cu_steps := cu_steps k; cu_efficiency := cu_efficiency k;
       cu_ess := cu_ess k; cu_accept := cu_accept k; cu_beta := cu_beta k; cu_logz := tilt (cu_beta k) (cu_logz k); cu_weights := cu_weights k |}.
  Definition shift_sampler (s : sampler) : sampler :=
    {| s_cfg := s_cfg s; s_pool := s_pool s; s_n_effective := s_n_effective s; s_have_blobs := s_have_blobs s;
       s_n_total := s_n_total s; s_n_evidence := s_n_evidence s; s_particles := shift_particles (s_particles s); s_t := s_t s;
       s_u_geometry := s_u_geometry s; s_theta_geometry := s_theta_geometry s; s_flow := s_flow s;
       s_untrained := s_untrained s; s_scaler := s_scaler s; s_prior_samples := s_prior_samples s;
       s_logz := option_map sh (s_logz s); s_logz_err := s_logz_err s; s_current := option_map shift_current (s_current s); s_warmup := s_warmup s;
       s_calls := s_calls s; s_scale := s_scale s; s_evals := s_evals s; s_evidence_evals := s_evidence_evals s |}.

  Definition shift_event (e : event X C P) : event X C P := {| ev_file := ev_file e; ev_state := shift_sampler (ev_state e) |}.
  Definition shift_traced (t : traced X C P) : traced X C P := (map shift_event (fst t), res_map shift_sampler (snd t)).
  Definition shift_posterior (o : posterior_out X C) : posterior_out X C :=
    {| po_x := po_x o; po_w := po_w o; po_logl := map sh (po_logl o); po_logp := po_logp o; po_blobs := po_blobs o |}.

  (** What the user can see of two samplers: the second has the particles,
      inverse temperatures, weights and counters of the first, log-likelihoods
      increased by c, log-evidences at beta increased by c beta, and the
      evidence increased by c with the same error. *)
  Record differ_by (s s' : sampler) : Prop := {
    df_positions : h_x (p_past (s_particles s')) = h_x (p_past (s_particles s)) /\ h_u (p_past (s_particles s')) = h_u (p_past (s_particles s));
    df_blobs : h_blobs (p_past (s_particles s')) = h_blobs (p_past (s_particles s));
    df_logp : h_logp (p_past (s_particles s')) = h_logp (p_past (s_particles s));
    df_logl : h_logl (p_past (s_particles s')) = map (map (fun l => xadd l (Fin c))) (h_logl (p_past (s_particles s)));
    df_beta : h_beta (p_past (s_particles s')) = h_beta (p_past (s_particles s));
    df_logz : h_logz (p_past (s_particles s')) = map2 (fun b z => xadd z (xmul (Fin c) b)) (h_beta (p_past (s_particles s))) (h_logz (p_past (s_particles s)));
    df_ess : h_ess (p_past (s_particles s')) = h_ess (p_past (s_particles s));
    df_accept : h_accept (p_past (s_particles s')) = h_accept (p_past (s_particles s));
    df_steps : h_steps (p_past (s_particles s')) = h_steps (p_past (s_particles s));
    df_calls : h_calls (p_past (s_particles s')) = h_calls (p_past (s_particles s)) /\ s_calls s' = s_calls s;
    df_evals : s_evals s' = s_evals s;
    df_evidence : evidence s' = (option_map (fun z => xadd z (Fin c)) (fst (evidence s)), snd (evidence s));
    df_posterior : forall a us offset, match posterior a us offset s, posterior a us offset s' with
      | Ok o, Ok o' => po_x o' = po_x o /\ po_w o' = po_w o /\ po_logl o' = map (fun l => xadd l (Fin c)) (po_logl o) /\ po_logp o' = po_logp o /\ po_blobs o' = po_blobs o
      | Err e, Err e' => e' = e
      | _, _ => False
      end
  }.
End Shift.

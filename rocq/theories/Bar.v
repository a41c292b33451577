(** * Model of the progress bar
    tools.py ProgressBar, and what sampler.py and mcmc.py show on it.  The text that
    tqdm makes of it, and disabling it (progress=False: tqdm shows nothing, the
    dictionary is kept all the same), are not modelled.  When an exception is raised
    the model says nothing about the bar. *)
From Coq Require Import ZArith List Bool.
From Verif Require Import Num PyBase Tools Scaler Particles LogLike Geometry Mcmc Flow Sampler.
Import ListNotations.
Local Open Scope num_scope.

(** the keys of the dictionary (sampler.py:410-417, 425-432) *)
Inductive bkey := Bbeta | Bcalls | BESS | BlogZ | BlogP | Bacc | Bsteps | Beff.
Definition bkey_eqb (a b : bkey) : bool :=
  match a, b with
  | Bbeta, Bbeta | Bcalls, Bcalls | BESS, BESS | BlogZ, BlogZ | BlogP, BlogP | Bacc, Bacc | Bsteps, Bsteps | Beff, Beff => true
  | _, _ => false
  end.
(** the values: floats and integers *)
Inductive shown (T : Type) := Float (x : T) | Int (z : Z).
Arguments Float {T}. Arguments Int {T}.

Section Bar.
  Context {T : Type}.
  Definition stats := list (bkey * shown T).
  Fixpoint find_stat (d : stats) (k : bkey) : option (shown T) :=
    match d with [] => None | (k', v) :: d => if bkey_eqb k k' then Some v else find_stat d k end.

  (** tools.py:198-200: [bar_info] is self.info, [bar_count] the iteration number that
      tqdm shows *)
  Record bar := { bar_info : bkey -> option (shown T); bar_count : Z }.
  Definition new_bar (initial : Z) : bar := {| bar_info := fun _ => None; bar_count := initial |}.
  (** tools.py:202-212 *)
  Definition update_stats (b : bar) (info : stats) : bar :=
    {| bar_info := fun k => match find_stat info k with Some v => Some v | None => bar_info b k end;   (* 211 *)
       bar_count := bar_count b |}.
  (** tools.py:214-218 *)
  Definition update_iter (b : bar) : bar := {| bar_info := bar_info b; bar_count := (bar_count b + 1)%Z |}.
End Bar.
Arguments stats : clear implicits.
Arguments bar : clear implicits.

Section Kernels.
  Context {T B : Type} {NT : NumT T}.
  Variable env : kernel_env T B.

  (** mcmc.py:159-167, 317-324, 483-490, 630-637, at the end of step [i], from [st] to
      [st'].  np.sum(finite_mask) is what the step has added to n_calls (line 121).
      KeyError: run has put a number of calls into the dictionary. *)
  Definition show_step (b : bar T) (i : Z) (st st' : mstate T B) : res (bar T) :=
    match bar_info b Bcalls with
    | Some (Int calls) =>
      Ok (update_stats b
        [(Bcalls, Int (calls + (m_calls st' - m_calls st))%Z);
         (Bacc, Float (nmean (m_alpha st')));
         (Bsteps, Int i);
         (BlogP, Float (nmean (sum2 (w_logl (m_w st')) (w_logp (m_w st')))));
         (Beff, Float (m_sigma st' / (nfrac 238 100 / nsqrt (nofZ (Z.of_nat (k_n_dim env))))))])
    | _ => Err KeyError
    end.

  (** the loop of the kernels ([kernel_loop]) with the bar *)
  Fixpoint kernel_loop_bar (step : step_rand T B -> Z -> mstate T B -> res (mstate T B * bool)) (rand : Z -> step_rand T B) (fuel : nat) (i : Z)
    (st : mstate T B) (b : bar T) : res (mstate T B * Z * bar T) :=
    let i := (i + 1)%Z in
    let! (st', stop) := step (rand i) i st in
    let! b := show_step b i st st' in
    if stop then Ok (st', i, b)
    else if (k_n_max env <=? i)%Z then Ok (st', i, b)
    else match fuel with O => Err Diverge | S f => kernel_loop_bar step rand f i st' b end.

  (** mcmc.py:7-183, with the bar *)
  Definition preconditioned_pcn_bar (g : geometry T) (proposal_scale : T) (s : kstate T B) (rand : Z -> step_rand T B) (b : bar T) : res (mresult T B * bar T) :=
    let sigma := nmin2 proposal_scale (nfrac 99 100) in                           (* 54 *)
    let (theta, ldf) := flow_forward env (s_u s) in                               (* 60 *)
    let! cov := need_mat (t_cov g) in
    let! inv_cov := la_inv (k_linalg env) cov in                                  (* 67 *)
    let! chol := la_cholesky (k_linalg env) cov in                                (* 68 *)
    let best := nmean (sum2 (s_logl s) (s_logp s)) in                             (* 70 *)
    let! mu := of_option TypeError (t_mean g) in
    let! nu := of_option TypeError (t_nu g) in
    let! (st, i, b) := kernel_loop_bar (ppcn_step env nu inv_cov chol (s_beta s)) rand (fuel_of env) 0 (start (walkers_of s theta ldf) sigma mu best) b in
    Ok (finish st i, b).

  (** mcmc.py:185-341, with the bar *)
  Definition preconditioned_rwm_bar (g : geometry T) (proposal_scale : T) (s : kstate T B) (rand : Z -> step_rand T B) (b : bar T) : res (mresult T B * bar T) :=
    let! cov := need_cov (normal_cov g) in
    let! chol := la_cholesky (k_linalg env) cov in                                (* 238 *)
    let (theta, ldf) := flow_forward env (s_u s) in                               (* 241 *)
    let best := nmean (sum3 (s_logl s) (s_logp s) (s_logdetj s)) in               (* 243 *)
    let! (st, i, b) := kernel_loop_bar (prwm_step env chol (s_beta s)) rand (fuel_of env) 0 (start (walkers_of s theta ldf) proposal_scale [] best) b in
    Ok (finish st i, b).

  (** mcmc.py:344-506, with the bar *)
  Definition pcn_bar (g : geometry T) (proposal_scale : T) (s : kstate T B) (rand : Z -> step_rand T B) (b : bar T) : res (mresult T B * bar T) :=
    let sigma := nmin2 proposal_scale (nfrac 99 100) in                           (* 389 *)
    let! cov := need_mat (t_cov g) in
    let! inv_cov := la_inv (k_linalg env) cov in                                  (* 398 *)
    let! chol := la_cholesky (k_linalg env) cov in                                (* 399 *)
    let best := nmean (sum2 (s_logl s) (s_logp s)) in                             (* 401 *)
    let! mu := of_option TypeError (t_mean g) in
    let! nu := of_option TypeError (t_nu g) in
    let! (st, i, b) := kernel_loop_bar (pcn_step env nu inv_cov chol (s_beta s)) rand (fuel_of env) 0 (start (walkers_of s [] []) sigma mu best) b in
    Ok (finish st i, b).

  (** mcmc.py:508-654, with the bar *)
  Definition rwm_bar (g : geometry T) (proposal_scale : T) (s : kstate T B) (rand : Z -> step_rand T B) (b : bar T) : res (mresult T B * bar T) :=
    let! cov := need_cov (normal_cov g) in
    let! chol := la_cholesky (k_linalg env) cov in                                (* 559 *)
    let best := nmean (sum3 (s_logl s) (s_logp s) (s_logdetj s)) in               (* 561 *)
    let! (st, i, b) := kernel_loop_bar (rwm_step env chol (s_beta s)) rand (fuel_of env) 0 (start (walkers_of s [] []) proposal_scale [] best) b in
    Ok (finish st i, b).
End Kernels.

Section Run.
  Context {T C P Opt : Type} {NT : NumT T}.
  Notation B := (list C).
  Notation sampler := (sampler T C P).
  Variable W : world T C P Opt.

  (** sampler.py:477-484 (and 410-417, where [int] is not applied): the last recorded
      values *)
  Definition show_recorded (whole : bool) (p : past T B) (b : bar T) : res (bar T) :=
    let! calls := get_index p Kcalls (-1) in
    let! beta := get_index p Kbeta (-1) in
    let! ess := get_index p Kess (-1) in
    let! ess := (if whole then let! z := of_option ValueError (ntrunc ess) in Ok (Int z) else Ok (Float ess)) in
    let! logz := get_index p Klogz (-1) in
    let! logp := get_index p Klogp (-1) in
    let! logl := get_index p Klogl (-1) in
    let! accept := get_index p Kaccept (-1) in
    let! steps := get_index p Ksteps (-1) in
    let! efficiency := get_index p Kefficiency (-1) in
    Ok (update_stats b [(Bcalls, Int calls); (Bbeta, Float beta); (BESS, ess); (BlogZ, Float logz); (BlogP, Float (nmean (sum2 logp logl)));
                        (Bacc, Float accept); (Bsteps, Int steps); (Beff, Float efficiency)]).

  (** sampler.py:448-488 *)
  Definition warmup_batch_bar (R : rand T C P) (i : nat) (s : sampler) (b : bar T) : res (sampler * bar T) :=
    let! s := warmup_batch W R i s in
    let! b := show_recorded true (p_past (s_particles s)) b in
    Ok (s, update_iter b).                                                          (* 486 *)

  (** sampler.py:717-805 _reweight: lines 733 and 757, 763 or 772 *)
  Definition reweight_bar (fuel : nat) (s : sampler) (b : bar T) : res (sampler * bar T) :=
    let b := update_iter b in
    let! s := reweight fuel s in
    let! c := of_option AttributeError (s_current s) in
    let! z := of_option ValueError (ntrunc (cu_ess c)) in
    Ok (s, update_stats b [(Bbeta, Float (cu_beta c)); (BESS, Int z); (BlogZ, Float (cu_logz c))]).

  (** sampler.py:550-633 _mutate: the kernel is given the bar (line 590).  [mutate],
      which contains the same kernel without the bar, is run beside it. *)
  Definition mutate_bar (R : rand T C P) (s : sampler) (b : bar T) : res (sampler * bar T) :=
    let! c := of_option AttributeError (s_current s) in
    let cfg := s_cfg s in
    let! blobs := (if s_have_blobs s then let! b := of_option AttributeError (cu_blobs c) in Ok (Some b) else Ok None) in  (* 564-567 *)
    let ks := {| s_u := cu_u c; s_x := cu_x c; s_logdetj := cu_logdetj c; s_logl := cu_logl c; s_logp := cu_logp c;
                 s_blobs := blobs; s_beta := cu_beta c |} in                        (* 568-576 *)
    let env := kernel_env_of W s in
    let rnd := ir_step (rn_iter R (s_t s)) in
    let! (_, b) := match c_preconditioned cfg, c_sample cfg with                    (* 594-617 *)
              | true, TPCN => preconditioned_pcn_bar env (s_theta_geometry s) (s_scale s) ks rnd b
              | true, RWMH => preconditioned_rwm_bar env (s_theta_geometry s) (s_scale s) ks rnd b
              | false, TPCN => pcn_bar env (s_u_geometry s) (s_scale s) ks rnd b
              | false, RWMH => rwm_bar env (s_u_geometry s) (s_scale s) ks rnd b
              end in
    let! s := mutate W R s in
    Ok (s, b).

  (** sampler.py:498-510 *)
  Definition iteration_bar (fuel : nat) (R : rand T C P) (s : sampler) (b : bar T) : res (sampler * bar T) :=
    let! (s, b) := reweight_bar fuel s b in                                         (* 498 *)
    let! s := train W R s in                                                        (* 501 *)
    let! s := resample R s in                                                       (* 504 *)
    let! (s, b) := mutate_bar R s b in                                              (* 507 *)
    let! c := of_option AttributeError (s_current s) in
    Ok (with_particles s (particles_update (s_particles s) (items c)), b).          (* 510 *)

  (** sampler.py:443-488; files do not touch the bar (line 1036 deletes it from a copy
      of the dictionary) *)
  Fixpoint warmup_loop_bar (save_every : option Z) (t0 : Z) (R : rand T C P) (i k : nat) (s : sampler) (b : bar T) : res (sampler * bar T) :=
    match k with
    | O => Ok (s, b)
    | S k' =>
      let! s := snd (checkpoint save_every t0 s) in
      let! (s, b) := warmup_batch_bar R i s b in
      warmup_loop_bar save_every t0 R (S i) k' s b
    end.
  Definition warmup_bar (save_every : option Z) (t0 : Z) (R : rand T C P) (s : sampler) (b : bar T) : res (sampler * bar T) :=
    if s_warmup s then
      if Nat.eqb (c_n_active (s_cfg s)) 0 then Err ZeroDivisionError
      else let! (s, b) := warmup_loop_bar save_every t0 R 0 (n_batches (s_cfg s)) s b in Ok (end_warmup s, b)
    else Ok (s, b).

  (** sampler.py:492-510 *)
  Fixpoint smc_loop_bar (fuel bfuel : nat) (save_every : option Z) (t0 : Z) (R : rand T C P) (s : sampler) (b : bar T) : res (sampler * bar T) :=
    let! go := not_termination s in
    if go then
      match fuel with
      | O => Err Diverge
      | S fuel' =>
        let! s := snd (checkpoint save_every t0 s) in
        let! (s, b) := iteration_bar bfuel R s b in
        smc_loop_bar fuel' bfuel save_every t0 R s b
      end
    else Ok (s, b).

  (** sampler.py:513-517; line 916 in _compute_evidence *)
  Definition final_evidence_bar (R : rand T C P) (s : sampler) (b : bar T) : res (sampler * bar T) :=
    let! n := of_option TypeError (s_n_evidence s) in
    let! s' := final_evidence W R s in
    Ok (s', if (0 <? n)%Z && c_preconditioned (s_cfg s) then update_stats b [(Bcalls, Int (s_calls s'))] else b).

  (** sampler.py:434-521 *)
  Definition run_from_bar (a : run_args) (R : rand T C P) (s : sampler) (b : bar T) : res (sampler * bar T) :=
    let t0 := s_t s in
    let! s := draw_prior W R (set_targets (ra_n_total a) (ra_n_evidence a) s) in
    let! (s, b) := warmup_bar (ra_save_every a) t0 R s b in
    let! (s, b) := smc_loop_bar (ra_fuel a) (ra_bfuel a) (ra_save_every a) t0 R s b in
    final_evidence_bar R s b.

  (** sampler.py:424-432: the bar at the start of a run *)
  Definition first_bar (s : sampler) : bar T :=
    update_stats (new_bar 0)
      [(Bbeta, Float (nofZ 0)); (Bcalls, Int (s_calls s)); (BESS, Int (s_n_effective s)); (BlogZ, Float (nofZ 0)); (BlogP, Float (nofZ 0));
       (Bacc, Float (nofZ 0)); (Bsteps, Int 0); (Beff, Float (nofZ 0))].
  (** sampler.py:375-524 run(resume_state_path=None) *)
  Definition run_bar (a : run_args) (R : rand T C P) (s : sampler) : res (sampler * bar T) := run_from_bar a R s (first_bar s).
  (** sampler.py:405-417 run(resume_state_path=...) *)
  Definition run_resumed_bar (a : run_args) (R : rand T C P) (saved self : sampler) : res (sampler * bar T) :=
    let s := load saved self in
    let! b := show_recorded false (p_past (s_particles s)) (new_bar (s_t s)) in
    run_from_bar a R s b.
End Run.

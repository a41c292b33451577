(** * Model of pocomc/sampler.py: construction, run, posterior, evidence

    The progress bar is display only and not modelled here (see Bar.v), except
    that int(ess) computed for it can raise.  User functions (likelihood, prior) are total
    and deterministic; random numbers and library routines are arguments. *)
From Coq Require Import ZArith String List Bool.
From Verif Require Import Num PyBase Tools Scaler Particles LogLike Geometry Mcmc Flow.
Import ListNotations.
Open Scope list_scope.
Open Scope num_scope.

Section Sampler.
  (** numbers; blob entries; network parameters; optimiser state *)
  Context {T C P Opt : Type} {NT : NumT T}.
  (** the blob of one point *)
  Notation B := (list C).

  (** ** The outside world *)
  (** pool.map *)
  Definition mapfn := (vec T -> lret T C) -> mat T -> list (lret T C).

  Record world := {
    wd_logpdf : mat T -> res (vec T);          (** prior.logpdf *)
    wd_bounds : bounds_arg T;                  (** prior.bounds *)
    wd_dim : nat;                              (** prior.dim *)
    wd_like : vec T -> lret T C;               (** likelihood with its extra arguments *)
    wd_vlike : mat T -> vec T;                 (** the same, vectorized *)
    wd_mp : Z -> mapfn;                        (** multiprocess.Pool(n).map *)
    wd_build : arch -> P;                      (** zuko flow with its initial weights *)
    wd_train : flow_oracles T P Opt;
    wd_flow_forward : P -> vec T -> vec T * T; (** latent point, log|dtheta/du| *)
    wd_flow_inverse : P -> vec T -> vec T * T; (** point, log|du/dtheta| *)
    wd_linalg : linalg T;
    wd_fit : fit_oracles T;
    wd_none_blob : option B;                   (** None converted to the blob dtype, if it can be *)
    wd_junk : vec T;                           (** content of np.empty in the scaler *)
    wd_bc_fuel : nat;                          (** bound on the boundary-condition loops *)
    wd_to_f32 : T -> T
  }.
  Variable W : world.

  (** Random numbers, by iteration counter. *)
  Record iter_rand := {
    ir_fit : fit_rand T;               (** training the flow *)
    ir_geometry : T;                   (** systematic_resample in Geometry.fit *)
    ir_uniform : nat -> T;             (** np.random.choice in _resample *)
    ir_offset : T;                     (** systematic_resample in _resample *)
    ir_step : Z -> step_rand T B       (** MCMC *)
  }.
  Record rand := {
    rn_prior : nat -> res (mat T);             (** prior.rvs(size) *)
    rn_pick : Z -> nat -> nat;                 (** np.random.choice in warm-up *)
    rn_iter : Z -> iter_rand;
    rn_flow : P -> nat -> mat T * vec T;       (** flow.sample(n) *)
    rn_boot : nat -> nat -> nat                (** np.random.choice in _compute_evidence *)
  }.

  (** ** Construction *)
  Inductive metric := ESS | USS.
  Inductive algorithm := TPCN | RWMH.
  Inductive scheme := MULT | SYST.

  (** sampler.py:167, 267-274: None, an integer, or an object with or without a
      map method *)
  Inductive pool_arg := PoolNone | PoolInt (n : Z) | PoolObject (m : option mapfn).

  (** sampler.py:287-299, the keys of train_config that are used *)
  Inductive train_item :=
  | TC_validation_split (v : T) | TC_epochs (v : Z) | TC_batch_size (v : Z) | TC_patience (v : Z)
  | TC_learning_rate (v : T) | TC_annealing (v : bool) | TC_gaussian_scale (v : option T)
  | TC_laplace_scale (v : option T) | TC_noise (v : option T) | TC_shuffle (v : bool)
  | TC_clip_grad_norm (v : T) | TC_verbose (v : Z) | TC_other (name : string).

  (** sampler.py:154-185, the arguments of the constructor.  Simplifications:
      sizes are natural numbers (negative or fractional sizes are not
      modelled); random_state, pytorch_threads are not modelled. *)
  Record options := {
    a_n_dim : option nat; a_n_effective : option nat; a_n_active : option nat;
    a_vectorize : bool; a_blobs_dtype : bool (** given? *);
    a_periodic : option (list Z); a_reflective : option (list Z); a_transform : string;
    a_pool : pool_arg; a_flow : flow_arg P; a_train_config : option (list train_item); a_train_frequency : option Z;
    a_precondition : bool; a_dynamic : bool; a_metric : string; a_n_prior : option nat;
    a_sample : string; a_n_steps : option Z; a_n_max_steps : option Z; a_resample : string;
    a_output_dir : option string; a_output_label : option string; a_n_ess : option nat
  }.

  (** The attributes that never change after construction. *)
  Record config := {
    c_n_dim : nat; c_n_active : nat; c_n_steps : Z; c_n_max_steps : Z; c_vectorize : bool;
    c_train : fit_config T; c_train_frequency : Z; c_preconditioned : bool; c_metric : metric;
    c_dynamic : bool; c_dynamic_ratio : T; c_sample : algorithm; c_resample : scheme; c_n_prior : nat;
    c_output_dir : string; c_output_label : string
  }.

  (** The dictionary current_particles (sampler.py:470-473; "weights" is added
      by _reweight, line 802). *)
  Record current := {
    cu_u : mat T; cu_x : mat T; cu_logl : vec T; cu_logp : vec T; cu_logdetj : vec T; cu_logw : vec T;
    cu_blobs : option (list B); cu_iter : Z; cu_calls : Z; cu_steps : Z; cu_efficiency : T; cu_ess : T;
    cu_accept : T; cu_beta : T; cu_logz : T; cu_weights : option (vec T)
  }.

  (** The attributes that change.  [s_evals] and [s_evidence_evals] are ghosts:
      all points at which warm-up and MCMC evaluated the likelihood, and those
      of the evidence estimate(s) made since the last iteration. *)
  Record sampler := {
    s_cfg : config;
    s_pool : option mapfn;
    s_n_effective : Z; s_have_blobs : bool; s_n_total : option Z; s_n_evidence : option Z;
    s_particles : particles T B; s_t : Z; s_u_geometry : geometry T; s_theta_geometry : geometry T;
    s_flow : P; s_untrained : bool; s_scaler : reparam T; s_prior_samples : option (mat T);
    s_logz : option T; s_logz_err : option T; s_current : option current; s_warmup : bool; s_calls : Z;
    s_scale : T;
    s_evals : mat T; s_evidence_evals : mat T
  }.

  (** sampler.py:300-302 *)
  Definition set_train (c : fit_config T) (i : train_item) : fit_config T :=
    let mk v e b p lr g l a n sh cl ve :=
      {| c_validation_split := v; c_epochs := e; c_batch_size := b; c_patience := p; c_learning_rate := lr;
         c_weight_decay := c_weight_decay c; c_laplace_scale := l; c_gaussian_scale := g; c_annealing := a;
         c_noise := n; c_shuffle := sh; c_clip_grad_norm := cl; c_verbose := ve |} in
    let v := c_validation_split c in let e := c_epochs c in let b := c_batch_size c in let p := c_patience c in
    let lr := c_learning_rate c in let g := c_gaussian_scale c in let l := c_laplace_scale c in
    let a := c_annealing c in let n := c_noise c in let sh := c_shuffle c in let cl := c_clip_grad_norm c in
    let ve := c_verbose c in
    match i with
    | TC_validation_split v => mk v e b p lr g l a n sh cl ve
    | TC_epochs e => mk v e b p lr g l a n sh cl ve
    | TC_batch_size b => mk v e b p lr g l a n sh cl ve
    | TC_patience p => mk v e b p lr g l a n sh cl ve
    | TC_learning_rate lr => mk v e b p lr g l a n sh cl ve
    | TC_annealing a => mk v e b p lr g l a n sh cl ve
    | TC_gaussian_scale g => mk v e b p lr g l a n sh cl ve
    | TC_laplace_scale l => mk v e b p lr g l a n sh cl ve
    | TC_noise n => mk v e b p lr g l a n sh cl ve
    | TC_shuffle sh => mk v e b p lr g l a n sh cl ve
    | TC_clip_grad_norm cl => mk v e b p lr g l a n sh cl ve
    | TC_verbose ve => mk v e b p lr g l a n sh cl ve
    | TC_other _ => c
    end.
  (** sampler.py:287-302; weight_decay keeps the default 0 of Flow.fit *)
  Definition train_config (n_effective : Z) (n_dim : nat) (given : option (list train_item)) : fit_config T :=
    let c := {| c_validation_split := nfrac 1 2; c_epochs := 5000; c_batch_size := Z.min (n_effective / 2) 512;
                c_patience := Z.of_nat n_dim; c_learning_rate := nfrac 1 1000; c_weight_decay := nofZ 0;
                c_laplace_scale := None; c_gaussian_scale := None; c_annealing := false; c_noise := None;
                c_shuffle := true; c_clip_grad_norm := nofZ 1; c_verbose := 0 |} in
    match given with None => c | Some l => fold_left set_train l c end.

  Definition parse {A} (table : list (string * A)) (s : string) : res A :=
    match find (fun p => String.eqb (fst p) s) table with Some p => Ok (snd p) | None => Err ValueError end.
  Definition transforms : list (string * transf) := [("probit", Probit); ("logit", Logit)]%string.   (* 313 *)
  Definition metrics : list (string * metric) := [("ess", ESS); ("uss", USS)]%string.                (* 334 *)
  Definition algorithms : list (string * algorithm) := [("tpcn", TPCN); ("rwm", RWMH)]%string.       (* 344 *)
  Definition schemes : list (string * scheme) := [("mult", MULT); ("syst", SYST)]%string.            (* 353 *)

  (** 2.38 / self.n_dim ** 0.5 (sampler.py:350, 626) *)
  Definition initial_scale (n_dim : nat) : T := nfrac 238 100 / npow (nofZ (Z.of_nat n_dim)) (nfrac 1 2).

  (** sampler.py:232 int(n_effective/2) *)
  Definition half_of (n : nat) : res nat :=
    let! z := of_option ValueError (ntrunc (nofZ (Z.of_nat n) / nofZ 2)) in Ok (Z.to_nat z).

  (** Python's // and ZeroDivisionError *)
  Definition floordiv (a b : Z) : res Z := if (b =? 0)%Z then Err ZeroDivisionError else Ok (a / b)%Z.

  (** sampler.py:359-362 *)
  Definition prior_size (n_prior : option nat) (n_effective : Z) (n_active : nat) : res nat :=
    match n_prior with
    | None => let! q := floordiv n_effective (Z.of_nat n_active) in
              Ok (Z.to_nat (2 * Z.max q 1 * Z.of_nat n_active))                                     (* 360 *)
    | Some n =>
      let! z := of_option ValueError (ntrunc
          (nmax2 (nofZ (Z.of_nat n) / nofZ (Z.of_nat n_active)) (nofZ 1) * nofZ (Z.of_nat n_active))) in
      Ok (Z.to_nat z)                                                                               (* 362 *)
    end.

  (** sampler.py:154-373 __init__ *)
  Definition new_sampler (o : options) : res sampler :=
    let n_effective := match a_n_ess o with Some n => Some n | None => a_n_effective o end in         (* 188-189 *)
    let n_dim := match a_n_dim o with None => wd_dim W | Some n => n end in                          (* 221-224 *)
    let! n_active := match a_n_active o, n_effective with
                     | None, None => Err ValueError                                                  (* 227-228 *)
                     | None, Some n => half_of n                                                     (* 232 *)
                     | Some n, _ => Ok n                                                             (* 234 *)
                     end in
    let n_effective := match n_effective with
                       | None => (2 * Z.of_nat n_active)%Z                                           (* 238 *)
                       | Some n => Z.of_nat n
                       end in
    let n_steps := match a_n_steps o with None => (Z.of_nat n_dim / 2)%Z | Some n => n end in        (* 243-246 *)
    let n_max_steps := match a_n_max_steps o with None => (10 * n_steps)%Z | Some n => n end in      (* 249-252 *)
    let! pool := match a_pool o with
                 | PoolNone => Ok None                                                               (* 268-269 *)
                 | PoolInt n => if (1 <? n)%Z then Ok (Some (wd_mp W n)) else Err AttributeError     (* 270-274 *)
                 | PoolObject (Some m) => Ok (Some m)                                                (* 274 *)
                 | PoolObject None => Err AttributeError
                 end in
    let! _ := if a_vectorize o && a_blobs_dtype o then Err ValueError else Ok tt in                  (* 278-279 *)
    let! flow := flow_init (Z.of_nat n_dim) (a_flow o) in                                            (* 286 *)
    let train := train_config n_effective n_dim (a_train_config o) in                                (* 287-302 *)
    let! freq := match a_train_frequency o with
                 | None => let! q := floordiv n_effective (Z.of_nat n_active * 2) in Ok (Z.max q 1)  (* 305 *)
                 | Some n => Ok n
                 end in
    let! tr := parse transforms (a_transform o) in                                                   (* 312-313 *)
    let! sc := init_reparam (wd_to_f32 W) n_dim (wd_bounds W) (a_periodic o) (a_reflective o) tr true true in  (* 314-318 *)
    let! m := parse metrics (a_metric o) in                                                          (* 334-337 *)
    let ratio := fst (unique_sample_size (repeat (nofZ 1) (Z.to_nat n_effective)) (Some n_active))
                 / nofZ (Z.of_nat n_active) in                                                       (* 341 *)
    let! alg := parse algorithms (a_sample o) in                                                     (* 344-347 *)
    let! _ := if Nat.eqb n_dim 0 then Err ZeroDivisionError else Ok tt in                            (* 350 *)
    let! rs := parse schemes (a_resample o) in                                                       (* 353-356 *)
    let! n_prior := prior_size (a_n_prior o) n_effective n_active in                                 (* 359-362 *)
    Ok {| s_cfg := {| c_n_dim := n_dim; c_n_active := n_active; c_n_steps := n_steps; c_n_max_steps := n_max_steps;
                      c_vectorize := a_vectorize o; c_train := train; c_train_frequency := freq;
                      c_preconditioned := a_precondition o; c_metric := m; c_dynamic := a_dynamic o;
                      c_dynamic_ratio := ratio; c_sample := alg; c_resample := rs; c_n_prior := n_prior;
                      c_output_dir := match a_output_dir o with None => "states"%string | Some d => d end;
                      c_output_label := match a_output_label o with None => "pmc"%string | Some l => l end |};
          s_pool := pool; s_n_effective := n_effective; s_have_blobs := a_blobs_dtype o;
          s_n_total := None; s_n_evidence := None; s_particles := new_particles; s_t := 0;
          s_u_geometry := new_geometry; s_theta_geometry := new_geometry;
          s_flow := match flow with inl a => wd_build W a | inr p => p end; s_untrained := true; s_scaler := sc;
          s_prior_samples := None; s_logz := None; s_logz_err := None; s_current := None; s_warmup := true;
          s_calls := 0; s_scale := initial_scale n_dim; s_evals := []; s_evidence_evals := [] |}.

  (** ** Likelihood *)
  (** sampler.py:807-861; the attribute have_blobs is updated separately *)
  Definition sampler_like (s : sampler) (x : mat T) : res (vec T * option (list B)) :=
    log_like (c_vectorize (s_cfg s)) (wd_vlike W) (wd_like W) (s_pool s) x.
  (** sampler.py:836 *)
  Definition after_like (s : sampler) (blobs : option (list B)) : bool :=
    match blobs with Some _ => true | None => s_have_blobs s end.

  (** ** Warm-up *)
  (** the entries of current_particles in dictionary order (sampler.py:470-473) *)
  Definition items (c : current) : list (item T B) :=
    [Known (T:=T) (B:=B) Ku (cu_u c); Known (T:=T) (B:=B) Kx (cu_x c); Known (T:=T) (B:=B) Klogl (cu_logl c);
     Known (T:=T) (B:=B) Klogp (cu_logp c); Known (T:=T) (B:=B) Klogdetj (cu_logdetj c);
     Known (T:=T) (B:=B) Klogw (cu_logw c); Known (T:=T) (B:=B) Kblobs (cu_blobs c);
     Known (T:=T) (B:=B) Kiter (cu_iter c); Known (T:=T) (B:=B) Kcalls (cu_calls c);
     Known (T:=T) (B:=B) Ksteps (cu_steps c); Known (T:=T) (B:=B) Kefficiency (cu_efficiency c);
     Known (T:=T) (B:=B) Kess (cu_ess c); Known (T:=T) (B:=B) Kaccept (cu_accept c);
     Known (T:=T) (B:=B) Kbeta (cu_beta c); Known (T:=T) (B:=B) Klogz (cu_logz c)]
    ++ match cu_weights c with None => [] | Some _ => [Unknown "weights"] end.

  (** sampler.py:462-468: [a[infinite_idx] = a[idx]] *)
  Definition replace_rows {A} (infinite_idx idx : list nat) (a : list A) : res (list A) :=
    let! v := gather a idx in Ok (put infinite_idx v a).

  (** sampler.py:461: which rows replace the infinite ones.  The j-th draw
      of np.random.choice is finite_idx[pick j mod n]. *)
  Definition choose_finite (pick : nat -> nat) (finite_idx : list nat) (k : nat) : res (list nat) :=
    match finite_idx with
    | [] => Err ValueError
    | _ => Ok (map (fun j => nth (Nat.modulo (pick j) (length finite_idx)) finite_idx 0%nat) (seq 0 k))
    end.

  (** rows [i*n, (i+1)*n) of an array, and the array with those rows replaced *)
  Definition slice {A} (i n : nat) (l : list A) : list A := firstn n (skipn (i * n) l).
  Definition set_slice {A} (i n : nat) (new l : list A) : list A := firstn (i * n) l ++ new ++ skipn ((i + 1) * n) l.

  (** sampler.py:448-488: one warm-up batch.  The rows of prior_samples are a
      view, so that replaced points are also written there (line 462). *)
  Definition warmup_batch (R : rand) (i : nat) (s : sampler) : res sampler :=
    let n := c_n_active (s_cfg s) in
    let sc := s_scaler s in
    let! ps := of_option TypeError (s_prior_samples s) in
    let x := slice i n ps in                                                        (* 448 *)
    let! u := forward sc (wd_junk W) x true in                                      (* 449 *)
    let! (_, logdetj) := inverse sc (wd_junk W) u in                                (* 450 *)
    let! logp := wd_logpdf W x in                                                   (* 451 *)
    let! (logl, blobs) := sampler_like s x in                                       (* 452 *)
    let have_blobs := after_like s blobs in
    let calls := (s_calls s + Z.of_nat n)%Z in                                      (* 453 *)
    let mask := map nisinf logl in                                                  (* 456 *)
    let! (x', u', logdetj', logp', logl', blobs') :=
      (if existsb (fun b => b) mask then                                            (* 457 *)
         let infinite_idx := true_positions 0 mask in                               (* 459 *)
         let finite_idx := true_positions 0 (map negb mask) in                      (* 460 *)
         let! idx := choose_finite (rn_pick R (s_t s)) finite_idx (length infinite_idx) in (* 461 *)
         let! x := replace_rows infinite_idx idx x in
         let! u := replace_rows infinite_idx idx u in
         let! logdetj := replace_rows infinite_idx idx logdetj in
         let! logp := replace_rows infinite_idx idx logp in
         let! logl := replace_rows infinite_idx idx logl in
         let! blobs := (if have_blobs then
                          let! b := of_option TypeError blobs in
                          let! b := replace_rows infinite_idx idx b in Ok (Some b)
                        else Ok blobs) in                                           (* 467-468 *)
         Ok (x, u, logdetj, logp, logl, blobs)
       else Ok (x, u, logdetj, logp, logl, blobs)) in
    let c := {| cu_u := u'; cu_x := x'; cu_logl := logl'; cu_logp := logp'; cu_logdetj := logdetj';
                cu_logw := repeat (- nofZ (10 ^ 300)) n; cu_blobs := blobs'; cu_iter := s_t s; cu_calls := calls;
                cu_steps := 1; cu_efficiency := nofZ 1; cu_ess := nofZ (s_n_effective s); cu_accept := nofZ 1;
                cu_beta := nofZ 0; cu_logz := nofZ 0; cu_weights := None |} in       (* 470-473 *)
    Ok {| s_cfg := s_cfg s; s_pool := s_pool s; s_n_effective := s_n_effective s; s_have_blobs := have_blobs;
          s_n_total := s_n_total s; s_n_evidence := s_n_evidence s;
          s_particles := particles_update (s_particles s) (items c);                (* 475 *)
          s_t := (s_t s + 1)%Z;                                                     (* 488 *)
          s_u_geometry := s_u_geometry s; s_theta_geometry := s_theta_geometry s; s_flow := s_flow s;
          s_untrained := s_untrained s; s_scaler := sc; s_prior_samples := Some (set_slice i n x' ps);
          s_logz := s_logz s; s_logz_err := s_logz_err s; s_current := Some c; s_warmup := s_warmup s;
          s_calls := calls; s_scale := s_scale s; s_evals := s_evals s ++ x; s_evidence_evals := s_evidence_evals s |}.

  (** ** One SMC iteration *)
  (** np.exp(logw - np.max(logw)) at a given beta (sampler.py:740-741, 779-780) *)
  Definition relative_weights (p : past T B) (beta : T) : res (vec T) :=
    let! (logw, _) := compute_logw_and_logz p beta true in
    let! m := of_option ValueError (nmaximum logw) in
    Ok (map (fun l => nexp (l - m)) logw).
  (** sampler.py:742-745 (and 542-545) *)
  Definition measure (m : metric) (weights : vec T) : T :=
    match m with ESS => fst (effective_sample_size weights) | USS => fst (unique_sample_size weights None) end.
  (** sampler.py:739-746 get_weights_and_ess *)
  Definition ess_at (m : metric) (p : past T B) (beta : T) : res T :=
    let! w := relative_weights p beta in Ok (measure m w).

  (** sampler.py:526-547 _not_termination *)
  Definition not_termination (s : sampler) : res bool :=
    let! ess := ess_at (c_metric (s_cfg s)) (p_past (s_particles s)) (nofZ 1) in
    let! c := of_option AttributeError (s_current s) in
    let! n_total := of_option TypeError (s_n_total s) in
    Ok ((nfrac 1 10000 <=? nofZ 1 - cu_beta c) || (ess <? nofZ n_total)).

  (** sampler.py:765-777, the bisection.  Result: beta, its ESS. *)
  Fixpoint bisect (fuel : nat) (m : metric) (p : past T B) (n_effective : T) (beta_min beta_max : T) : res (T * T) :=
    match fuel with
    | O => Err Diverge
    | S fuel' =>
      let beta := (beta_max + beta_min) * nfrac 1 2 in                               (* 766 *)
      let! ess := ess_at m p beta in                                                 (* 768 *)
      if (nabs (ess - n_effective) <? nfrac 1 100 * n_effective) || (beta =? nofZ 1) then
        let! _ := of_option ValueError (ntrunc ess) in                               (* 772: int(ess_est) *)
        Ok (beta, ess)
      else if ess <? n_effective then bisect fuel' m p n_effective beta_min beta     (* 774-775 *)
      else bisect fuel' m p n_effective beta beta_max                                (* 776-777 *)
    end.

  (** sampler.py:735-777: the next beta, logz and ess *)
  Definition next_beta (fuel : nat) (m : metric) (p : past T B) (n_effective : T) : res (T * T * T) :=
    let! beta_prev := get_index p Kbeta (-1) in                                     (* 735 *)
    let! ess_prev := ess_at m p beta_prev in                                        (* 748 *)
    let! ess_max := ess_at m p (nofZ 1) in                                          (* 749 *)
    if ess_prev <=? n_effective then                                                (* 752 *)
      let! logz := get_index p Klogz (-1) in                                        (* 755 *)
      let! _ := of_option ValueError (ntrunc ess_prev) in
      Ok (beta_prev, logz, ess_prev)
    else if n_effective <=? ess_max then                                            (* 758 *)
      let! (_, logz) := compute_logw_and_logz p (nofZ 1) true in                    (* 761 *)
      let! _ := of_option ValueError (ntrunc ess_max) in
      Ok (nofZ 1, logz, ess_max)
    else
      let! (beta, ess) := bisect fuel m p n_effective beta_prev (nofZ 1) in
      let! (_, logz) := compute_logw_and_logz p beta true in                        (* 771 *)
      Ok (beta, logz, ess).

  (** sampler.py:783-790: new n_effective, and the weights as left by
      unique_sample_size *)
  Definition adjust (cfg : config) (n_effective : Z) (weights : vec T) : res (Z * vec T) :=
    if c_dynamic cfg then
      let n_active := nofZ (Z.of_nat (c_n_active cfg)) in
      let (n_unique, weights) := unique_sample_size weights (Some (c_n_active cfg)) in            (* 785 *)
      if n_unique <? n_active * (nfrac 95 100 * c_dynamic_ratio cfg) then                         (* 787 *)
        let! n := of_option ValueError (ntrunc (n_active / n_unique * nofZ n_effective)) in Ok (n, weights)
      else if n_active * nmin2 (nfrac 105 100 * c_dynamic_ratio cfg) (nofZ 1) <? n_unique then    (* 789 *)
        let! n := of_option ValueError (ntrunc (n_unique / n_active * nofZ n_effective)) in Ok (n, weights)
      else Ok (n_effective, weights)
    else Ok (n_effective, weights).

  Definition with_current (s : sampler) (c : current) : sampler :=
    {| s_cfg := s_cfg s; s_pool := s_pool s; s_n_effective := s_n_effective s; s_have_blobs := s_have_blobs s;
       s_n_total := s_n_total s; s_n_evidence := s_n_evidence s; s_particles := s_particles s; s_t := s_t s;
       s_u_geometry := s_u_geometry s; s_theta_geometry := s_theta_geometry s; s_flow := s_flow s;
       s_untrained := s_untrained s; s_scaler := s_scaler s; s_prior_samples := s_prior_samples s;
       s_logz := s_logz s; s_logz_err := s_logz_err s; s_current := Some c; s_warmup := s_warmup s;
       s_calls := s_calls s; s_scale := s_scale s; s_evals := s_evals s; s_evidence_evals := s_evidence_evals s |}.

  (** sampler.py:717-805 _reweight *)
  Definition reweight (fuel : nat) (s : sampler) : res sampler :=
    let p := p_past (s_particles s) in
    let cfg := s_cfg s in
    let! c := of_option AttributeError (s_current s) in
    let! (beta, logz, ess) := next_beta fuel (c_metric cfg) p (nofZ (s_n_effective s)) in
    let! weights := relative_weights p beta in                                      (* 779-780 *)
    let weights := normalise weights in                                             (* 781 *)
    let! (n_effective, weights) := adjust cfg (s_n_effective s) weights in          (* 783-790 *)
    let! (idx, weights, _) := trim_weights (seq 0 (length weights)) weights (nfrac 99 100) 1000 in  (* 792 *)
    let! u := get_flat p Ku in let! u := gather u idx in                            (* 793-797 *)
    let! x := get_flat p Kx in let! x := gather x idx in
    let! logdetj := get_flat p Klogdetj in let! logdetj := gather logdetj idx in
    let! logl := get_flat p Klogl in let! logl := gather logl idx in
    let! logp := get_flat p Klogp in let! logp := gather logp idx in
    let! blobs := (if s_have_blobs s then
                     let! b := get_flat p Kblobs in let! b := gather b idx in Ok (Some b)
                   else Ok (cu_blobs c)) in                                         (* 798-799 *)
    let c' := {| cu_u := u; cu_x := x; cu_logl := logl; cu_logp := logp; cu_logdetj := logdetj;
                 cu_logw := cu_logw c; cu_blobs := blobs; cu_iter := cu_iter c; cu_calls := cu_calls c;
                 cu_steps := cu_steps c; cu_efficiency := cu_efficiency c; cu_ess := ess; cu_accept := cu_accept c;
                 cu_beta := beta; cu_logz := logz; cu_weights := Some weights |} in
    Ok {| s_cfg := cfg; s_pool := s_pool s; s_n_effective := n_effective; s_have_blobs := s_have_blobs s;
          s_n_total := s_n_total s; s_n_evidence := s_n_evidence s; s_particles := s_particles s;
          s_t := (s_t s + 1)%Z;                                                     (* 732 *)
          s_u_geometry := s_u_geometry s; s_theta_geometry := s_theta_geometry s; s_flow := s_flow s;
          s_untrained := s_untrained s; s_scaler := s_scaler s; s_prior_samples := s_prior_samples s;
          s_logz := s_logz s; s_logz_err := s_logz_err s; s_current := Some c'; s_warmup := s_warmup s;
          s_calls := s_calls s; s_scale := s_scale s; s_evals := s_evals s; s_evidence_evals := s_evidence_evals s |}.

  (** sampler.py:653: whether the flow is trained at this iteration *)
  Definition trains (s : sampler) (beta : T) : res bool :=
    if c_preconditioned (s_cfg s) then
      if (c_train_frequency (s_cfg s) =? 0)%Z then Err ZeroDivisionError
      else Ok ((s_t s mod c_train_frequency (s_cfg s) =? 0)%Z || (beta =? nofZ 1) || s_untrained s)
    else Ok false.

  (** the flow as seen through flow_numpy_wrapper (tools.py:336-341) *)
  Definition latent (p : P) (u : mat T) : mat T := map (fun v => fst (wd_flow_forward W p v)) u.

  (** sampler.py:636-678 _train *)
  Definition train (R : rand) (s : sampler) : res sampler :=
    let! c := of_option AttributeError (s_current s) in
    let u := cu_u c in
    let w := cu_weights c in
    let r := rn_iter R (s_t s) in
    let d := c_n_dim (s_cfg s) in
    let! now := trains s (cu_beta c) in                                             (* 653 *)
    let! (flow, untrained, ug, tg) :=
      (if now then
         let cfg := set_train (c_train (s_cfg s)) (TC_batch_size (Z.min (Z.of_nat (length u) / 2) (c_batch_size (c_train (s_cfg s))))) in  (* 659 *)
         let! (flow, _, _) := flow_fit (wd_train W) cfg (ir_fit r) (s_flow s) u w in  (* 655-669 *)
         let theta := latent flow u in                                              (* 671 *)
         let! g := geometry_fit (wd_fit W) (ir_geometry r) d theta w in             (* 672 *)
         Ok (flow, false, s_u_geometry s, g)
       else
         let! g := geometry_fit (wd_fit W) (ir_geometry r) d u w in                 (* 674 *)
         Ok (s_flow s, s_untrained s, g, s_theta_geometry s)) in
    Ok {| s_cfg := s_cfg s; s_pool := s_pool s; s_n_effective := s_n_effective s; s_have_blobs := s_have_blobs s;
          s_n_total := s_n_total s; s_n_evidence := s_n_evidence s; s_particles := s_particles s; s_t := s_t s;
          s_u_geometry := ug; s_theta_geometry := tg; s_flow := flow; s_untrained := untrained;
          s_scaler := s_scaler s; s_prior_samples := s_prior_samples s;
          s_logz := s_logz s; s_logz_err := s_logz_err s; s_current := Some c; s_warmup := s_warmup s;
          s_calls := s_calls s; s_scale := s_scale s; s_evals := s_evals s; s_evidence_evals := s_evidence_evals s |}.

  (** sampler.py:702-705: the indices of the resampled particles *)
  Definition resample_indices (R : rand) (s : sampler) (weights : vec T) : res (list nat) :=
    let r := rn_iter R (s_t s) in
    let n := c_n_active (s_cfg s) in
    match c_resample (s_cfg s) with
    | MULT => random_choice (map (ir_uniform r) (seq 0 n)) weights                  (* 703 *)
    | SYST => systematic_resample (ir_offset r) n weights                           (* 705 *)
    end.

  (** sampler.py:680-715 _resample *)
  Definition resample (R : rand) (s : sampler) : res sampler :=
    let! c := of_option AttributeError (s_current s) in
    let! weights := of_option TypeError (cu_weights c) in
    let! idx := resample_indices R s weights in
    let! u := gather (cu_u c) idx in
    let! x := gather (cu_x c) idx in
    let! logdetj := gather (cu_logdetj c) idx in
    let! logl := gather (cu_logl c) idx in
    let! logp := gather (cu_logp c) idx in
    let! blobs := (if s_have_blobs s then
                     let! b := of_option TypeError (cu_blobs c) in let! b := gather b idx in Ok (Some b)
                   else Ok (cu_blobs c)) in
    Ok (with_current s
         {| cu_u := u; cu_x := x; cu_logl := logl; cu_logp := logp; cu_logdetj := logdetj;
            cu_logw := cu_logw c; cu_blobs := blobs; cu_iter := cu_iter c; cu_calls := cu_calls c;
            cu_steps := cu_steps c; cu_efficiency := cu_efficiency c; cu_ess := cu_ess c; cu_accept := cu_accept c;
            cu_beta := cu_beta c; cu_logz := cu_logz c; cu_weights := cu_weights c |}).

  (** sampler.py:578-592: what a kernel is given *)
  Definition kernel_env_of (s : sampler) : kernel_env T B :=
    {| k_like := sampler_like s; k_prior := wd_logpdf W; k_scaler := s_scaler s;
       k_flow_forward := wd_flow_forward W (s_flow s); k_flow_inverse := wd_flow_inverse W (s_flow s);
       k_linalg := wd_linalg W; k_none_blob := wd_none_blob W; k_junk := wd_junk W; k_bc_fuel := wd_bc_fuel W;
       k_n_dim := c_n_dim (s_cfg s); k_n_max := c_n_max_steps (s_cfg s); k_n_steps := c_n_steps (s_cfg s) |}.

  (** sampler.py:550-633 _mutate.  Simplification: have_blobs is not updated by
      the evaluations of the kernel (a likelihood that returns blobs at some
      points only is outside the model). *)
  Definition mutate (R : rand) (s : sampler) : res sampler :=
    let! c := of_option AttributeError (s_current s) in
    let cfg := s_cfg s in
    let! blobs := (if s_have_blobs s then let! b := of_option AttributeError (cu_blobs c) in Ok (Some b) else Ok None) in  (* 564-567 *)
    let ks := {| s_u := cu_u c; s_x := cu_x c; s_logdetj := cu_logdetj c; s_logl := cu_logl c; s_logp := cu_logp c;
                 s_blobs := blobs; s_beta := cu_beta c |} in                        (* 568-576 *)
    let env := kernel_env_of s in
    let rnd := ir_step (rn_iter R (s_t s)) in
    let! o := match c_preconditioned cfg, c_sample cfg with                         (* 594-617 *)
              | true, TPCN => preconditioned_pcn env (s_theta_geometry s) (s_scale s) ks rnd
              | true, RWMH => preconditioned_rwm env (s_theta_geometry s) (s_scale s) ks rnd
              | false, TPCN => pcn env (s_u_geometry s) (s_scale s) ks rnd
              | false, RWMH => rwm env (s_u_geometry s) (s_scale s) ks rnd
              end in
    let w := o_w o in
    let calls := (cu_calls c + o_calls o)%Z in
    let c' := {| cu_u := w_u w; cu_x := w_x w; cu_logl := w_logl w; cu_logp := w_logp w; cu_logdetj := w_logdetj w;
                 cu_logw := cu_logw c; cu_blobs := if s_have_blobs s then w_blobs w else cu_blobs c;
                 cu_iter := cu_iter c; cu_calls := calls; cu_steps := o_steps o;
                 cu_efficiency := o_sigma o / initial_scale (c_n_dim cfg); cu_ess := cu_ess c;
                 cu_accept := o_accept o; cu_beta := cu_beta c; cu_logz := cu_logz c; cu_weights := cu_weights c |} in  (* 619-629 *)
    Ok {| s_cfg := cfg; s_pool := s_pool s; s_n_effective := s_n_effective s; s_have_blobs := s_have_blobs s;
          s_n_total := s_n_total s; s_n_evidence := s_n_evidence s; s_particles := s_particles s; s_t := s_t s;
          s_u_geometry := s_u_geometry s; s_theta_geometry := s_theta_geometry s; s_flow := s_flow s;
          s_untrained := s_untrained s; s_scaler := s_scaler s; s_prior_samples := s_prior_samples s;
          s_logz := s_logz s; s_logz_err := s_logz_err s; s_current := Some c'; s_warmup := s_warmup s;
          s_calls := calls;                                                         (* 630 *)
          s_scale := o_sigma o;                                                     (* 631 *)
          s_evals := s_evals s ++ o_evals o; s_evidence_evals := [] |}.

  Definition with_particles (s : sampler) (p : particles T B) : sampler :=
    {| s_cfg := s_cfg s; s_pool := s_pool s; s_n_effective := s_n_effective s; s_have_blobs := s_have_blobs s;
       s_n_total := s_n_total s; s_n_evidence := s_n_evidence s; s_particles := p; s_t := s_t s;
       s_u_geometry := s_u_geometry s; s_theta_geometry := s_theta_geometry s; s_flow := s_flow s;
       s_untrained := s_untrained s; s_scaler := s_scaler s; s_prior_samples := s_prior_samples s;
       s_logz := s_logz s; s_logz_err := s_logz_err s; s_current := s_current s; s_warmup := s_warmup s;
       s_calls := s_calls s; s_scale := s_scale s; s_evals := s_evals s; s_evidence_evals := s_evidence_evals s |}.

  (** sampler.py:498-510: one pass of the loop of run *)
  Definition iteration (fuel : nat) (R : rand) (s : sampler) : res sampler :=
    let! s := reweight fuel s in                                                    (* 498 *)
    let! s := train R s in                                                          (* 501 *)
    let! s := resample R s in                                                       (* 504 *)
    let! s := mutate R s in                                                         (* 507 *)
    let! c := of_option AttributeError (s_current s) in
    Ok (with_particles s (particles_update (s_particles s) (items c))).             (* 510 *)

  (** ** Evidence *)
  Definition with_evidence (s : sampler) (logz logz_err : option T) (calls : Z) (evals : mat T) (have_blobs : bool) : sampler :=
    {| s_cfg := s_cfg s; s_pool := s_pool s; s_n_effective := s_n_effective s; s_have_blobs := have_blobs;
       s_n_total := s_n_total s; s_n_evidence := s_n_evidence s; s_particles := s_particles s; s_t := s_t s;
       s_u_geometry := s_u_geometry s; s_theta_geometry := s_theta_geometry s; s_flow := s_flow s;
       s_untrained := s_untrained s; s_scaler := s_scaler s; s_prior_samples := s_prior_samples s;
       s_logz := logz; s_logz_err := logz_err; s_current := s_current s; s_warmup := s_warmup s;
       s_calls := calls; s_scale := s_scale s; s_evals := s_evals s; s_evidence_evals := s_evidence_evals s ++ evals |}.

  (** np.std of a list *)
  Definition nstd (l : vec T) : T := nsqrt (nmean (map (fun a => nsqr (a - nmean l)) l)).
  (** np.logaddexp.reduce(logw) - np.log(len(logw)) *)
  Definition log_mean (logw : vec T) : T := nlse logw - nlog (nofZ (Z.of_nat (length logw))).

  (** sampler.py:869-920 _compute_evidence *)
  Definition compute_evidence (R : rand) (n : nat) (s : sampler) : res sampler :=
    let (theta_q, logq) := rn_flow R (s_flow s) n in                                (* 886-889 *)
    let! (x_q, logdetj) := inverse (s_scaler s) (wd_junk W) theta_q in              (* 892 *)
    let! logp := wd_logpdf W x_q in                                                 (* 895 *)
    let mask := map nisfinite logp in
    let x_q := compress mask x_q in                                                 (* 898-901 *)
    let logdetj := compress mask logdetj in
    let logq := compress mask logq in
    let logp := compress mask logp in
    let! (logl, blobs) := sampler_like s x_q in                                     (* 904 *)
    let logw := map2 nsub (map2 nadd (map2 nadd logl logp) logdetj) logq in         (* 907 *)
    let logz := log_mean logw in                                                    (* 910 *)
    let k := length logw in
    let boot := map (fun j => log_mean (map (fun i => nth (Nat.modulo (rn_boot R j i) k) logw (nofZ 0)) (seq 0 k)))
                    (seq 0 (Nat.max n 1000)) in
    let dlogz := nstd boot in                                                       (* 913 *)
    Ok (with_evidence s (Some logz) (Some dlogz) (s_calls s + Z.of_nat k)%Z x_q (after_like s blobs)).  (* 915-920 *)

  (** sampler.py:513-517 *)
  Definition final_evidence (R : rand) (s : sampler) : res sampler :=
    let! n := of_option TypeError (s_n_evidence s) in
    if (0 <? n)%Z && c_preconditioned (s_cfg s) then compute_evidence R (Z.to_nat n) s
    else
      let! (_, logz) := compute_logw_and_logz (p_past (s_particles s)) (nofZ 1) true in
      Ok (with_evidence s (Some logz) None (s_calls s) [] (s_have_blobs s)).

  (** sampler.py:863-867 evidence *)
  Definition evidence (s : sampler) : option T * option T := (s_logz s, s_logz_err s).

  (** ** run *)
  (** What run writes: the sampler as saved in a file named after the
      iteration counter, or the final one (sampler.py:446, 495, 521). *)
  Inductive file := Checkpoint (t : Z) | Final.
  Record event := { ev_file : file; ev_state : sampler }.
  (** a computation that writes files *)
  Definition traced := (list event * res sampler)%type.
  Definition tbind (m : traced) (f : sampler -> traced) : traced :=
    match m with
    | (evs, Ok s) => let (evs', r) := f s in (evs ++ evs', r)
    | (evs, Err e) => (evs, Err e)
    end.
  Definition lift (m : res sampler) : traced := ([], m).

  (** sampler.py:444-446, 493-495 *)
  Definition checkpoint (save_every : option Z) (t0 : Z) (s : sampler) : traced :=
    match save_every with
    | None => ([], Ok s)
    | Some k =>
      if (k =? 0)%Z then ([], Err ZeroDivisionError)
      else if ((s_t s - t0) mod k =? 0)%Z && negb (s_t s =? t0)%Z
      then ([{| ev_file := Checkpoint (s_t s); ev_state := s |}], Ok s)
      else ([], Ok s)
    end.

  (** sampler.py:443-488: the batches i, i+1, ..., i+k-1 *)
  Fixpoint warmup_loop (save_every : option Z) (t0 : Z) (R : rand) (i k : nat) (s : sampler) : traced :=
    match k with
    | O => ([], Ok s)
    | S k' =>
      tbind (checkpoint save_every t0 s) (fun s =>
      tbind (lift (warmup_batch R i s)) (fun s =>
      warmup_loop save_every t0 R (S i) k' s))
    end.

  Definition end_warmup (s : sampler) : sampler :=
    {| s_cfg := s_cfg s; s_pool := s_pool s; s_n_effective := s_n_effective s; s_have_blobs := s_have_blobs s;
       s_n_total := s_n_total s; s_n_evidence := s_n_evidence s; s_particles := s_particles s; s_t := s_t s;
       s_u_geometry := s_u_geometry s; s_theta_geometry := s_theta_geometry s; s_flow := s_flow s;
       s_untrained := s_untrained s; s_scaler := s_scaler s; s_prior_samples := s_prior_samples s;
       s_logz := s_logz s; s_logz_err := s_logz_err s; s_current := s_current s; s_warmup := false;
       s_calls := s_calls s; s_scale := s_scale s; s_evals := s_evals s; s_evidence_evals := s_evidence_evals s |}.

  (** sampler.py:443: range(n_prior // n_active) *)
  Definition n_batches (cfg : config) : nat := Nat.div (c_n_prior cfg) (c_n_active cfg).
  Definition warmup (save_every : option Z) (t0 : Z) (R : rand) (s : sampler) : traced :=
    if s_warmup s then
      if Nat.eqb (c_n_active (s_cfg s)) 0 then ([], Err ZeroDivisionError)
      else tbind (warmup_loop save_every t0 R 0 (n_batches (s_cfg s)) s) (fun s => ([], Ok (end_warmup s)))  (* 489 *)
    else ([], Ok s).

  (** sampler.py:492-510: the loop; [bfuel] bounds each bisection *)
  Fixpoint smc_loop (fuel bfuel : nat) (save_every : option Z) (t0 : Z) (R : rand) (s : sampler) : traced :=
    match not_termination s with
    | Err e => ([], Err e)
    | Ok false => ([], Ok s)
    | Ok true =>
      match fuel with
      | O => ([], Err Diverge)
      | S fuel' =>
        tbind (checkpoint save_every t0 s) (fun s =>
        tbind (lift (iteration bfuel R s)) (fun s =>
        smc_loop fuel' bfuel save_every t0 R s))
      end
    end.

  (** sampler.py:434-435 *)
  Definition set_targets (n_total n_evidence : Z) (s : sampler) : sampler :=
    {| s_cfg := s_cfg s; s_pool := s_pool s; s_n_effective := s_n_effective s; s_have_blobs := s_have_blobs s;
       s_n_total := Some n_total; s_n_evidence := Some n_evidence; s_particles := s_particles s; s_t := s_t s;
       s_u_geometry := s_u_geometry s; s_theta_geometry := s_theta_geometry s; s_flow := s_flow s;
       s_untrained := s_untrained s; s_scaler := s_scaler s; s_prior_samples := s_prior_samples s;
       s_logz := s_logz s; s_logz_err := s_logz_err s; s_current := s_current s; s_warmup := s_warmup s;
       s_calls := s_calls s; s_scale := s_scale s; s_evals := s_evals s; s_evidence_evals := s_evidence_evals s |}.

  (** sampler.py:438-440: prior draws and the scaler *)
  Definition draw_prior (R : rand) (s : sampler) : res sampler :=
    match s_prior_samples s with
    | Some _ => Ok s
    | None =>
      let! ps := rn_prior R (c_n_prior (s_cfg s)) in
      let! sc := fit (wd_linalg W) (s_scaler s) (wd_junk W) ps in
      Ok {| s_cfg := s_cfg s; s_pool := s_pool s; s_n_effective := s_n_effective s; s_have_blobs := s_have_blobs s;
            s_n_total := s_n_total s; s_n_evidence := s_n_evidence s; s_particles := s_particles s; s_t := s_t s;
            s_u_geometry := s_u_geometry s; s_theta_geometry := s_theta_geometry s; s_flow := s_flow s;
            s_untrained := s_untrained s; s_scaler := sc; s_prior_samples := Some ps;
            s_logz := s_logz s; s_logz_err := s_logz_err s; s_current := s_current s; s_warmup := s_warmup s;
            s_calls := s_calls s; s_scale := s_scale s; s_evals := s_evals s; s_evidence_evals := s_evidence_evals s |}
    end.

  (** the arguments of run other than the path to resume from *)
  Record run_args := { ra_n_total : Z; ra_n_evidence : Z; ra_save_every : option Z; ra_fuel : nat; ra_bfuel : nat (** bounds on the loops *) }.

  (** sampler.py:434-521: run after the sampler has been loaded or not *)
  Definition run_from (a : run_args) (R : rand) (s : sampler) : traced :=
    let t0 := s_t s in                                                              (* 407, 419 *)
    tbind (lift (draw_prior R (set_targets (ra_n_total a) (ra_n_evidence a) s))) (fun s =>
    tbind (warmup (ra_save_every a) t0 R s) (fun s =>
    tbind (smc_loop (ra_fuel a) (ra_bfuel a) (ra_save_every a) t0 R s) (fun s =>
    tbind (lift (final_evidence R s)) (fun s =>
    match ra_save_every a with                                                      (* 520-521 *)
    | None => ([], Ok s)
    | Some _ => ([{| ev_file := Final; ev_state := s |}], Ok s)
    end)))).

  (** sampler.py:375-524 run(resume_state_path=None) *)
  Definition run (a : run_args) (R : rand) (s : sampler) : traced := run_from a R s.

  (** The sampler [self] after load_state of a file to which [saved] was saved
      (sampler.py:1023-1061): every attribute comes from the file, except the
      pool, which is in the file only if it was None (line 1039).  Persist.v
      derives this from the dictionaries that are written and read. *)
  Definition with_pool (s : sampler) (p : option mapfn) : sampler :=
    {| s_cfg := s_cfg s; s_pool := p; s_n_effective := s_n_effective s; s_have_blobs := s_have_blobs s;
       s_n_total := s_n_total s; s_n_evidence := s_n_evidence s; s_particles := s_particles s; s_t := s_t s;
       s_u_geometry := s_u_geometry s; s_theta_geometry := s_theta_geometry s; s_flow := s_flow s;
       s_untrained := s_untrained s; s_scaler := s_scaler s; s_prior_samples := s_prior_samples s;
       s_logz := s_logz s; s_logz_err := s_logz_err s; s_current := s_current s; s_warmup := s_warmup s;
       s_calls := s_calls s; s_scale := s_scale s; s_evals := s_evals s; s_evidence_evals := s_evidence_evals s |}.
  Definition load (saved self : sampler) : sampler :=
    with_pool saved (match s_pool saved with None => None | Some _ => s_pool self end).

  (** sampler.py:405-417 run(resume_state_path=...), where the file holds
      [saved]: the last recorded values are shown before the run goes on *)
  Definition run_resumed (a : run_args) (R : rand) (saved self : sampler) : traced :=
    let s := load saved self in                                                     (* 406 *)
    let p := p_past (s_particles s) in
    let shown := (let! _ := get_index p Kbeta (-1) in                               (* 410 *)
                  let! _ := get_index p Kcalls (-1) in
                  let! _ := get_index p Kess (-1) in
                  let! _ := get_index p Klogz (-1) in
                  let! _ := get_index p Klogp (-1) in
                  let! _ := get_index p Klogl (-1) in
                  let! _ := get_index p Kaccept (-1) in
                  let! _ := get_index p Ksteps (-1) in
                  let! _ := get_index p Kefficiency (-1) in Ok s) in
    tbind (lift shown) (run_from a R).

  (** sampler.py:1011-1021 results *)
  Definition results_of (s : sampler) : res (results T B) * sampler :=
    let (r, p) := compute_results (s_particles s) in (r, with_particles s p).

  (** ** Posterior *)
  Record posterior_args := { pa_resample : bool; pa_return_blobs : bool; pa_trim : bool; pa_return_logw : bool; pa_ess : T; pa_bins : nat }.
  (** samples, weights or log-weights (absent after resampling), logl, logp, blobs *)
  Record posterior_out := { po_x : mat T; po_w : option (vec T); po_logl : vec T; po_logp : vec T; po_blobs : option (list B) }.

  (** sampler.py:941-1009 posterior; [us] are the uniform numbers of
      np.random.choice, [offset] that of systematic_resample. *)
  Definition posterior (a : posterior_args) (us : nat -> T) (offset : T) (s : sampler) : res posterior_out :=
    let p := p_past (s_particles s) in
    let! _ := if pa_return_blobs a && negb (s_have_blobs s) then Err ValueError else Ok tt in  (* 969-970 *)
    let! samples := get_flat p Kx in                                                (* 972-974 *)
    let! logl := get_flat p Klogl in
    let! logp := get_flat p Klogp in
    let! blobs := (if pa_return_blobs a then let! b := get_flat p Kblobs in Ok (Some b) else Ok None) in
    let! (logw, _) := compute_logw_and_logz p (nofZ 1) true in                      (* 977 *)
    let weights := map nexp logw in                                                 (* 978 *)
    let! (samples, logl, logp, logw, weights, blobs) :=
      (if pa_trim a then
         let! (idx, weights, _) := trim_weights (seq 0 (length samples)) weights (pa_ess a) (pa_bins a) in  (* 981 *)
         let! samples := gather samples idx in
         let! logl := gather logl idx in
         let! logp := gather logp idx in
         let! logw := gather logw idx in
         let! blobs := match blobs with None => Ok None | Some b => let! b := gather b idx in Ok (Some b) end in
         Ok (samples, logl, logp, logw, weights, blobs)
       else Ok (samples, logl, logp, logw, weights, blobs)) in
    if pa_resample a then
      let! idx := match c_resample (s_cfg s) with
                  | MULT => random_choice (map us (seq 0 (length samples))) weights  (* 991 *)
                  | SYST => systematic_resample offset (length weights) weights      (* 993 *)
                  end in
      let! samples := gather samples idx in
      let! logl := gather logl idx in
      let! logp := gather logp idx in
      let! blobs := match blobs with None => Ok None | Some b => let! b := gather b idx in Ok (Some b) end in
      Ok {| po_x := samples; po_w := None; po_logl := logl; po_logp := logp; po_blobs := blobs |}
    else
      Ok {| po_x := samples; po_w := Some (if pa_return_logw a then logw else weights); po_logl := logl; po_logp := logp; po_blobs := blobs |}.
End Sampler.
Arguments mapfn : clear implicits.
Arguments world : clear implicits.
Arguments iter_rand : clear implicits.
Arguments rand : clear implicits.
Arguments pool_arg : clear implicits.
Arguments train_item : clear implicits.
Arguments options : clear implicits.
Arguments config : clear implicits.
Arguments current : clear implicits.
Arguments sampler : clear implicits.
Arguments event : clear implicits.
Arguments traced : clear implicits.
Arguments posterior_args : clear implicits.
Arguments posterior_out : clear implicits.

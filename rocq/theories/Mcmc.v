(** * Model of pocomc/mcmc.py: the four MCMC kernels

    Line numbers are given in the order preconditioned_pcn, preconditioned_rwm,
    pcn, rwm where code is shared.  The progress bar is display only and not
    modelled here (see Bar.v). *)
From Coq Require Import ZArith List Bool.
From Verif Require Import Num PyBase Scaler Geometry.
Import ListNotations.
Open Scope num_scope.

Section Mcmc.
  Context {T B : Type} {NT : NumT T}.

  (** The random numbers of one step (walker k: the gamma draw for given shape
      and scale, a standard normal vector, a uniform number), and the
      unspecified content of the np.empty arrays. *)
  Record step_rand := {
    r_gamma : nat -> T -> T -> T; r_norm : nat -> vec T; r_unif : nat -> T;
    r_empty_logp : nat -> T; r_empty_logl : nat -> T; r_empty_blob : nat -> B
  }.

  (** function_dict and option_dict (sampler.py:579-592), and the oracles. *)
  Record kernel_env := {
    k_like : mat T -> res (vec T * option (list B));
    k_prior : mat T -> res (vec T);
    k_scaler : reparam T;
    k_flow_forward : vec T -> vec T * T;    (** flow.forward of one row: latent point, log|dtheta/du| *)
    k_flow_inverse : vec T -> vec T * T;    (** flow.inverse of one row: point, log|du/dtheta| *)
    k_linalg : linalg T;
    k_none_blob : option B;                 (** None converted to the blob dtype, if it can be *)
    k_junk : vec T;                         (** content of np.empty in the scaler *)
    k_bc_fuel : nat;                        (** bound on the boundary-condition loops *)
    k_n_dim : nat; k_n_max : Z; k_n_steps : Z
  }.
  Variable env : kernel_env.

  (** tools.py:336-348 flow_numpy_wrapper (the conversions to and from torch
      float32 are part of the flow oracles) *)
  Definition flow_forward (u : mat T) : mat T * vec T :=
    (map (fun v => fst (k_flow_forward env v)) u, map (fun v => - snd (k_flow_forward env v)) u).
  Definition flow_inverse (theta : mat T) : mat T * vec T :=
    (map (fun v => fst (k_flow_inverse env v)) theta, map (fun v => snd (k_flow_inverse env v)) theta).

  (** The walkers.  theta and logdetj_flow exist in the preconditioned kernels
      only (empty otherwise). *)
  Record walkers := {
    w_theta : mat T; w_ldf : vec T;
    w_u : mat T; w_x : mat T; w_logdetj : vec T; w_logl : vec T; w_logp : vec T; w_blobs : option (list B)
  }.

  (** The variables of the loop. *)
  Record mstate := {
    m_w : walkers;
    m_sigma : T; m_mu : vec T;
    m_best : T; m_cnt : Z;                (** logp2_val, cnt *)
    m_calls : Z;                          (** n_calls *)
    m_alpha : vec T;                      (** alpha of the last step *)
    m_evals : mat T                       (** ghost: the points at which the likelihood was evaluated *)
  }.

  (** mcmc.py:90-97, 258-265, 419-426, 573-580: to x space and boundary
      conditions; the new u', x' and log-determinant *)
  Definition to_x (u' : mat T) : res (mat T * mat T * vec T) :=
    let sc := k_scaler env in
    let! (x', ldj') := inverse sc (k_junk env) u' in
    match periodic sc, reflective sc with
    | None, None => Ok (u', x', ldj')
    | _, _ =>
      let! x' := apply_boundary_conditions_x (k_bc_fuel env) sc x' in
      let! u' := forward sc (k_junk env) x' false in
      let! (x', ldj') := inverse sc (k_junk env) u' in
      Ok (u', x', ldj')
    end.

  (** mcmc.py:99-121, 267-289, 428-450, 582-604: finite mask, prior and
      likelihood.  Result: finite_mask, logp', logl', blobs', evaluated points. *)
  Record evaluation := { e_mask : list bool; e_logp : vec T; e_logl : vec T; e_blobs : option (list B); e_points : mat T }.
  Definition evaluate (r : step_rand) (n : nat) (blobs : option (list B)) (x' : mat T) (ldj' : vec T) : res evaluation :=
    let mask := and_mask (map nisfinite ldj') (map (forallb nisfinite) x') in
    let! lp := k_prior env (compress mask x') in
    let! logp' := scatter mask lp (map (r_empty_logp r) (seq 0 n)) in
    let logp' := fill_not mask (- ninf) logp' in
    let mask := and_mask mask (map nisfinite logp') in
    let points := compress mask x' in
    let! _ := match blobs with Some [] => Err IndexError | _ => Ok tt end in      (* blobs[0] *)
    let! (ll, bl) := k_like env points in
    let! logl' := scatter mask ll (map (r_empty_logl r) (seq 0 n)) in
    let! blobs' :=
      match blobs with
      | None => Ok None
      | Some _ =>
        let base := map (r_empty_blob r) (seq 0 n) in
        match bl with
        | Some bl => let! b := scatter mask bl base in Ok (Some b)
        | None => let! nb := of_option TypeError (k_none_blob env) in              (* blobs_prime[mask] = None *)
                  Ok (Some (where_ mask (map (fun _ => nb) mask) base))
        end
      end in
    let logl' := fill_not mask (- ninf) logl' in
    Ok {| e_mask := mask; e_logp := logp'; e_logl := logl'; e_blobs := blobs'; e_points := points |}.

  (** mcmc.py:130-138, 292-300, 459-467, 607-615: np.minimum(1,
      exp(.)), NaN replaced by 0, compared with the uniform numbers *)
  Definition accept_prob (log_ratio : T) : T :=
    let a := nmin2 (nofZ 1) (nexp log_ratio) in
    if nisnan a then nofZ 0 else a.
  Definition accept_mask (r : step_rand) (alpha : vec T) : list bool :=
    map2 (fun k a => r_unif r k <? a) (seq 0 (length alpha)) alpha.

  Definition where_blobs (mask : list bool) (new old : option (list B)) : option (list B) :=
    match new, old with Some n, Some o => Some (where_ mask n o) | _, o => o end.

  (** the sum of two arrays, three arrays *)
  Definition sum2 (a b : vec T) : vec T := map2 nadd a b.
  Definition sum3 (a b c : vec T) : vec T := map2 nadd (map2 nadd a b) c.

  (** mcmc.py:169-177, 326-334, 492-500, 639-647: plateau counter; [limit] is
      the right-hand side of the comparison.  Result: logp2_val, cnt, break *)
  Definition plateau (best : T) (cnt : Z) (new limit : T) : T * Z * bool :=
    if best <? new then (new, 0%Z, false)
    else (best, (cnt + 1)%Z, limit <=? nofZ (cnt + 1)).

  Definition n_dim_T : T := nofZ (Z.of_nat (k_n_dim env)).
  (** 2.38 / n_dim**0.5 *)
  Definition scale0 : T := nfrac 238 100 / npow n_dim_T (nfrac 1 2).
  Definition half : T := nfrac 1 2.

  (** ** tpCN proposal and Student-t factors *)
  Definition qform (inv_cov : mat T) (d : vec T) : T := dot d (matvec inv_cov d).
  (** mcmc.py:80, 412: s[k].  The ValueError of np.random.gamma for a negative
      scale is not modelled: the oracle is total. *)
  Definition tpcn_s (gamma : T -> T -> T) (nu : T) (inv_cov : mat T) (diff : vec T) : T :=
    nofZ 1 / gamma ((n_dim_T + nu) / nofZ 2) (nofZ 2 / (nu + qform inv_cov diff)).
  (** mcmc.py:85, 417; sigma ** 2.0 is sigma * sigma *)
  Definition tpcn_propose (mu : vec T) (sigma s : T) (chol : mat T) (diff z : vec T) : vec T :=
    vadd (vadd mu (vscale (npow (nofZ 1 - nsqr sigma) half) diff)) (vscale (sigma * nsqrt s) (matvec chol z)).
  (** mcmc.py:128-129, 457-458: A[k], B[k] *)
  Definition student_log (nu : T) (inv_cov : mat T) (diff : vec T) : T :=
    (- (n_dim_T + nu)) / nofZ 2 * nlog (nofZ 1 + qform inv_cov diff / nu).
  (** mcmc.py:253, 571 *)
  Definition rwm_propose (x : vec T) (sigma : T) (chol : mat T) (z : vec T) : vec T :=
    vadd x (vscale sigma (matvec chol z)).

  (** ** The four log acceptance ratios, for one walker *)
  (** mcmc.py:132 *)
  Definition log_ratio_ppcn (beta logl' logl logp' logp ldj' ldj ldf' ldf A Bk : T) : T :=
    logl' * beta - logl * beta + logp' - logp + ldj' - ldj + ldf' - ldf - A + Bk.
  (** mcmc.py:294 *)
  Definition log_ratio_prwm (beta logl' logl logp' logp ldj' ldj ldf' ldf : T) : T :=
    logl' * beta - logl * beta + logp' - logp + ldj' - ldj + ldf' - ldf.
  (** mcmc.py:461 *)
  Definition log_ratio_pcn (beta logl' logl logp' logp ldj' ldj A Bk : T) : T :=
    logl' * beta - logl * beta + logp' - logp + ldj' - ldj - A + Bk.
  (** mcmc.py:609 *)
  Definition log_ratio_rwm (beta logl' logl logp' logp ldj' ldj : T) : T :=
    logl' * beta - logl * beta + logp' - logp + ldj' - ldj.

  (** row k of arrays (the arrays have n_walkers rows) *)
  Definition at_ (l : vec T) (k : nat) : T := nth k l (nofZ 0).
  Definition row (m : mat T) (k : nat) : vec T := nth k m [].

  (** ** Adaptation of the scale *)
  (** mcmc.py:152, 479 *)
  Definition adapt_tpcn (i : Z) (sigma : T) (alpha : vec T) : T :=
    nabs (nmin2 (sigma + nofZ 1 / npow (nofZ (i + 1)) (nfrac 75 100) * (nmean alpha - nfrac 234 1000))
                (nmin2 scale0 (nfrac 99 100))).
  (** mcmc.py:314 *)
  Definition adapt_prwm (i : Z) (sigma : T) (alpha : vec T) : T :=
    sigma + nofZ 1 / nofZ (i + 1) * (nmean alpha - nfrac 234 1000).
  (** mcmc.py:627 *)
  Definition adapt_rwm (i : Z) (sigma : T) (alpha : vec T) : T :=
    nabs (sigma + nofZ 1 / nofZ (i + 1) * (nmean alpha - nfrac 234 1000)).
  (** mcmc.py:156 *)
  Definition adapt_mu (i : Z) (mu : vec T) (theta : mat T) : vec T :=
    vadd mu (vscale (nofZ 1 / (nofZ i + nofZ 1)) (vsub (mean_axis0 (k_n_dim env) theta) mu)).

  (** mcmc.py:176, 499, 646: n_steps * ((2.38 / n_dim**0.5) / sigma)**2.0 *)
  Definition limit_std (sigma : T) : T := nofZ (k_n_steps env) * nsqr (scale0 / sigma).
  (** mcmc.py:333 *)
  Definition limit_prwm (sigma : T) : T := nofZ (k_n_steps env) * nsqr (nmin2 (nofZ 1) (scale0 / sigma)).

  (** ** One pass of each loop: the new variables and whether to break (the
      test i >= n_max is in [kernel_loop]) *)
  (** mcmc.py:75-177.  theta' is not recomputed when the boundary conditions
      move u' (lines 94-97), as in the code. *)
  Definition ppcn_step (nu : T) (inv_cov chol : mat T) (beta : T) (r : step_rand) (i : Z) (st : mstate) : res (mstate * bool) :=
    let w := m_w st in
    let n := length (w_x w) in
    let mu := m_mu st in
    let diff := map (fun t => vsub t mu) (w_theta w) in                           (* 77 *)
    let theta' := map (fun k =>
        let s := tpcn_s (r_gamma r k) nu inv_cov (row diff k) in                  (* 78-80 *)
        tpcn_propose mu (m_sigma st) s chol (row diff k) (r_norm r k)) (seq 0 n) in (* 83-85 *)
    let (u', ldf') := flow_inverse theta' in                                      (* 88 *)
    let! (u', x', ldj') := to_x u' in                                             (* 90-97 *)
    let! e := evaluate r n (w_blobs w) x' ldj' in                                 (* 99-118 *)
    let diff' := map (fun t => vsub t mu) theta' in                               (* 124 *)
    let alpha := map (fun k => accept_prob (log_ratio_ppcn beta
        (at_ (e_logl e) k) (at_ (w_logl w) k) (at_ (e_logp e) k) (at_ (w_logp w) k)
        (at_ ldj' k) (at_ (w_logdetj w) k) (at_ ldf' k) (at_ (w_ldf w) k)
        (student_log nu inv_cov (row diff' k)) (student_log nu inv_cov (row diff k)))) (seq 0 n) in  (* 125-134 *)
    let mask := accept_mask r alpha in                                            (* 137-138 *)
    let w' := {| w_theta := where_ mask theta' (w_theta w); w_ldf := where_ mask ldf' (w_ldf w);
                 w_u := where_ mask u' (w_u w); w_x := where_ mask x' (w_x w);
                 w_logdetj := where_ mask ldj' (w_logdetj w);
                 w_logl := where_ mask (e_logl e) (w_logl w); w_logp := where_ mask (e_logp e) (w_logp w);
                 w_blobs := where_blobs mask (e_blobs e) (w_blobs w) |} in        (* 141-149 *)
    let sigma := adapt_tpcn i (m_sigma st) alpha in                               (* 152 *)
    let mu := adapt_mu i mu (w_theta w') in                                       (* 156 *)
    let '(best, cnt, stop) := plateau (m_best st) (m_cnt st)
        (nmean (sum2 (w_logl w') (w_logp w'))) (limit_std sigma) in               (* 170-177 *)
    Ok ({| m_w := w'; m_sigma := sigma; m_mu := mu; m_best := best; m_cnt := cnt;
           m_calls := (m_calls st + Z.of_nat (count_true (e_mask e)))%Z;          (* 121 *)
           m_alpha := alpha; m_evals := m_evals st ++ e_points e |}, stop).

  (** mcmc.py:248-334 *)
  Definition prwm_step (chol : mat T) (beta : T) (r : step_rand) (i : Z) (st : mstate) : res (mstate * bool) :=
    let w := m_w st in
    let n := length (w_x w) in
    let theta' := map (fun k => rwm_propose (row (w_theta w) k) (m_sigma st) chol (r_norm r k)) (seq 0 n) in  (* 251-253 *)
    let (u', ldf') := flow_inverse theta' in                                      (* 256 *)
    let! (u', x', ldj') := to_x u' in
    let! e := evaluate r n (w_blobs w) x' ldj' in
    let alpha := map (fun k => accept_prob (log_ratio_prwm beta
        (at_ (e_logl e) k) (at_ (w_logl w) k) (at_ (e_logp e) k) (at_ (w_logp w) k)
        (at_ ldj' k) (at_ (w_logdetj w) k) (at_ ldf' k) (at_ (w_ldf w) k))) (seq 0 n) in
    let mask := accept_mask r alpha in
    let w' := {| w_theta := where_ mask theta' (w_theta w); w_ldf := where_ mask ldf' (w_ldf w);
                 w_u := where_ mask u' (w_u w); w_x := where_ mask x' (w_x w);
                 w_logdetj := where_ mask ldj' (w_logdetj w);
                 w_logl := where_ mask (e_logl e) (w_logl w); w_logp := where_ mask (e_logp e) (w_logp w);
                 w_blobs := where_blobs mask (e_blobs e) (w_blobs w) |} in
    let sigma := adapt_prwm i (m_sigma st) alpha in                               (* 314 *)
    let '(best, cnt, stop) := plateau (m_best st) (m_cnt st)
        (nmean (sum3 (w_logl w') (w_logp w') (w_logdetj w'))) (limit_prwm sigma) in  (* 327-334 *)
    Ok ({| m_w := w'; m_sigma := sigma; m_mu := m_mu st; m_best := best; m_cnt := cnt;
           m_calls := (m_calls st + Z.of_nat (count_true (e_mask e)))%Z;
           m_alpha := alpha; m_evals := m_evals st ++ e_points e |}, stop).

  (** mcmc.py:407-500; mu is not adapted *)
  Definition pcn_step (nu : T) (inv_cov chol : mat T) (beta : T) (r : step_rand) (i : Z) (st : mstate) : res (mstate * bool) :=
    let w := m_w st in
    let n := length (w_x w) in
    let mu := m_mu st in
    let diff := map (fun t => vsub t mu) (w_u w) in                               (* 409 *)
    let u' := map (fun k =>
        let s := tpcn_s (r_gamma r k) nu inv_cov (row diff k) in
        tpcn_propose mu (m_sigma st) s chol (row diff k) (r_norm r k)) (seq 0 n) in
    let! (u', x', ldj') := to_x u' in
    let! e := evaluate r n (w_blobs w) x' ldj' in
    let diff' := map (fun t => vsub t mu) u' in                                   (* 453: after the boundary conditions *)
    let alpha := map (fun k => accept_prob (log_ratio_pcn beta
        (at_ (e_logl e) k) (at_ (w_logl w) k) (at_ (e_logp e) k) (at_ (w_logp w) k)
        (at_ ldj' k) (at_ (w_logdetj w) k)
        (student_log nu inv_cov (row diff' k)) (student_log nu inv_cov (row diff k)))) (seq 0 n) in
    let mask := accept_mask r alpha in
    let w' := {| w_theta := w_theta w; w_ldf := w_ldf w;
                 w_u := where_ mask u' (w_u w); w_x := where_ mask x' (w_x w);
                 w_logdetj := where_ mask ldj' (w_logdetj w);
                 w_logl := where_ mask (e_logl e) (w_logl w); w_logp := where_ mask (e_logp e) (w_logp w);
                 w_blobs := where_blobs mask (e_blobs e) (w_blobs w) |} in
    let sigma := adapt_tpcn i (m_sigma st) alpha in                               (* 479 *)
    let '(best, cnt, stop) := plateau (m_best st) (m_cnt st)
        (nmean (sum2 (w_logl w') (w_logp w'))) (limit_std sigma) in
    Ok ({| m_w := w'; m_sigma := sigma; m_mu := mu; m_best := best; m_cnt := cnt;
           m_calls := (m_calls st + Z.of_nat (count_true (e_mask e)))%Z;
           m_alpha := alpha; m_evals := m_evals st ++ e_points e |}, stop).

  (** mcmc.py:566-647 *)
  Definition rwm_step (chol : mat T) (beta : T) (r : step_rand) (i : Z) (st : mstate) : res (mstate * bool) :=
    let w := m_w st in
    let n := length (w_x w) in
    let u' := map (fun k => rwm_propose (row (w_u w) k) (m_sigma st) chol (r_norm r k)) (seq 0 n) in
    let! (u', x', ldj') := to_x u' in
    let! e := evaluate r n (w_blobs w) x' ldj' in
    let alpha := map (fun k => accept_prob (log_ratio_rwm beta
        (at_ (e_logl e) k) (at_ (w_logl w) k) (at_ (e_logp e) k) (at_ (w_logp w) k)
        (at_ ldj' k) (at_ (w_logdetj w) k))) (seq 0 n) in
    let mask := accept_mask r alpha in
    let w' := {| w_theta := w_theta w; w_ldf := w_ldf w;
                 w_u := where_ mask u' (w_u w); w_x := where_ mask x' (w_x w);
                 w_logdetj := where_ mask ldj' (w_logdetj w);
                 w_logl := where_ mask (e_logl e) (w_logl w); w_logp := where_ mask (e_logp e) (w_logp w);
                 w_blobs := where_blobs mask (e_blobs e) (w_blobs w) |} in
    let sigma := adapt_rwm i (m_sigma st) alpha in                                (* 627 *)
    let '(best, cnt, stop) := plateau (m_best st) (m_cnt st)
        (nmean (sum3 (w_logl w') (w_logp w') (w_logdetj w'))) (limit_std sigma) in
    Ok ({| m_w := w'; m_sigma := sigma; m_mu := m_mu st; m_best := best; m_cnt := cnt;
           m_calls := (m_calls st + Z.of_nat (count_true (e_mask e)))%Z;
           m_alpha := alpha; m_evals := m_evals st ++ e_points e |}, stop).

  (** mcmc.py:73-75, 179-180 (246-248, 336-337; 405-407, 502-503; 564-566,
      649-650): while True,
      i += 1, break on the plateau test or when i >= n_max.  The fuel n_max is
      enough ([kernel_loop_fuel]). *)
  Fixpoint kernel_loop (step : step_rand -> Z -> mstate -> res (mstate * bool)) (rand : Z -> step_rand) (fuel : nat) (i : Z) (st : mstate)
    : res (mstate * Z) :=
    let i := (i + 1)%Z in
    let! (st, stop) := step (rand i) i st in
    if stop then Ok (st, i)
    else if (k_n_max env <=? i)%Z then Ok (st, i)
    else match fuel with O => Err Diverge | S f => kernel_loop step rand f i st end.

  (** The returned dictionary (mcmc.py:182-183, 340-341, 505-506, 653-654). *)
  Record mresult := { o_w : walkers; o_sigma : T (** efficiency, proposal_scale *); o_accept : T; o_steps : Z; o_calls : Z;
                      o_evals : mat T (** ghost *) }.
  Definition finish (st : mstate) (i : Z) : mresult :=
    {| o_w := m_w st; o_sigma := m_sigma st; o_accept := nmean (m_alpha st); o_steps := i; o_calls := m_calls st; o_evals := m_evals st |}.

  Definition start (w : walkers) (sigma : T) (mu : vec T) (best : T) : mstate :=
    {| m_w := w; m_sigma := sigma; m_mu := mu; m_best := best; m_cnt := 0; m_calls := 0; m_alpha := []; m_evals := [] |}.

  (** np.linalg.inv / cholesky of an attribute that may be None or 0-d: LinAlgError *)
  Definition need_mat (c : option (mat T)) : res (mat T) := of_option LinAlgError c.
  Definition need_cov (c : option (cov T)) : res (mat T) :=
    match c with Some (Cov2 m) => Ok m | _ => Err LinAlgError end.

  (** state_dict (sampler.py:568-577) *)
  Record kstate := { s_u : mat T; s_x : mat T; s_logdetj : vec T; s_logl : vec T; s_logp : vec T; s_blobs : option (list B); s_beta : T }.
  Definition walkers_of (s : kstate) (theta : mat T) (ldf : vec T) : walkers :=
    {| w_theta := theta; w_ldf := ldf; w_u := s_u s; w_x := s_x s; w_logdetj := s_logdetj s; w_logl := s_logl s;
       w_logp := s_logp s; w_blobs := s_blobs s |}.
  Definition fuel_of : nat := Z.to_nat (k_n_max env).

  (** mcmc.py:7-183 *)
  Definition preconditioned_pcn (g : geometry T) (proposal_scale : T) (s : kstate) (rand : Z -> step_rand) : res mresult :=
    let sigma := nmin2 proposal_scale (nfrac 99 100) in                           (* 54 *)
    let (theta, ldf) := flow_forward (s_u s) in                                   (* 60 *)
    let! cov := need_mat (t_cov g) in
    let! inv_cov := la_inv (k_linalg env) cov in                                  (* 67 *)
    let! chol := la_cholesky (k_linalg env) cov in                                (* 68 *)
    let best := nmean (sum2 (s_logl s) (s_logp s)) in                             (* 70 *)
    let! mu := of_option TypeError (t_mean g) in
    let! nu := of_option TypeError (t_nu g) in
    let! (st, i) := kernel_loop (ppcn_step nu inv_cov chol (s_beta s)) rand fuel_of 0 (start (walkers_of s theta ldf) sigma mu best) in
    Ok (finish st i).

  (** mcmc.py:185-341 *)
  Definition preconditioned_rwm (g : geometry T) (proposal_scale : T) (s : kstate) (rand : Z -> step_rand) : res mresult :=
    let! cov := need_cov (normal_cov g) in
    let! chol := la_cholesky (k_linalg env) cov in                                (* 238 *)
    let (theta, ldf) := flow_forward (s_u s) in                                   (* 241 *)
    let best := nmean (sum3 (s_logl s) (s_logp s) (s_logdetj s)) in               (* 243 *)
    let! (st, i) := kernel_loop (prwm_step chol (s_beta s)) rand fuel_of 0 (start (walkers_of s theta ldf) proposal_scale [] best) in
    Ok (finish st i).

  (** mcmc.py:344-506 *)
  Definition pcn (g : geometry T) (proposal_scale : T) (s : kstate) (rand : Z -> step_rand) : res mresult :=
    let sigma := nmin2 proposal_scale (nfrac 99 100) in                           (* 389 *)
    let! cov := need_mat (t_cov g) in
    let! inv_cov := la_inv (k_linalg env) cov in                                  (* 398 *)
    let! chol := la_cholesky (k_linalg env) cov in                                (* 399 *)
    let best := nmean (sum2 (s_logl s) (s_logp s)) in                             (* 401 *)
    let! mu := of_option TypeError (t_mean g) in
    let! nu := of_option TypeError (t_nu g) in
    let! (st, i) := kernel_loop (pcn_step nu inv_cov chol (s_beta s)) rand fuel_of 0 (start (walkers_of s [] []) sigma mu best) in
    Ok (finish st i).

  (** mcmc.py:508-654 *)
  Definition rwm (g : geometry T) (proposal_scale : T) (s : kstate) (rand : Z -> step_rand) : res mresult :=
    let! cov := need_cov (normal_cov g) in
    let! chol := la_cholesky (k_linalg env) cov in                                (* 559 *)
    let best := nmean (sum3 (s_logl s) (s_logp s) (s_logdetj s)) in               (* 561 *)
    let! (st, i) := kernel_loop (rwm_step chol (s_beta s)) rand fuel_of 0 (start (walkers_of s [] []) proposal_scale [] best) in
    Ok (finish st i).
End Mcmc.
Arguments step_rand : clear implicits.
Arguments kernel_env : clear implicits.
Arguments walkers : clear implicits.
Arguments mstate : clear implicits.
Arguments evaluation : clear implicits.
Arguments mresult : clear implicits.
Arguments kstate : clear implicits.

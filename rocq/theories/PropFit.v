(** * C91: what the flow and the proposal of an iteration are fitted to

    The sampler is in any state it can reach ([reachable], SpecReach.v); the
    arithmetic is exact.  [remaining s b remain q] (SpecIterate.v): the stored
    particles, weighted for inverse temperature [b], were trimmed to [remain],
    whose weights are [q], positive and normalised. *)
From Coq Require Import Reals ZArith.
From Coq Require Import List.
From Verif Require Import Num PyBase XReal Scaler Particles LogLike Geometry Mcmc SpecMcmc McmcNum Flow Sampler SpecTools SpecReach SpecRun SpecScaler SpecExact SpecIterate HistoryExact FitData IterateCase.
Import ListNotations.
Local Open Scope R_scope.

(** With preconditioning, an iteration either trains the flow further, on the
    coordinates and the weights of the remaining particles, with batches of at
    most half of them, and then fits the proposal distribution to their images
    under the trained flow, with the same weights; or it keeps the flow and the
    proposal distribution of an earlier iteration.  Without preconditioning,
    the proposal distribution is fitted to the remaining particles and their
    weights in every iteration. *)
Theorem C91_fit_data {C P Opt} (W : world X C P Opt) lp ll bl (drawn : vec X -> Prop) interrupts fuel R0 (s s' : sampler X C P) :
  regular W lp ll bl -> (forall x, drawn x -> ll x <> NaN) -> (forall x, ll x <> PInf) ->
  reachable W (good_draws x_random drawn) interrupts s -> iteration W fuel R0 s = Ok s' ->
  exists b remain q, h_beta (history_of s') = h_beta (history_of s) ++ [Fin b] /\ remaining s b remain q /\ kept s' = length remain /\
    Forall (fun w => 0 < w) q /\ total q = 1 /\ length q = length remain /\ s_t s' = (s_t s + 1)%Z /\
    let random := rn_iter R0 (s_t s') in let d := c_n_dim (s_cfg s) in
    if c_preconditioned (s_cfg s) then
      (trained_in s s' /\
       (exists losses early, flow_fit (wd_train W) (with_batch_size (c_train (s_cfg s)) (Z.min (Z.of_nat (length remain) / 2) (c_batch_size (c_train (s_cfg s)))))
          (ir_fit random) (s_flow s) (map pt_u remain) (Some (map Fin q)) = Ok (s_flow s', losses, early)) /\
       geometry_fit (wd_fit W) (ir_geometry random) d (map (fun p => fst (wd_flow_forward W (s_flow s') (pt_u p))) remain) (Some (map Fin q)) = Ok (s_theta_geometry s')) \/
      (~ trained_in s s' /\ s_flow s' = s_flow s /\ s_theta_geometry s' = s_theta_geometry s)
    else s_flow s' = s_flow s /\ geometry_fit (wd_fit W) (ir_geometry random) d (map pt_u remain) (Some (map Fin q)) = Ok (s_u_geometry s').
Proof. exact (fun RG HN HI => fit_data W lp ll bl RG drawn HN HI interrupts fuel R0 s s'). Qed.
Print Assumptions C91_fit_data.

(** a sampler with two prior draws, with or without preconditioning, and its first
    iteration, which trains the flow *)
Example C91_case pre : exists s s' fuel, c_preconditioned (s_cfg s) = pre /\ trained_in s s' /\ regular world1 flat1 like1 None /\ (forall x, strictly_inside rows1 x -> like1 x <> NaN) /\ (forall x, like1 x <> PInf) /\
  reachable world1 (good_draws x_random (strictly_inside rows1)) false s /\ iteration world1 fuel rand1 s = Ok s'.
Proof.
  destruct (case1_iteration pre) as (s & s' & fuel & HW & HI & _). exists s, s', fuel. split; [apply (w1_config _ s HW)|]. split; [left; apply (w1_training _ s HW)|]. split; [exact world1_regular|]. split; [discriminate|]. split; [discriminate|]. exact (conj (weaken world1 false rows1 s (w1_reach _ s HW)) HI).
Qed.

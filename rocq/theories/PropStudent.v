(** * C92: which distribution is fitted as a proposal

    SpecStudent.v: moments, maximum-likelihood updates of a Student-t
    distribution.  The linear solver returns solutions ([good_solve]), the root
    search returns a number in its bracket ([good_bisect]), psi is the
    derivative of lgamma ([digamma]); the arithmetic is exact. *)
From Coq Require Import Reals ZArith Lia Lra.
From Coq Require Import List.
From Verif Require Import Num PyBase XReal SpecTools Scaler Particles LogLike Geometry SpecGeometry GeometryFacts Mcmc SpecMcmc McmcNum SpecBalance SpecChain Flow Sampler SpecReach SpecRun SpecExact SpecPosterior SpecIterate
  SpecStudent StudentFacts StudentIter IterateCase.
Import ListNotations.
Local Open Scope R_scope.

(** The Student-t fit of at least two points. *)
Theorem C92_student_fit d (xs : list (list R)) o lgamma tol max_iter mu S nu k :
  (2 <= length xs)%nat -> Forall (fun x => length x = d) xs -> good_solve d o -> good_bisect o -> digamma o lgamma ->
  fit_mvstud o d (fin_mat xs) (Fin tol) max_iter = Ok (mu, S, nu, k) ->
  exists mur Sr mus Ss nus, mu = map Fin mur /\ S = fin_mat Sr /\ student_fit_by_em o lgamma d xs tol max_iter mur Sr nu k mus Ss nus.
Proof. exact (fun H1 H2 H3 H4 H5 => fit_by_em d xs H1 H2 o lgamma H3 H4 H5 tol max_iter mu S nu k). Qed.
Print Assumptions C92_student_fit.

(** Geometry.fit, with normalised weights or without weights. *)
Theorem C92_geometry_fit o lgamma offset d (xs : list (list R)) (ws : option (list R)) g :
  good_solve d o -> good_bisect o -> digamma o lgamma -> 0 <= offset < 1 -> (2 <= length xs)%nat -> Forall (fun x => length x = d) xs ->
  match ws with None => True | Some w => length w = length xs /\ Forall (fun w => 0 <= w) w /\ two_weights w /\ total w = 1 end ->
  geometry_fit o (Fin offset) d (fin_mat xs) (option_map (map Fin) ws) = Ok g -> proposal_fit o lgamma offset d xs ws g.
Proof. exact (geometry_by_em o lgamma offset d xs ws g). Qed.
Print Assumptions C92_geometry_fit.

(** In a run: the distribution that the kernel of an iteration proposes from is
    fitted to the particles that survived the trimming, with their weights (with
    preconditioning: to their images under the flow, whenever it is trained). *)
Theorem C92_iteration {C P Opt} (W : world X C P Opt) lp ll bl rows interrupts fuel R0 s s' lgamma offset :
  exact_model W lp ll bl rows -> reachable W (exact_draws rows) interrupts s -> exact_sampler rows s -> iteration W fuel R0 s = Ok s' ->
  good_solve (length rows) (wd_fit W) -> good_bisect (wd_fit W) -> digamma (wd_fit W) lgamma ->
  ir_geometry (rn_iter R0 (s_t s')) = Fin offset -> 0 <= offset < 1 -> (2 <= kept s')%nat ->
  (c_preconditioned (s_cfg s) = true -> trained_in s s' /\ flow_bijection (kernel_env_of W s') (length rows)) ->
  exists b remain q points, h_beta (history_of s') = h_beta (history_of s) ++ [Fin b] /\ remaining s b remain q /\
    map (fun p => if c_preconditioned (s_cfg s) then fst (wd_flow_forward W (s_flow s') (pt_u p)) else pt_u p) remain = fin_mat points /\
    proposal_fit (wd_fit W) lgamma offset (length rows) points (Some q) (geometry_in_use s').
Proof. exact (fun EM => iteration_proposal W lp ll bl rows EM interrupts fuel R0 s s' lgamma offset). Qed.
Print Assumptions C92_iteration.

(** three points on a line, without weights *)
Example C92_case : (2 <= length points1)%nat /\ Forall (fun x => length x = 1%nat) points1 /\ good_solve 1 oracles1 /\ good_bisect oracles1 /\ digamma oracles1 (fun x => x * x / 2) /\
  (exists r, fit_mvstud oracles1 1 (fin_mat points1) (Fin (1 / 1000000)) 100 = Ok r) /\ (exists g, geometry_fit oracles1 (Fin 0) 1 (fin_mat points1) None = Ok g).
Proof.
  destruct oracles1_good as (A & B & _). split; [cbn; lia|]. split; [repeat constructor|]. split; [exact A|]. split; [exact B|]. split; [exact oracles1_digamma|]. split; [exact points1_fit|exact points1_geometry].
Qed.
(** two points with equal weights *)
Example C92_weighted_case : exists g, geometry_fit oracles1 (Fin (1 / 2)) 1 (fin_mat [[0]; [1]]) (Some (map Fin [1 / 2; 1 / 2])) = Ok g /\ two_weights [1 / 2; 1 / 2] /\ total [1 / 2; 1 / 2] = 1.
Proof.
  destruct (geometry1 0 1 ltac:(lra)) as (g & V & mu & nu & E & _). exists g. split; [exact E|]. split; [exists 0%nat, 1%nat; cbn; split; [lia|lra]|]. unfold total. cbn. lra.
Qed.
(** a sampler with two prior draws, and its first iteration *)
Example C92_iteration_case pre : exists s s' fuel, exact_model world1 flat1 like1 None rows1 /\ reachable world1 (exact_draws rows1) false s /\ exact_sampler rows1 s /\ iteration world1 fuel rand1 s = Ok s' /\
  good_solve (length rows1) (wd_fit world1) /\ good_bisect (wd_fit world1) /\ digamma (wd_fit world1) (fun x => x * x / 2) /\ ir_geometry (rn_iter rand1 (s_t s')) = Fin (1 / 2) /\ (2 <= kept s')%nat /\ c_preconditioned (s_cfg s) = pre /\ trained_in s s' /\ flow_bijection (kernel_env_of world1 s') (length rows1).
Proof.
  destruct (case1_iteration pre) as (s & s' & fuel & HW & HI & K). destruct oracles1_good as (A & B & _). exists s, s', fuel. split; [exact world1_exact|]. split; [exact (w1_reach _ s HW)|]. split; [exact (w1_sampler _ s HW)|]. split; [exact HI|].
  split; [exact A|]. split; [exact B|]. split; [exact oracles1_digamma|]. split; [reflexivity|]. split; [rewrite K; lia|]. split; [apply (w1_config _ s HW)|]. split; [left; apply (w1_training _ s HW)|exact (identity1 s')].
Qed.

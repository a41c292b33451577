(** * Property theorems for geometry.py and student.py (C68, C69) *)
From Coq Require Import Reals ZArith Bool Lia Lra.
From Coq Require Import List.
From Verif Require Import Num PyBase XReal FloatNum Geometry Mcmc SpecGeometry GeometryFacts.
Import ListNotations.
Open Scope R_scope.

(** ** C68 *)
(** For every number type whose 1e6 is finite: t_nu is finite. *)
Theorem C68_nu_finite {T} {NT : NumT T} (o : fit_oracles T) offset d theta ws g :
  nisfinite (@nofZ T _ 1000000) = true -> geometry_fit o offset d theta ws = Ok g ->
  exists nu, t_nu g = Some nu /\ nisfinite nu = true.
Proof. exact (geometry_fit_nu o offset d theta ws g). Qed.
Print Assumptions C68_nu_finite.
Example C68_nu_case_exact : @nisfinite X XNum (@nofZ X XNum 1000000) = true.
Proof. reflexivity. Qed.
Example C68_nu_case_binary64 : @nisfinite B64 B64Num (@nofZ B64 B64Num 1000000) = true.
Proof. vm_compute. reflexivity. Qed.

(** Student-t fit of at least two real samples: at most max_iter updates; the
    scale matrix is real, square, symmetric and positive semi-definite, and
    positive definite when the samples are not in a common hyperplane; the
    location is inside the bounding box of the samples; the degrees of freedom
    are positive or infinite. *)
Theorem C68_student_fit d (xs : list (list R)) o tol max_iter mu S nu k :
  (2 <= length xs)%nat -> Forall (fun x => length x = d) xs -> good_solve d o -> good_bisect o ->
  fit_mvstud o d (fin_mat xs) tol max_iter = Ok (mu, S, nu, k) ->
  (k <= max_iter)%nat /\ (nu = PInf \/ exists r, nu = Fin r /\ 0 < r) /\
  exists mur Sr, mu = map Fin mur /\ S = fin_mat Sr /\ length mur = d /\
    (square d Sr /\ symmetric d Sr /\ psd d Sr /\ (spanning d xs -> pd d Sr)) /\
    (forall i lo hi, (i < d)%nat -> (forall x, In x xs -> lo <= nth i x 0 <= hi) -> lo <= nth i mur 0 <= hi).
Proof. exact (fun H1 H2 => fit_good d xs H1 H2 o tol max_iter mu S nu k). Qed.
Print Assumptions C68_student_fit.

(** With non-degenerate samples the fit does not raise (solve succeeds on
    positive definite matrices, the root search succeeds). *)
Theorem C68_fit_succeeds d (xs : list (list R)) o tol max_iter :
  (2 <= length xs)%nat -> Forall (fun x => length x = d) xs ->
  good_solve d o -> good_bisect o -> total_solve d o -> (forall f, exists v, o_bisect o f = Ok v) -> spanning d xs ->
  exists r, fit_mvstud o d (fin_mat xs) tol max_iter = Ok r.
Proof. exact (fun H1 H2 => fit_total d xs H1 H2 o tol max_iter). Qed.
Print Assumptions C68_fit_succeeds.

(** Geometry.fit, with or without weights. *)
Theorem C68_geometry_fit o offset d (xs : list (list R)) (ws : option (list R)) g :
  good_solve d o -> good_bisect o -> (2 <= length xs)%nat -> Forall (fun x => length x = d) xs ->
  match ws with None => True | Some ws => length ws = length xs /\ Forall (fun w => 0 <= w) ws /\ two_weights ws end ->
  geometry_fit o offset d (fin_mat xs) (option_map (map Fin) ws) = Ok g ->
  (exists nu, t_nu g = Some (Fin nu) /\ 0 < nu) /\
  (exists S, t_cov g = Some (fin_mat S) /\ square d S /\ symmetric d S /\ psd d S /\ (ws = None -> spanning d xs -> pd d S)) /\
  (exists S, normal_cov g = Some (squeeze (fin_mat S)) /\ square d S /\ symmetric d S /\ psd d S /\ (ws = None -> spanning d xs -> pd d S)) /\
  (exists mu, t_mean g = Some (map Fin mu) /\ length mu = d /\
     forall i lo hi, (i < d)%nat -> (forall x, In x xs -> lo <= nth i x 0 <= hi) -> lo <= nth i mu 0 <= hi).
Proof. exact (geometry_fit_good o offset d xs ws g). Qed.
Print Assumptions C68_geometry_fit.
Example C68_case : (2 <= length points1)%nat /\ Forall (fun x => length x = 1%nat) points1 /\ good_solve 1 oracles1 /\ good_bisect oracles1 /\
  total_solve 1 oracles1 /\ (forall f, exists v, o_bisect oracles1 f = Ok v) /\ spanning 1 points1 /\
  (exists r, fit_mvstud oracles1 1 (fin_mat points1) (Fin (1 / 1000000)) 100 = Ok r) /\
  (exists g, geometry_fit oracles1 (Fin 0) 1 (fin_mat points1) None = Ok g) /\ two_weights [0; 1; 2].
Proof.
  destruct oracles1_good as (A & B & C & D). split; [cbn; lia|]. split; [repeat constructor|]. split; [exact A|]. split; [exact B|].
  split; [exact C|]. split; [exact D|]. split; [exact points1_spanning|]. split; [exact points1_fit|]. split; [exact points1_geometry|].
  exists 1%nat, 2%nat. cbn. split; [lia|lra].
Qed.

(** ** C69 *)
(** The estimated normal covariance is zero-dimensional exactly in one
    dimension, for every data set, weights and number type. *)
Theorem C69_covariance_kind {T} {NT : NumT T} (o : fit_oracles T) offset d theta ws g : geometry_fit o offset d theta ws = Ok g ->
  (d = 1%nat <-> exists c, normal_cov g = Some (Cov0 c)).
Proof. exact (cov_kind o offset d theta ws g). Qed.
Print Assumptions C69_covariance_kind.

(** Finding: both random-walk kernels then raise, whatever the state. *)
Theorem C69_random_walk_raises {T B} {NT : NumT T} (env : kernel_env T B) o offset theta ws g scale s rand :
  geometry_fit o offset 1 theta ws = Ok g ->
  rwm env g scale s rand = Err LinAlgError /\ preconditioned_rwm env g scale s rand = Err LinAlgError.
Proof. exact (rwm_1d env o offset theta ws g scale s rand). Qed.
Print Assumptions C69_random_walk_raises.

(** The t-preconditioned kernels use the t parameters, which are a proper
    matrix in every dimension. *)
Theorem C69_tpcn_unaffected {T} {NT : NumT T} (o : fit_oracles T) offset d theta ws g : geometry_fit o offset d theta ws = Ok g ->
  exists m tm nu, t_cov g = Some m /\ length m = d /\ Forall (fun r => length r = d) m /\ t_mean g = Some tm /\ length tm = d /\ t_nu g = Some nu.
Proof. exact (t_cov_shape o offset d theta ws g). Qed.
Print Assumptions C69_tpcn_unaffected.
Example C69_case : exists g, geometry_fit oracles1 (Fin 0) 1 (fin_mat points1) None = Ok g.
Proof. exact points1_geometry. Qed.

(** * Small specification of the fit of the proposal distribution: weighted
    moments, and maximum-likelihood updates of a multivariate Student-t
    distribution, in real numbers *)
From Coquelicot Require Import Coquelicot.
From Coq Require Import Reals ZArith Sorted Permutation.
From Coq Require Import List.
From Verif Require Import Num PyBase XReal SpecTools Geometry SpecGeometry Sampler SpecPosterior SpecIterate.
Import ListNotations.
Local Open Scope R_scope.

(** sum of w f(x) over points x with weights w *)
Definition weighted_sum (ws : list R) (xs : list (list R)) (f : list R -> R) : R :=
  total (map (fun p => fst p * f (snd p)) (combine ws xs)).
(** coordinate i of x - m *)
Definition deviation (m x : list R) (i : nat) : R := nth i x 0 - nth i m 0.

(** [m]: the weighted mean of the points; [S]: their weighted covariance with the
    unbiased normalisation for reliability weights (n - 1 for n unit weights) *)
Record moments (d : nat) (xs : list (list R)) (ws : list R) (m : list R) (S : list (list R)) : Prop := {
  mo_length : length m = d;
  mo_square : square d S;
  mo_mean : forall i, (i < d)%nat -> nth i m 0 = weighted_sum ws xs (fun x => nth i x 0) / total ws;
  mo_cov : forall i j, (i < d)%nat -> (j < d)%nat ->
    entry S i j = weighted_sum ws xs (fun x => deviation m x i * deviation m x j) / (total ws - total (map (fun w => w * w) ws) / total ws) }.

(** the median: the middle element of the sorted list, or the mean of the two *)
Definition is_median (l : list R) (m : R) : Prop :=
  exists s, Permutation s l /\ StronglySorted Rle s /\ m = (nth ((length l - 1) / 2) s 0 + nth (length l / 2) s 0) / 2.

(** ** Student-t distribution *)
(** squared Mahalanobis distances of the points: (x - mu)^T S^-1 (x - mu) *)
Definition distances (d : nat) (xs : list (list R)) (mu : list R) (S : list (list R)) (del : list R) : Prop :=
  Forall2 (fun x r => exists y, length y = d /\ solves d S y (map (deviation mu x) (seq 0 d)) /\
    r = sum_lt d (fun i => deviation mu x i * nth i y 0)) xs del.
(** log-likelihood of [nu] degrees of freedom for points at squared distances
    [del] in [d] dimensions, up to terms without [nu] *)
Definition student_loglik (lgamma : R -> R) (d : nat) (del : list R) (nu : R) : R :=
  total (map (fun r => lgamma ((nu + INR d) / 2) - lgamma (nu / 2) - INR d / 2 * ln nu - (nu + INR d) / 2 * ln (1 + r / nu)) del).
(** scipy.special.psi is the derivative of lgamma *)
Definition digamma (o : fit_oracles X) (lgamma : R -> R) : Prop :=
  forall v, 0 < v -> exists p, o_psi o (Fin v) = Fin p /\ is_derive lgamma v p.
(** [f] is, up to the factor 2/n, the derivative of the log-likelihood *)
Definition slope_of (lgamma : R -> R) (d : nat) (del : list R) (f : X -> X) : Prop :=
  forall v, 0 < v -> exists s, f (Fin v) = Fin s /\ is_derive (student_loglik lgamma d del) v (INR (length del) / 2 * s).
Definition far : R := IZR (10 ^ 300).

(** One update at location [mu] and scale matrix [S]: the likelihood decreases in
    nu far out; [nu] is the root of its slope that bisection finds; then location
    and scale matrix are updated with the weights (nu + d) / (nu + distance), the
    scale matrix with the deviations from the old location. *)
Definition em_update (o : fit_oracles X) (lgamma : R -> R) (d : nat) (xs : list (list R)) (mu : list R) (S : list (list R)) (nu : R) (mu' : list R) (S' : list (list R)) : Prop :=
  exists del f, distances d xs mu S del /\ slope_of lgamma d del f /\ (exists s, f (Fin far) = Fin s /\ s < 0) /\ o_bisect o f = Ok (Fin nu) /\
    let w := map (fun r => (nu + INR d) / (nu + r)) del in
    length mu' = d /\ (forall i, (i < d)%nat -> nth i mu' 0 = weighted_sum w xs (fun x => nth i x 0) / total w) /\
    square d S' /\ (forall i j, (i < d)%nat -> (j < d)%nat -> entry S' i j = weighted_sum w xs (fun x => deviation mu x i * deviation mu x j) / INR (length xs)).
(** at [mu], [S] the likelihood still increases in nu far out *)
Definition nearly_normal (lgamma : R -> R) (d : nat) (xs : list (list R)) (mu : list R) (S : list (list R)) : Prop :=
  exists del f, distances d xs mu S del /\ slope_of lgamma d del f /\ exists s, f (Fin far) = Fin s /\ 0 <= s.

(** The fit: it starts at the medians, the maximum-likelihood covariance with
    its variances enlarged by 1 + 1/n, and 20 degrees of freedom.  It goes on
    while the last update changed nu by more than [tol] (the first time: while
    20 > tol), at most [max_iter] times.  It ends after [k] updates, with [nu]
    infinite if the likelihood increases far out. *)
Record student_fit_by_em (o : fit_oracles X) (lgamma : R -> R) (d : nat) (xs : list (list R)) (tol : R) (max_iter : nat)
    (mu : list R) (S : list (list R)) (nu : X) (k : nat) (mus : nat -> list R) (Ss : nat -> list (list R)) (nus : nat -> R) : Prop := {
  ef_mu0 : length (mus 0%nat) = d /\ forall i, (i < d)%nat -> is_median (map (fun x => nth i x 0) xs) (nth i (mus 0%nat) 0);
  ef_S0 : square d (Ss 0%nat) /\ exists m V, moments d xs (repeat 1 (length xs)) m V /\
    let n := INR (length xs) in
    forall i j, (i < d)%nat -> (j < d)%nat -> entry (Ss 0%nat) i j = entry V i j * (n - 1) / n * (if Nat.eqb i j then 1 + 1 / n else 1);
  ef_nu0 : nus 0%nat = 20;
  ef_update : forall i, (i < k)%nat -> em_update o lgamma d xs (mus i) (Ss i) (nus (i + 1)%nat) (mus (i + 1)%nat) (Ss (i + 1)%nat);
  ef_limit : (k <= max_iter)%nat;
  ef_result : mu = mus k /\ S = Ss k;
  ef_end : let change i := Rabs (nus i - match i with O => 0 | Datatypes.S j => nus j end) in
    (forall i, (i < k)%nat -> tol < change i) /\
    ((nu = Fin (nus k) /\ (k = max_iter \/ change k <= tol)) \/
     (nu = PInf /\ (k < max_iter)%nat /\ tol < change k /\ nearly_normal lgamma d xs (mus k) (Ss k))) }.

(** The fitted proposal distribution [g], of points [xs] with weights [ws] or
    without.  The normal part: the weighted moments (the covariance is a number in
    one dimension).  The Student-t part: fitted to the points themselves, or to as
    many points drawn from them by systematic resampling at [offset]; infinite
    degrees of freedom become a million. *)
Definition proposal_fit (o : fit_oracles X) (lgamma : R -> R) (offset : R) (d : nat) (xs : list (list R)) (ws : option (list R)) (g : geometry X) : Prop :=
  (exists m V, moments d xs (match ws with None => repeat 1 (length xs) | Some w => w end) m V /\ normal_mean g = Some (map Fin m) /\
    normal_cov g = Some (if Nat.eqb d 1 then Cov0 (Fin (entry V 0 0)) else Cov2 (fin_mat V))) /\
  exists ys mu S nu k mus Ss nus,
    match ws with None => ys = xs | Some w => exists idx, picks SYST (fun _ => 0) offset (length xs) w idx /\ at_positions xs idx ys end /\
    student_fit_by_em o lgamma d ys (1 / 1000000) 100 mu S nu k mus Ss nus /\
    t_mean g = Some (map Fin mu) /\ t_cov g = Some (fin_mat S) /\ t_nu g = Some (match nu with PInf => Fin 1000000 | _ => nu end).

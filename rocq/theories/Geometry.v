(** * Model of pocomc/geometry.py and pocomc/student.py *)
From Coq Require Import ZArith List Bool.
From Verif Require Import Num PyBase Tools Scaler.
Import ListNotations.
Open Scope num_scope.

Section Geometry.
  Context {T : Type} {NT : NumT T}.

  (** np.cov returns a 0-d array when there is a single variable. *)
  Inductive cov := Cov0 (c : T) | Cov2 (m : mat T).

  (** geometry.py:24-29 *)
  Record geometry := {
    normal_mean : option (vec T); normal_cov : option cov;
    t_mean : option (vec T); t_cov : option (mat T); t_nu : option T
  }.
  Definition new_geometry : geometry :=
    {| normal_mean := None; normal_cov := None; t_mean := None; t_cov := None; t_nu := None |}.

  (** numpy and scipy oracles: np.linalg.solve applied to one right-hand side,
      scipy.special.psi, scipy.optimize.bisect on [1e-300, 1e300]. *)
  Record fit_oracles := { o_solve : mat T -> vec T -> res (vec T); o_psi : T -> T; o_bisect : (T -> T) -> res T }.

  (** the squeeze at the end of np.cov *)
  Definition squeeze (m : mat T) : cov := match m with [[c]] => Cov0 c | _ => Cov2 m end.

  (** np.average(theta, axis=0, weights=w); numpy raises ZeroDivisionError when
      the weights sum to zero *)
  Definition average (d : nat) (w : vec T) (m : mat T) : res (vec T) :=
    if nsum w =? nofZ 0 then Err ZeroDivisionError
    else Ok (map (fun j => nsum (map2 nmul (col m j) w) / nsum w) (seq 0 d)).

  (** np.cov(theta.T, aweights=w): factor sum(w) - sum(w^2)/sum(w), replaced by
      0 when not positive (the division then gives inf or NaN); negative
      weights raise ValueError *)
  Definition wcov (d : nat) (w : vec T) (m : mat T) : res (mat T) :=
    if existsb (fun a => a <? nofZ 0) w then Err ValueError
    else
      let! avg := average d w m in
      let f := nsum w - nsum (map nsqr w) / nsum w in
      let f := if f <=? nofZ 0 then nofZ 0 else f in
      let c i := map (fun a => a - nth i avg (nofZ 0)) (col m i) in
      Ok (map (fun i => map (fun j => nsum (map2 nmul (c i) (map2 nmul (c j) w)) * (nofZ 1 / f)) (seq 0 d)) (seq 0 d)).

  (** ** student.py *)
  (** np.median of one variable *)
  Definition median (l : vec T) : T :=
    let s := np_sort l in
    let n := length l in
    if existsb nisnan l then nofZ 0 / nofZ 0
    else if Nat.even n then (nth (Nat.div n 2 - 1) s (nofZ 0) + nth (Nat.div n 2) s (nofZ 0)) / nofZ 2
    else nth (Nat.div n 2) s (nofZ 0).

  (** student.py:42-45 func0 *)
  Definition func0 (o : fit_oracles) (dim n : nat) (delta : vec T) (nu : T) : T :=
    let D := nofZ (Z.of_nat dim) in
    let N := nofZ (Z.of_nat n) in
    let w := map (fun d => (nu + D) / (nu + d)) delta in                          (* 43 *)
    - o_psi o (nu / nofZ 2) + nlog (nu / nofZ 2) + nsum (map nlog w) / N - nsum w / N + nofZ 1
      + o_psi o ((nu + D) / nofZ 2) - nlog ((nu + D) / nofZ 2).                   (* 44 *)
  (** student.py:41-51 opt_nu; 10^300 stands for the literal 1e300 *)
  Definition opt_nu (o : fit_oracles) (dim n : nat) (delta : vec T) : res T :=
    if nofZ 0 <=? func0 o dim n delta (nofZ (10 ^ 300)) then Ok ninf              (* 47-48 *)
    else o_bisect o (func0 o dim n delta).                                        (* 50 *)

  (** student.py:53-57: starting values; [data] are the rows of the argument
      (the code transposes). *)
  Definition mvstud_mu0 (d : nat) (data : mat T) : vec T := map (fun j => median (col data j)) (seq 0 d).
  Definition var_axis (l : vec T) : T := nmean (map (fun a => nsqr (a - nmean l)) l).
  Definition mvstud_Sigma0 (d : nat) (data : mat T) : mat T :=
    let N := nofZ (Z.of_nat (length data)) in
    map2 (fun i row => map2 (fun j c =>
        c * nofZ (Z.of_nat (length data) - 1) / N
        + (nofZ 1 / N) * (if Nat.eqb i j then var_axis (col data i) else nofZ 0)) (seq 0 d) row)
      (seq 0 d) (cov_cols d data).

  (** student.py:63-64 *)
  Definition diffs (mu : vec T) (data : mat T) : mat T := map (fun x => vsub x mu) data.
  Definition delta_iobs (o : fit_oracles) (Sigma : mat T) (ds : mat T) : res (vec T) :=
    mapM (fun x => let! y := o_solve o Sigma x in Ok (nsum (map2 nmul x y))) ds.

  (** student.py:73-78: one EM update *)
  Definition em_Sigma (d : nat) (w : vec T) (ds : mat T) : mat T :=
    map (fun i => map (fun j =>
      nsum (map2 nmul (map2 nmul w (col ds i)) (col ds j)) / nofZ (Z.of_nat (length ds))) (seq 0 d)) (seq 0 d).
  Definition em_mu (d : nat) (w : vec T) (data : mat T) : vec T :=
    map (fun j => nsum (map2 nmul w (col data j)) / nsum w) (seq 0 d).

  (** student.py:59-78 the loop; [fuel] counts max_iter - i.  Second component:
      the number of updates of Sigma and mu. *)
  Fixpoint em_loop (o : fit_oracles) (d : nat) (data : mat T) (tolerance : T) (fuel : nat)
      (last_nu nu : T) (mu : vec T) (Sigma : mat T) (k : nat) : res (vec T * mat T * T * nat) :=
    if tolerance <? nabs (last_nu - nu) then
      match fuel with
      | O => Ok (mu, Sigma, nu, k)                                                (* i = max_iter *)
      | S fuel' =>
        let ds := diffs mu data in                                                (* 63 *)
        let! delta := delta_iobs o Sigma ds in                                    (* 64 *)
        let! nu' := opt_nu o d (length data) delta in                             (* 67-68 *)
        if nu' =? ninf then Ok (mu, Sigma, nu', k)                                (* 69-70 *)
        else
          let w := map (fun dl => (nu' + nofZ (Z.of_nat d)) / (nu' + dl)) delta in (* 73 *)
          em_loop o d data tolerance fuel' nu nu' (em_mu d w data) (em_Sigma d w ds) (S k)
      end
    else Ok (mu, Sigma, nu, k).

  (** student.py:5-85 fit_mvstud *)
  Definition fit_mvstud (o : fit_oracles) (d : nat) (data : mat T) (tolerance : T) (max_iter : nat) : res (vec T * mat T * T * nat) :=
    em_loop o d data tolerance max_iter (nofZ 0) (nofZ 20) (mvstud_mu0 d data) (mvstud_Sigma0 d data) 0.

  (** geometry.py:31-59 fit; [offset] is the random number of
      systematic_resample. *)
  Definition geometry_fit (o : fit_oracles) (offset : T) (d : nat) (theta : mat T) (weights : option (vec T)) : res geometry :=
    let! (m, c) := match weights with
                   | None => Ok (mean_axis0 d theta, cov_cols d theta)             (* 43-45 *)
                   | Some w => let! m := average d w theta in let! c := wcov d w theta in Ok (m, c)  (* 47-48 *)
                   end in
    let! data := match weights with
                 | None => Ok theta
                 | Some w => let! idx := systematic_resample offset (length theta) w in gather theta idx  (* 52-53 *)
                 end in
    let! (tm, tc, nu, _) := fit_mvstud o d data (nfrac 1 1000000) 100 in           (* 54, 56 *)
    let nu := if negb (nisfinite nu) then nofZ 1000000 else nu in                  (* 58-59 *)
    Ok {| normal_mean := Some m; normal_cov := Some (squeeze c); t_mean := Some tm; t_cov := Some tc; t_nu := Some nu |}.
End Geometry.
Arguments geometry : clear implicits.
Arguments cov : clear implicits.
Arguments fit_oracles : clear implicits.

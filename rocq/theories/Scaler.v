(** * Model of pocomc/scaler.py and pocomc/input_validation.py

    Arrays of shape (n, n_dim) are lists of rows.  Every numpy statement of the
    scaler acts on the rows independently, so the statements are modelled on
    one row and mapped over the batch. *)
From Coq Require Import ZArith List Bool.
From Verif Require Import Num PyBase.
Import ListNotations.
Open Scope num_scope.

Section InputValidation.
  Context {T : Type} {N : Num T}.

  (** input_validation.py:25-53 assert_array_within_interval *)
  Definition within_condition (left_open right_open : bool) (left right x : T) : bool :=
    let left := if nisnan left then nopp ninf else left in                        (* 30-31 *)
    let right := if nisnan right then ninf else right in                          (* 33-34 *)
    match left_open, right_open with
    | true, true => (left <? x) && (x <? right)                                   (* 36-38 *)
    | true, false => (left <? x) && (x <=? right)                                 (* 39-41 *)
    | false, true => (left <=? x) && (x <? right)                                 (* 42-44 *)
    | false, false => (left <=? x) && (x <=? right)                               (* 45-47 *)
    end.
  (** row of the boolean array [condition]; the comparison broadcasts (n_dim,)
      against (n, n_dim): rows of another length raise ValueError *)
  Fixpoint row_condition (left_open right_open : bool) (left right x : list T) : option bool :=
    match left, right, x with
    | l :: left', r :: right', a :: x' =>
        match row_condition left_open right_open left' right' x' with
        | Some c => Some (within_condition left_open right_open l r a && c)
        | None => None
        end
    | [], [], [] => Some true
    | _, _, _ => None
    end.
  Definition assert_array_within_interval (x : mat T) (left right : vec T) (left_open right_open : bool) : res unit :=
    if forallb (fun row => match row_condition left_open right_open left right row with
                           | Some c => c | None => false end) x                   (* 49 *)
    then Ok tt else Err ValueError.                                               (* 52 *)
End InputValidation.

Section Scaler.
  Context {T : Type} {NT : NumT T}.

  Inductive transf := Logit | Probit | OtherTransform.

  (** The attributes of a Reparameterize object (scaler.py:45-82). *)
  Record reparam := {
    ndim : nat;
    low : vec T; high : vec T;
    periodic : option (list Z); reflective : option (list Z);
    transform : transf;
    scale : bool; diagonal : bool;
    mask_none : list bool; mask_left : list bool; mask_right : list bool; mask_both : list bool;
    mu : option (vec T); sigma : option (vec T);
    Lmat : option (mat T); L_inv : option (mat T); log_det_L : option T
  }.

  (** scaler.py:459-490 _create_masks: the four branches, per coordinate *)
  Inductive bkind := KNone | KRight | KLeft | KBoth.
  Definition kind_of (lo hi : T) : bkind :=
    if negb (nisfinite lo) && negb (nisfinite hi) then KNone                      (* 471-475 *)
    else if negb (nisfinite lo) && nisfinite hi then KRight                       (* 476-480 *)
    else if nisfinite lo && negb (nisfinite hi) then KLeft                        (* 481-485 *)
    else KBoth.                                                                   (* 486-490 *)
  Definition is_none k := match k with KNone => true | _ => false end.
  Definition is_left k := match k with KLeft => true | _ => false end.
  Definition is_right k := match k with KRight => true | _ => false end.
  Definition is_both k := match k with KBoth => true | _ => false end.

  (** the [bounds] argument: None, a (low, high) pair for all parameters (cast
      to float32, line 59), an array of shape (n_dim, 2) of a floating or other
      dtype, or a list that is not a pair (no dtype: AttributeError) *)
  Inductive bounds_arg :=
  | BNone | BPair (lo hi : T) | BArray (is_float : bool) (rows : list (T * T)) | BList.

  (** scaler.py:45-82 __init__.  [to_f32] rounds to float32 and back. *)
  Definition init_reparam (to_f32 : T -> T) (n_dim : nat) (b : bounds_arg)
      (periodic reflective : option (list Z)) (transform : transf) (scale diagonal : bool) : res reparam :=
    let! rows :=
      match b with
      | BNone => Ok (repeat (ninf, ninf) n_dim)                                   (* 56-57 *)
      | BPair lo hi => Ok (repeat (to_f32 lo, to_f32 hi) n_dim)                   (* 58-59 *)
      | BArray true rows => Ok rows
      | BArray false _ => Err ValueError                                          (* 60 *)
      | BList => Err AttributeError                                               (* 60: list.dtype *)
      end in
    let low := map fst rows in                                                    (* 62 *)
    let high := map snd rows in                                                   (* 63 *)
    let! _ := match transform with OtherTransform => Err ValueError | _ => Ok tt end in  (* 68-71 *)
    let! _ := if Nat.ltb (length rows) n_dim then Err IndexError else Ok tt in    (* 470: self.low[i] *)
    let kinds := map2 kind_of low high in
    Ok {| ndim := n_dim; low := low; high := high; periodic := periodic; reflective := reflective;
          transform := transform; scale := scale; diagonal := diagonal;
          mask_none := firstn n_dim (map is_none kinds); mask_left := firstn n_dim (map is_left kinds);
          mask_right := firstn n_dim (map is_right kinds); mask_both := firstn n_dim (map is_both kinds);
          mu := None; sigma := None; Lmat := None; L_inv := None; log_det_L := None |}.

  (** ** Boundary conditions *)
  (** [while x > hi: x = step(x)] and [while x < lo: x = step(x)] *)
  Fixpoint while_gt (fuel : nat) (hi : T) (step : T -> T) (x : T) : res T :=
    if hi <? x then match fuel with O => Err Diverge | S f => while_gt f hi step (step x) end else Ok x.
  Fixpoint while_lt (fuel : nat) (lo : T) (step : T -> T) (x : T) : res T :=
    if x <? lo then match fuel with O => Err Diverge | S f => while_lt f lo step (step x) end else Ok x.

  (** scaler.py:128-131: one entry of a periodic parameter *)
  Definition wrap_periodic (fuel : nat) (lo hi x : T) : res T :=
    let! x := while_gt fuel hi (fun x => lo + x - hi) x in
    while_lt fuel lo (fun x => hi + x - lo) x.
  (** scaler.py:152-155: one entry of a reflective parameter *)
  Definition wrap_reflective (fuel : nat) (lo hi x : T) : res T :=
    let! x := while_gt fuel hi (fun x => hi - x + hi) x in
    while_lt fuel lo (fun x => lo + lo - x) x.

  (** Python column index *)
  Definition col_index (n : nat) (i : Z) : option nat :=
    if (0 <=? i)%Z then (if (i <? Z.of_nat n)%Z then Some (Z.to_nat i) else None)
    else if (0 <=? i + Z.of_nat n)%Z then Some (Z.to_nat (i + Z.of_nat n)) else None.

  (** scaler.py:124-132 / 149-157 on one row: [for i in idx] the entry i of the
      row is replaced.  (The code loops over i outside and rows inside; the rows
      do not interact.) *)
  Fixpoint wrap_row (wrap : T -> T -> T -> res T) (idx : list Z) (lo hi row : vec T) : res (vec T) :=
    match idx with
    | [] => Ok row
    | i :: idx' =>
      let! k := of_option IndexError (col_index (length row) i) in
      let! x := of_option IndexError (nth_error row k) in
      let! h := of_option IndexError (py_index hi i) in
      let! l := of_option IndexError (py_index lo i) in
      let! x := wrap l h x in
      wrap_row wrap idx' lo hi (set_nth k x row)
    end.
  Definition apply_periodic (fuel : nat) (r : reparam) (x : mat T) : res (mat T) :=
    match periodic r with
    | None => Ok x
    | Some idx => mapM (wrap_row (wrap_periodic fuel) idx (low r) (high r)) x
    end.
  Definition apply_reflective (fuel : nat) (r : reparam) (x : mat T) : res (mat T) :=
    match reflective r with
    | None => Ok x
    | Some idx => mapM (wrap_row (wrap_reflective fuel) idx (low r) (high r)) x
    end.
  (** scaler.py:84-107 apply_boundary_conditions_x *)
  Definition apply_boundary_conditions_x (fuel : nat) (r : reparam) (x : mat T) : res (mat T) :=
    match periodic r, reflective r with
    | None, None => Ok x                                                          (* 100-101 *)
    | None, Some _ => apply_reflective fuel r x                                   (* 102-103 *)
    | Some _, None => apply_periodic fuel r x                                     (* 104-105 *)
    | Some _, Some _ => let! x := apply_periodic fuel r x in apply_reflective fuel r x  (* 106-107 *)
    end.

  (** ** Forward and inverse maps of one row *)
  (** scaler.py:427-440 *)
  Definition forward_none (r : reparam) (x : vec T) : vec T := compress (mask_none r) x.
  (** scaler.py:442-457 *)
  Definition inverse_none (r : reparam) (u : vec T) : vec T * vec T :=
    (compress (mask_none r) u, compress (mask_none r) (map (fun _ => nofZ 0) u)).
  (** scaler.py:315-327 *)
  Definition forward_left (r : reparam) (x : vec T) : vec T :=
    map2 (fun x l => nlog (x - l)) (compress (mask_left r) x) (compress (mask_left r) (low r)).
  (** scaler.py:329-346 *)
  Definition inverse_left (r : reparam) (u : vec T) : vec T * vec T :=
    (map2 (fun u l => nexp u + l) (compress (mask_left r) u) (compress (mask_left r) (low r)),
     compress (mask_left r) u).
  (** scaler.py:348-360 *)
  Definition forward_right (r : reparam) (x : vec T) : vec T :=
    map2 (fun x h => nlog (h - x)) (compress (mask_right r) x) (compress (mask_right r) (high r)).
  (** scaler.py:362-378 *)
  Definition inverse_right (r : reparam) (u : vec T) : vec T * vec T :=
    (map2 (fun u h => h - nexp u) (compress (mask_right r) u) (compress (mask_right r) (high r)),
     compress (mask_right r) u).
  (** scaler.py:380-400 on one entry; the result of np.clip (line 393) is discarded *)
  Definition forward_both1 (t : transf) (x l h : T) : T :=
    let p := (x - l) / (h - l) in                                                 (* 392 *)
    match t with
    | Logit => nlog (p / (nofZ 1 - p))                                            (* 396 *)
    | _ => nsqrt (nofZ 2) * nerfinv (nofZ 2 * p - nofZ 1)                         (* 398 *)
    end.
  Definition map3 {A B C D} (f : A -> B -> C -> D) (a : list A) (b : list B) (c : list C) : list D :=
    map2 (fun ab c => f (fst ab) (snd ab) c) (combine a b) c.
  Definition forward_both (r : reparam) (x : vec T) : vec T :=
    let m := mask_both r in
    map3 (forward_both1 (transform r)) (compress m x) (compress m (low r)) (compress m (high r)).
  (** scaler.py:402-425 on one entry: the value and the log-derivative *)
  Definition inverse_both1 (t : transf) (u l h : T) : T * T :=
    match t with
    | Logit =>
      let p := nexp (- nlogaddexp (nofZ 0) (- u)) in                              (* 418 *)
      (p * (h - l) + l, nlog (h - l) + nlog p + nlog (nofZ 1 - p))                (* 419-420 *)
    | _ =>
      let p := (nerf (u / nsqrt (nofZ 2)) + nofZ 1) / nofZ 2 in                   (* 422 *)
      (p * (h - l) + l,
       nlog (h - l) + (- (nsqr u)) / nofZ 2 - nlog (nsqrt (nofZ 2 * npi)))        (* 423-424 *)
    end.
  Definition inverse_both (r : reparam) (u : vec T) : vec T * vec T :=
    let m := mask_both r in
    let xs := map3 (inverse_both1 (transform r)) (compress m u) (compress m (low r)) (compress m (high r)) in
    (map fst xs, map snd xs).

  (** Boolean indexing of the columns: IndexError when the number of columns
      differs from n_dim. *)
  Definition check_cols (r : reparam) (x : vec T) : res unit :=
    if Nat.eqb (length x) (ndim r) then Ok tt else Err IndexError.

  (** scaler.py:228-247 _forward; [junk] is the content of np.empty. *)
  Definition forward0_row (r : reparam) (junk x : vec T) : res (vec T) :=
    let! _ := check_cols r x in
    let! u := scatter (mask_none r) (forward_none r x) junk in                    (* 242 *)
    let! u := scatter (mask_left r) (forward_left r x) u in                       (* 243 *)
    let! u := scatter (mask_right r) (forward_right r x) u in                     (* 244 *)
    scatter (mask_both r) (forward_both r x) u.                                   (* 245 *)

  (** scaler.py:249-274 _inverse; [junk] is the content of the two np.empty. *)
  Definition inverse0_row (r : reparam) (junk u : vec T) : res (vec T * T) :=
    let! _ := check_cols r u in
    let! x := scatter (mask_none r) (fst (inverse_none r u)) junk in              (* 267 *)
    let! J := scatter (mask_none r) (snd (inverse_none r u)) junk in
    let! x := scatter (mask_left r) (fst (inverse_left r u)) x in                 (* 268 *)
    let! J := scatter (mask_left r) (snd (inverse_left r u)) J in
    let! x := scatter (mask_right r) (fst (inverse_right r u)) x in               (* 269 *)
    let! J := scatter (mask_right r) (snd (inverse_right r u)) J in
    let! x := scatter (mask_both r) (fst (inverse_both r u)) x in                 (* 270 *)
    let! J := scatter (mask_both r) (snd (inverse_both r u)) J in
    Ok (x, nsum J).                                                               (* 272 *)

  (** scaler.py:276-291 _forward_affine; an unfitted scaler has mu = None
      (TypeError) *)
  Definition forward_affine_row (r : reparam) (x : vec T) : res (vec T) :=
    let! m := of_option TypeError (mu r) in
    if diagonal r then
      let! s := of_option TypeError (sigma r) in
      Ok (map2 ndiv (vsub x m) s)                                                 (* 289 *)
    else
      let! Li := of_option TypeError (L_inv r) in
      Ok (matvec Li (vsub x m)).                                                  (* 291 *)

  (** scaler.py:293-313 _inverse_affine.  A row of another width than [mu] does not broadcast: ValueError
      (simplified: numpy would stretch a row of width one). *)
  Definition inverse_affine_row (r : reparam) (u : vec T) : res (vec T * T) :=
    let! m := of_option TypeError (mu r) in
    let! _ := if Nat.eqb (length u) (length m) then Ok tt else Err ValueError in  (* 310, 312 *)
    if diagonal r then
      let! s := of_option TypeError (sigma r) in
      Ok (vadd m (map2 nmul s u), nsum (map nlog s) * nofZ 1)                     (* 309-310 *)
    else
      let! L := of_option TypeError (Lmat r) in
      let! ld := of_option TypeError (log_det_L r) in
      Ok (vadd m (matvec L u), ld * nofZ 1).                                      (* 312-313 *)

  (** scaler.py:180-202 forward *)
  Definition forward_row (r : reparam) (junk x : vec T) : res (vec T) :=
    let! u := forward0_row r junk x in                                            (* 198 *)
    if scale r then forward_affine_row r u else Ok u.                             (* 199-200 *)
  Definition forward (r : reparam) (junk : vec T) (x : mat T) (check_input : bool) : res (mat T) :=
    let! _ := if check_input
              then assert_array_within_interval x (low r) (high r) false false    (* 195-196 *)
              else Ok tt in
    mapM (forward_row r junk) x.

  (** scaler.py:204-226 inverse *)
  Definition inverse_row (r : reparam) (junk u : vec T) : res (vec T * T) :=
    if scale r then
      let! (x, log_det_J) := inverse_affine_row r u in                            (* 220 *)
      let! (x, log_det_J_prime) := inverse0_row r junk x in                       (* 221 *)
      Ok (x, log_det_J + log_det_J_prime)                                         (* 222 *)
    else inverse0_row r junk u.                                                   (* 224 *)
  Definition inverse (r : reparam) (junk : vec T) (u : mat T) : res (mat T * vec T) :=
    let! l := mapM (inverse_row r junk) u in
    Ok (map fst l, map snd l).

  (** ** fit, scaler.py:159-178 *)
  (** np.std(u, axis=0): population standard deviation of each column *)
  Definition std_axis0 (d : nat) (m : mat T) : vec T :=
    map (fun i => let c := col m i in nsqrt (nmean (map (fun a => nsqr (a - nmean c)) c))) (seq 0 d).
  (** np.cov(u.T): unbiased covariance of the columns *)
  Definition cov_cols (d : nat) (m : mat T) : mat T :=
    map (fun i => map (fun j =>
      let ci := col m i in let cj := col m j in
      nsum (map2 (fun a b => (a - nmean ci) * (b - nmean cj)) ci cj) / nofZ (Z.of_nat (length m) - 1))
      (seq 0 d)) (seq 0 d).

  (** numpy.linalg as an oracle *)
  Record linalg := { la_cholesky : mat T -> res (mat T); la_inv : mat T -> res (mat T); la_logdet : mat T -> T }.

  Definition fit (la : linalg) (r : reparam) (junk : vec T) (x : mat T) : res reparam :=
    let! _ := assert_array_within_interval x (low r) (high r) false false in      (* 168 *)
    let! u := mapM (forward0_row r junk) x in                                     (* 170 *)
    let m := mean_axis0 (ndim r) u in                                             (* 171 *)
    let upd mu sigma L Li ld :=
      {| ndim := ndim r; low := low r; high := high r; periodic := periodic r; reflective := reflective r;
         transform := transform r; scale := scale r; diagonal := diagonal r;
         mask_none := mask_none r; mask_left := mask_left r; mask_right := mask_right r; mask_both := mask_both r;
         mu := mu; sigma := sigma; Lmat := L; L_inv := Li; log_det_L := ld |} in
    if diagonal r then
      Ok (upd (Some m) (Some (std_axis0 (ndim r) u)) (Lmat r) (L_inv r) (log_det_L r))  (* 173 *)
    else
      let cov := cov_cols (ndim r) u in                                           (* 175 *)
      let! L := la_cholesky la cov in                                             (* 176 *)
      let! Li := la_inv la L in                                                   (* 177 *)
      Ok (upd (Some m) (sigma r) (Some L) (Some Li) (Some (la_logdet la L))).     (* 178 *)
End Scaler.
Arguments reparam : clear implicits.
Arguments linalg : clear implicits.
Arguments bounds_arg : clear implicits.

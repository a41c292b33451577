(** * Model of pocomc/flow.py: construction, training and regularisation

    The network itself (zuko, torch) is an oracle on a parameter type P with
    optimiser state Opt.  Numbers are those of the class: single precision in
    torch, see [torch_double_to_float] in Tools.v for the conversion.  The
    train/eval mode, the clock and the printing are not modelled. *)
From Coq Require Import ZArith String List Bool.
From Verif Require Import Num PyBase.
Import ListNotations.

(** ** flow.py:46-90 __init__ *)
(** int.bit_length *)
Definition bit_length (n : Z) : Z := if (n =? 0)%Z then 0 else (Z.log2 (Z.abs n) + 1)%Z.
(** flow.py:49-50 *)
Definition next_power_of_2 (n : Z) : Z := if (n =? 0)%Z then 1%Z else (2 ^ bit_length (n - 1))%Z.
(** flow.py:52 *)
Definition n_hidden (n_dim : Z) : Z := Z.max (next_power_of_2 (3 * n_dim)) 32.

Inductive family := MAF | NSF.
Record arch := { a_family : family; a_features : Z; a_transforms : nat; a_hidden : list Z; a_bins : option nat; a_residual : bool }.
(** flow.py:46, the flow argument: a string, a zuko flow, or anything else *)
Inductive flow_arg (P : Type) := FName (s : string) | FObject (p : P) | FOther.
Arguments FName {P} s.
Arguments FObject {P} p.
Arguments FOther {P}.

Definition maf (n_dim : Z) (k : nat) : arch :=
  {| a_family := MAF; a_features := n_dim; a_transforms := k; a_hidden := repeat (n_hidden n_dim) 3; a_bins := None; a_residual := true |}.
Definition nsf (n_dim : Z) (k : nat) : arch :=
  {| a_family := NSF; a_features := n_dim; a_transforms := k; a_hidden := repeat (n_hidden n_dim) 3; a_bins := Some 8%nat; a_residual := true |}.

(** flow.py:54-90: the network built from the argument; an object is used as it is *)
Definition flow_init {P} (n_dim : Z) (flow : flow_arg P) : res (arch + P) :=
  match flow with
  | FName s =>
      if String.eqb s "maf3" then Ok (inl (maf n_dim 3))
      else if String.eqb s "maf6" then Ok (inl (maf n_dim 6))
      else if String.eqb s "maf12" then Ok (inl (maf n_dim 12))
      else if String.eqb s "nsf3" then Ok (inl (nsf n_dim 3))
      else if String.eqb s "nsf6" then Ok (inl (nsf n_dim 6))
      else if String.eqb s "nsf12" then Ok (inl (nsf n_dim 12))
      else Err ValueError
  | FObject p => Ok (inr p)
  | FOther => Err ValueError
  end.

Section Fit.
  Context {T P Opt : Type} {NT : NumT T}.
  Open Scope num_scope.

  (** torch / zuko oracles *)
  Record flow_oracles := {
    f_log_prob : P -> vec T -> T;
    (** model.transforms: None when the transform has no [hyper], otherwise its named parameters, flattened *)
    f_transforms : P -> list (option (list (string * vec T)));
    f_adamw : T -> T -> Opt;                        (** AdamW(learning_rate, weight_decay) and its scheduler *)
    f_step : T -> Opt -> P -> (P -> T) -> Opt * P;    (** backward of the loss, clip_grad_norm_, optimizer.step *)
    f_schedule : Opt -> T -> Opt                      (** ReduceLROnPlateau.step *)
  }.
  Variable o : flow_oracles.

  (** ** flow.py:387-422 regularization_loss *)
  (** str.endswith *)
  Definition endswith (s suffix : string) : bool :=
    (String.length suffix <=? String.length s)%nat
    && String.eqb (substring (String.length s - String.length suffix) (String.length suffix) s) suffix.
  (** flow.py:407-410: the parameters looped over *)
  Definition reg_params (p : P) : list (vec T) :=
    flat_map (fun t => match t with
                       | None => []
                       | Some ps => map snd (filter (fun q => endswith (fst q) "weight") ps)
                       end) (f_transforms o p).
  (** flow.py:404-422; a zero scale (ZeroDivisionError when there is no
      parameter at all) is not treated specially *)
  Definition regularization_loss (p : P) (laplace_scale gaussian_scale : option T) : T :=
    let total_laplace := fold_left (fun a w => a + nsum (map nabs w)) (reg_params p) (nofZ 0) in      (* 412 *)
    let total_gaussian := fold_left (fun a w => a + nsum (map nsqr w)) (reg_params p) (nofZ 0) in     (* 414 *)
    let total := nofZ 0 in
    let total := match laplace_scale with Some l => total + (- total_laplace) / l | None => total end in
    match gaussian_scale with Some g => total + (- total_gaussian) / (nofZ 2 * nsqr g) | None => total end.

  (** ** flow.py:165-181, the options of fit *)
  Record fit_config := {
    c_validation_split : T; c_epochs : Z; c_batch_size : Z; c_patience : Z; c_learning_rate : T; c_weight_decay : T;
    c_laplace_scale : option T; c_gaussian_scale : option T; c_annealing : bool; c_noise : option T; c_shuffle : bool;
    c_clip_grad_norm : T; c_verbose : Z
  }.
  Variable c : fit_config.

  (** Random numbers: torch.randperm, the permutations of the two DataLoaders
      at each epoch (false: training, true: validation) and the normal
      numbers of torch.randn_like for each epoch and batch. *)
  Record fit_rand := { fr_perm : list nat; fr_loader : bool -> nat -> list nat; fr_noise : bool -> nat -> nat -> mat T }.
  Variable rnd : fit_rand.

  (** flow.py:240-245: torch.min of an empty selection raises; min_dist of the
      last pass is what line 245 averages (undefined variable when there is
      no sample: NameError, here AttributeError). *)
  Definition norm (v : vec T) : T := nsqrt (nsum (map nsqr v)).
  Definition dists_from (x : mat T) (xi : vec T) : vec T := map (fun y => norm (vsub xi y)) x.          (* 243 *)
  Definition nminimum (l : vec T) : option T :=
    match l with [] => None | a :: r => Some (fold_left nmin2 r a) end.
  Definition mean_min_dist (x : mat T) : res T :=
    let! _ := mapM (fun xi => of_option RuntimeError (nminimum (filter (fun d => nofZ 0 <? d) (dists_from x xi)))) x in  (* 242-244 *)
    match x with
    | [] => Err AttributeError
    | a :: r => Ok (nmean (dists_from x (last r a)))                                                    (* 245 *)
    end.

  (** flow.py:234-238 *)
  Definition shuffled {A} (l : list A) : res (list A) := if c_shuffle c then gather l (fr_perm rnd) else Ok l.

  (** flow.py:247-266: training and validation sets.  A TensorDataset of
      tensors of different lengths is refused (AssertionError, here
      ValueError). *)
  Definition dataset := list (vec T * option T).
  Definition tensor_dataset (x : mat T) (w : option (vec T)) : res dataset :=
    match w with
    | None => Ok (map (fun a => (a, None)) x)
    | Some w => if Nat.eqb (length x) (length w) then Ok (combine x (map Some w)) else Err ValueError
    end.
  Definition slice_to {A} (k : Z) (l : list A) : list A := firstn (Z.to_nat k) l.
  Definition slice_from {A} (k : Z) (l : list A) : list A := skipn (Z.to_nat k) l.
  Definition split (x : mat T) (w : option (vec T)) : res (dataset * option dataset) :=
    if nofZ 0 <? c_validation_split c then
      let! k := of_option ValueError (ntrunc (c_validation_split c * nofZ (Z.of_nat (length x)))) in    (* 248 *)
      let! train := tensor_dataset (slice_to k x) (option_map (slice_to k) w) in                       (* 248, 254 *)
      let! valid := tensor_dataset (slice_from k x) (option_map (slice_from k) w) in                   (* 249, 255 *)
      Ok (train, Some valid)
    else
      let! train := tensor_dataset x w in Ok (train, None).

  (** DataLoader: batches of batch_size consecutive items, reshuffled at each
      epoch if asked; ValueError unless batch_size is positive. *)
  Fixpoint chunks {A} (fuel b : nat) (l : list A) : list (list A) :=
    match fuel, l with
    | S f, _ :: _ => firstn b l :: chunks f b (skipn b l)
    | _, _ => []
    end.
  Definition loader (ds : dataset) (valid : bool) (epoch : nat) : res (list dataset) :=
    let! l := (if c_shuffle c then gather ds (fr_loader rnd valid epoch) else Ok ds) in
    Ok (chunks (length l) (Z.to_nat (c_batch_size c)) l).

  (** flow.py:304-315 and 333-344: the loss of one batch as a function of the
      parameters *)
  Definition batch_points (amp : option T) (z : mat T) (b : dataset) : mat T :=
    match amp with
    | None => map fst b
    | Some a => map2 (fun q zi => vadd (fst q) (vscale a zi)) b z                                      (* 307 *)
    end.
  Definition batch_loss (weighted : bool) (xs : mat T) (b : dataset) (p : P) : T :=
    let loss :=
      if weighted then
        let ws := map (fun q => match snd q with Some w => w | None => nofZ 0 end) b in
        nsum (map2 (fun x w => (- f_log_prob o p x) * w * nofZ 1000) xs ws) / nsum ws                  (* 311-312 *)
      else - nsum (map (f_log_prob o p) xs) in                                                         (* 309 *)
    match c_laplace_scale c, c_gaussian_scale c with
    | None, None => loss
    | _, _ => loss - regularization_loss p (c_laplace_scale c) (c_gaussian_scale c)                    (* 315 *)
    end.

  (** flow.py:301-321 *)
  Fixpoint train_batches (weighted : bool) (amp : option T) (epoch k : nat) (bs : list dataset) (st : Opt) (p : P) (acc : T) : Opt * P * T :=
    match bs with
    | [] => (st, p, acc)
    | b :: bs' =>
      let loss := batch_loss weighted (batch_points amp (fr_noise rnd false epoch k) b) b in
      let (st', p') := f_step o (c_clip_grad_norm c) st p loss in                                      (* 317-319 *)
      train_batches weighted amp epoch (S k) bs' st' p' (acc + loss p)                                 (* 321 *)
    end.
  (** flow.py:331-346 *)
  Fixpoint valid_batches (weighted : bool) (amp : option T) (epoch k : nat) (bs : list dataset) (p : P) (acc : T) : T :=
    match bs with
    | [] => acc
    | b :: bs' =>
      valid_batches weighted amp epoch (S k) bs' p
        (acc + batch_loss weighted (batch_points amp (fr_noise rnd true epoch k) b) b p)
    end.

  Definition per_item (loss : T) (ds : dataset) : res T :=                                             (* 323, 348 *)
    match ds with [] => Err ZeroDivisionError | _ => Ok (loss / nofZ (Z.of_nat (length ds))) end.

  (** The variables of the epoch loop. *)
  Record fstate := { fs_opt : Opt; fs_params : P; fs_loss : vec T; fs_val : vec T; fs_best_epoch : nat; fs_best_loss : T; fs_best : P }.

  (** flow.py:298-355: one epoch up to the monitoring; also the monitored loss *)
  Definition epoch_pass (train : dataset) (valid : option dataset) (weighted : bool) (amp : option T) (epoch : nat) (s : fstate)
    : res (fstate * T) :=
    let! bs := loader train false epoch in
    let '(st, p, tl) := train_batches weighted amp epoch 0 bs (fs_opt s) (fs_params s) (nofZ 0) in
    let! train_loss := per_item tl train in                                                            (* 323 *)
    let! (hv, monitored) :=
      match valid with
      | None => Ok (fs_val s, train_loss)
      | Some v =>
        let! vbs := loader v true epoch in
        let! val_loss := per_item (valid_batches weighted amp epoch 0 vbs p (nofZ 0)) v in             (* 348 *)
        Ok (fs_val s ++ [val_loss], val_loss)
      end in
    let st := if c_annealing c then f_schedule o st monitored else st in                               (* 352-355 *)
    Ok ({| fs_opt := st; fs_params := p; fs_loss := fs_loss s ++ [train_loss]; fs_val := hv;
           fs_best_epoch := fs_best_epoch s; fs_best_loss := fs_best_loss s; fs_best := fs_best s |}, monitored).

  (** flow.py:364-367 *)
  Definition monitor (epoch : nat) (m : T) (s : fstate) : fstate :=
    if m <? fs_best_loss s then
      {| fs_opt := fs_opt s; fs_params := fs_params s; fs_loss := fs_loss s; fs_val := fs_val s;
         fs_best_epoch := epoch; fs_best_loss := m; fs_best := fs_params s |}
    else s.
  (** flow.py:369: int(1.5 * patience) *)
  Definition stop_after : Z := Z.quot (3 * c_patience c) 2.

  (** flow.py:297-374; second component: whether the loop broke early *)
  Fixpoint epoch_loop (train : dataset) (valid : option dataset) (weighted : bool) (amp : option T) (fuel epoch : nat) (s : fstate)
    : res (fstate * bool) :=
    match fuel with
    | O => Ok (s, false)
    | S fuel' =>
      let! (s, m) := epoch_pass train valid weighted amp epoch s in
      let s := monitor epoch m s in
      if (stop_after <=? Z.of_nat epoch - Z.of_nat (fs_best_epoch s))%Z then
        Ok ({| fs_opt := fs_opt s; fs_params := fs_best s; fs_loss := fs_loss s; fs_val := fs_val s;
               fs_best_epoch := fs_best_epoch s; fs_best_loss := fs_best_loss s; fs_best := fs_best s |}, true)   (* 370 *)
      else epoch_loop train valid weighted amp fuel' (S epoch) s
    end.

  (** flow.py:230-266: shuffle, noise amplitude, training and validation sets *)
  Definition prepare (x : mat T) (weights : option (vec T)) : res (dataset * option dataset * option T) :=
    let! x := shuffled x in                                                                            (* 234-236 *)
    let! weights := match weights with None => Ok None | Some w => let! w := shuffled w in Ok (Some w) end in  (* 237-238 *)
    let! amp := match c_noise c with
                | None => Ok None
                | Some noise => let! m := mean_min_dist x in Ok (Some (noise * m))                     (* 240-245 *)
                end in
    let! (train, valid) := split x weights in
    let! _ := (if (0 <? c_batch_size c)%Z then Ok tt else Err ValueError) in
    Ok (train, valid, amp).

  (** flow.py:268-293: the variables before the loop *)
  Definition fit_start (p : P) : fstate :=
    {| fs_opt := f_adamw o (c_learning_rate c) (c_weight_decay c); fs_params := p; fs_loss := []; fs_val := [];
       fs_best_epoch := 0; fs_best_loss := ninf; fs_best := p |}.

  (** flow.py:165-384 fit: the new parameters, the history (loss, val_loss),
      and whether training stopped early.  time_per_epoch_sec (379) divides
      by epochs when verbose. *)
  Definition flow_fit (p : P) (x : mat T) (weights : option (vec T)) : res (P * (vec T * vec T) * bool) :=
    let! (train, valid, amp) := prepare x weights in
    let weighted := match weights with Some _ => true | None => false end in
    let! (s, early) := epoch_loop train valid weighted amp (Z.to_nat (c_epochs c)) 0 (fit_start p) in
    let! _ := (if (0 <? c_verbose c)%Z && (c_epochs c =? 0)%Z then Err ZeroDivisionError else Ok tt) in (* 379 *)
    Ok (fs_params s, (fs_loss s, fs_val s), early).
End Fit.
Arguments flow_oracles : clear implicits.
Arguments fit_config : clear implicits.
Arguments fit_rand : clear implicits.
Arguments fstate : clear implicits.

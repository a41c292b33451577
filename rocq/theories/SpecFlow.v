(** * Small specifications for flow.py *)
From Coq Require Import Reals ZArith String List Permutation.
From Verif Require Import Num PyBase XReal Flow.
Import ListNotations.
Open Scope R_scope.

(** Euclidean distance. *)
Fixpoint sq_dist (a b : list R) : R :=
  match a, b with x :: a', y :: b' => (x - y) ^ 2 + sq_dist a' b' | _, _ => 0 end.
Definition distance (a b : list R) : R := sqrt (sq_dist a b).

(** [b] is the position of the first smallest entry of ms that is below
    +infinity; NaN entries never count. *)
Definition first_smallest (ms : list X) (b : nat) : Prop :=
  (b < length ms)%nat /\ xltb (nth b ms NaN) PInf = true /\
  (forall j, (j < length ms)%nat -> xltb (nth j ms NaN) (nth b ms NaN) = false) /\
  (forall j, (j < b)%nat -> xleb (nth j ms NaN) (nth b ms NaN) = false).
Definition none_below_inf (ms : list X) : Prop := forall j, (j < length ms)%nat -> xltb (nth j ms NaN) PInf = false.

(** Training for exactly n epochs, with no early stopping: the parameters
    after each epoch and the monitored losses. *)
Section Plain.
  Context {T P Opt : Type} {NT : NumT T} (epoch : nat -> fstate T P Opt -> res (fstate T P Opt * T)) (s0 : fstate T P Opt).
  Fixpoint plain (n : nat) : res (fstate T P Opt * list T) :=
    match n with
    | O => Ok (s0, [])
    | S n' => let! (s, ms) := plain n' in let! (s', m) := epoch n' s in Ok (s', ms ++ [m])
    end.
End Plain.

(** Where the best epoch is: the first smallest loss, or epoch 0 when no loss
    was below infinity. *)
Definition best_position (ms : list X) (b : nat) : Prop := first_smallest ms b \/ (none_below_inf ms /\ b = 0%nat).

(** [d] epochs without improvement are at least 1.5 * patience, rounded down. *)
Definition waited (patience d : Z) : Prop := (3 * patience < 2 * (d + 1))%Z.

(** All entries of the hyper-network parameters whose name ends in "weight",
    for networks with real parameters. *)
Definition hyper_weights (ts : list (option (list (String.string * list R)))) : list R :=
  flat_map (fun t => match t with
                     | None => []
                     | Some ps => flat_map (fun q => if endswith (fst q) "weight"%string then snd q else []) ps
                     end) ts.
(** The penalty of the documentation. *)
Definition penalty (laplace gaussian : option R) (ws : list R) : R :=
  (match laplace with Some l => fold_right Rplus 0 (map Rabs ws) / l | None => 0 end) +
  (match gaussian with Some g => fold_right Rplus 0 (map (fun w => w ^ 2) ws) / (2 * g ^ 2) | None => 0 end).

(** The same options without regularisation. *)
Definition no_scales {T} (c : fit_config T) : fit_config T :=
  {| c_validation_split := c_validation_split c; c_epochs := c_epochs c; c_batch_size := c_batch_size c; c_patience := c_patience c;
     c_learning_rate := c_learning_rate c; c_weight_decay := c_weight_decay c; c_laplace_scale := None; c_gaussian_scale := None;
     c_annealing := c_annealing c; c_noise := c_noise c; c_shuffle := c_shuffle c; c_clip_grad_norm := c_clip_grad_norm c;
     c_verbose := c_verbose c |}.

(** d is the distance from a to its nearest neighbour among xs. *)
Definition is_nearest (xs : list (list R)) (a : list R) (d : R) : Prop :=
  (exists b, In b xs /\ b <> a /\ distance a b = d) /\ (forall b, In b xs -> b <> a -> d <= distance a b).

(** The names of the predefined flows: a family and a number of transforms. *)
Definition name_of (f : family) (k : nat) : String.string :=
  String.append (match f with MAF => "maf" | NSF => "nsf" end)%string
    (match k with 3%nat => "3" | 6%nat => "6" | _ => "12" end)%string.

(** The permutation drawn by torch.randperm is one. *)
Definition good_perm {T} (c : fit_config T) (rnd : fit_rand T) (n : nat) : Prop :=
  c_shuffle c = true -> Permutation (fr_perm rnd) (seq 0 n).
(** The samples, each with its weight. *)
Definition weighted_samples {T} (x : mat T) (w : option (vec T)) : list (vec T * option T) :=
  match w with None => map (fun a => (a, None)) x | Some w => combine x (map Some w) end.

(** A network with real parameters, seen in the extended reals. *)
Definition fin_transforms (ts : list (option (list (String.string * list R)))) : list (option (list (String.string * list X))) :=
  map (option_map (map (fun q => (fst q, map Fin (snd q))))) ts.

(** * Model of pocomc/tools.py *)
From Coq Require Import ZArith List Bool.
From Verif Require Import Num PyBase.
Import ListNotations.
Open Scope num_scope.

Section Tools.
  Context {T : Type} {N : Num T}.

  (** tools.py:7  SQRTEPS = math.sqrt(eps) with eps = 2^-52, i.e. 2^-26. *)
  Definition SQRTEPS : T := nofZ 1 / nofZ (2 ^ 26).

  (** The in-place statement [weights /= np.sum(weights)]
      (tools.py:34, 47, 70, 92; sampler.py:781): the new content of the array. *)
  Definition normalise (weights : list T) : list T :=
    map (fun w => w / nsum weights) weights.

  (** tools.py:56-71 effective_sample_size.  Second component: the content of
      the caller's array afterwards (it is normalised in place, line 70). *)
  Definition effective_sample_size (weights : list T) : T * list T :=
    let weights := normalise weights in
    (nofZ 1 / nsum (map nsqr weights), weights).

  (** tools.py:74-93 unique_sample_size; same convention. *)
  Definition unique_sample_size (weights : list T) (k : option nat) : T * list T :=
    let k := match k with None => length weights | Some k => k end in
    let weights := normalise weights in
    (nsum (map (fun w => nofZ 1 - npown (nofZ 1 - w) k) weights), weights).

  (** numpy: np.linspace(0, 99, bins), used at tools.py:38. *)
  Definition linspace_0_99 (bins : nat) : list T :=
    match bins with
    | 1%nat => [nofZ 0]
    | _ => map (fun i => nofZ (Z.of_nat i) * (nofZ 99 / nofZ (Z.of_nat bins - 1))) (seq 0 bins)
    end.

  (** numpy: ascending sort (insertion sort here). *)
  Fixpoint insert_sorted (x : T) (l : list T) : list T :=
    match l with
    | [] => [x]
    | y :: r => if x <=? y then x :: l else y :: insert_sorted x r
    end.
  Definition np_sort (l : list T) : list T := fold_right insert_sorted [] l.

  (** numpy: np.percentile(l, p) with linear interpolation, used at tools.py:44;
      NaN if the data contain a NaN; [None] (IndexError) for empty data. *)
  Definition percentile (l : list T) (p : T) : option T :=
    match l with
    | [] => None
    | _ =>
      if existsb nisnan l then Some (nofZ 0 / nofZ 0)
      else
        let s := np_sort l in
        let n := length l in
        let h := nofZ (Z.of_nat n - 1) * (p / nofZ 100) in
        match ntrunc h with
        | None => None
        | Some lo =>
          match nth_error s (Z.to_nat lo),
                nth_error s (Nat.min (S (Z.to_nat lo)) (n - 1)) with
          | Some a, Some b => Some (a + (b - a) * (h - nofZ lo))
          | _, _ => None
          end
        end
    end.

  (** tools.py:41-51, the while loop of trim_weights.  [i] is the Python
      variable i; percentiles[i] wraps around for negative i and raises
      IndexError below -bins. *)
  Fixpoint trim_loop (fuel : nat) (i : Z) (percentiles weights : list T) (ess_total ess : T)
    : res (list bool * list T) :=
    match fuel with
    | O => Err Diverge
    | S fuel' =>
      let! p := of_option IndexError (py_index percentiles i) in                    (* 42 *)
      let! threshold := of_option IndexError (percentile weights p) in              (* 44 *)
      let mask := map (fun w => threshold <=? w) weights in                         (* 45 *)
      let weights_trimmed := compress mask weights in                               (* 46 *)
      let weights_trimmed := normalise weights_trimmed in                           (* 47 *)
      let ess_trimmed := nofZ 1 / nsum (map nsqr weights_trimmed) in                (* 48 *)
      if ess <=? ess_trimmed / ess_total then Ok (mask, weights_trimmed)            (* 49-50 *)
      else trim_loop fuel' (i - 1)%Z percentiles weights ess_total ess              (* 51 *)
    end.

  (** tools.py:10-53 trim_weights.  Result: trimmed samples, trimmed weights and
      the content of the caller's [weights] array afterwards (line 34).  The
      fuel 2*bins+1 is enough: the index leaves [-bins, bins) by then
      ([trim_loop_not_diverge]). *)
  Definition trim_weights {A} (samples : list A) (weights : list T) (ess : T) (bins : nat)
    : res (list A * list T * list T) :=
    let weights := normalise weights in                                             (* 34 *)
    let ess_total := nofZ 1 / nsum (map nsqr weights) in                            (* 36 *)
    let percentiles := linspace_0_99 bins in                                        (* 38 *)
    let! (mask, weights_trimmed) :=
      trim_loop (2 * bins + 1) (Z.of_nat bins - 1) percentiles weights ess_total ess in
    Ok (compress mask samples, weights_trimmed, weights).                           (* 53 *)

  (** tools.py:180-183: the inner while loop; [rest] are the weights after j. *)
  Fixpoint advance (pos : T) (j : nat) (cumulative_sum : T) (rest : list T)
    : res (nat * T * list T) :=
    if cumulative_sum <? pos then                                                   (* 181 *)
      match rest with
      | [] => Err IndexError                                                        (* weights[j] *)
      | w :: rest' => advance pos (S j) (cumulative_sum + w) rest'                  (* 182-183 *)
      end
    else Ok (j, cumulative_sum, rest).

  Fixpoint systematic_loop (positions : list T) (j : nat) (cumulative_sum : T) (rest : list T)
    : res (list nat) :=
    match positions with
    | [] => Ok []
    | pos :: positions' =>
      let! (j, cumulative_sum, rest) := advance pos j cumulative_sum rest in
      let! r := systematic_loop positions' j cumulative_sum rest in
      Ok (j :: r)                                                                   (* 184 *)
    end.

  (** tools.py:136-186 systematic_resample; [offset] is the value of
      np.random.random() (line 175). *)
  Definition systematic_resample (offset : T) (size : nat) (weights : list T) : res (list nat) :=
    let weights :=
      if SQRTEPS <? nabs (nsum weights - nofZ 1) then normalise weights else weights in  (* 172-173 *)
    let positions :=
      map (fun i => (offset + nofZ (Z.of_nat i)) / nofZ (Z.of_nat size)) (seq 0 size) in (* 175 *)
    match weights with
    | [] => Err IndexError                                                          (* 178 *)
    | w0 :: rest => systematic_loop positions 0 w0 rest
    end.

  (** numpy: RandomState.choice(arange(n), size, replace=True, p=weights), used
      at sampler.py:703, 991: checks, cumulative sum, then searchsorted
      (side='right') of uniform draws [us] in the normalised cdf. *)
  Fixpoint cumsum (acc : T) (l : list T) : list T :=
    match l with [] => [] | w :: r => (acc + w) :: cumsum (acc + w) r end.
  Definition searchsorted_right (cdf : list T) (v : T) : nat :=
    length (filter (fun c => c <=? v) cdf).
  Definition random_choice (us : list T) (weights : list T) : res (list nat) :=
    if existsb nisnan weights then Err ValueError
    else if existsb (fun w => w <? nofZ 0) weights then Err ValueError
    else if SQRTEPS <? nabs (nsum weights - nofZ 1) then Err ValueError
    else
      let cdf := cumsum (nofZ 0) weights in
      let total := last cdf (nofZ 0) in
      let cdf := map (fun c => c / total) cdf in
      Ok (map (searchsorted_right cdf) us).
End Tools.

Section ToolsT.
  Context {T : Type} {NT : NumT T}.

  (** tools.py:96-114 compute_ess; [None] = ValueError of np.max on no data. *)
  Definition compute_ess (logw : list T) : res T :=
    let! logw_max := of_option ValueError (nmaximum logw) in
    let logw_normed := map (fun l => l - logw_max) logw in
    let weights := map (fun l => nexp l / nsum (map nexp logw_normed)) logw_normed in
    Ok (nofZ 1 / nsum (map (fun w => w * w) weights) / nofZ (Z.of_nat (length weights))).

  (** tools.py:117-133 increment_logz. *)
  Definition increment_logz (logw : list T) : res T :=
    let! logw_max := of_option ValueError (nmaximum logw) in
    let logw_normed := map (fun l => l - logw_max) logw in
    Ok (logw_max + nlse logw_normed).
End ToolsT.

(** tools.py:227-260 FunctionWrapper: extra positional and keyword arguments
    ([None] meaning no extra arguments) are appended to every call. *)
Section FunctionWrapper.
  Context {Arg Args Kwargs Res : Type} (no_args : Args) (no_kwargs : Kwargs).
  Record wrapper := { fw_f : Arg -> Args -> Kwargs -> Res; fw_args : Args; fw_kwargs : Kwargs }.
  Definition FunctionWrapper (f : Arg -> Args -> Kwargs -> Res) (args : option Args) (kwargs : option Kwargs) : wrapper :=
    {| fw_f := f;
       fw_args := match args with None => no_args | Some a => a end;
       fw_kwargs := match kwargs with None => no_kwargs | Some k => k end |}.
  Definition fw_call (w : wrapper) (x : Arg) : Res := fw_f w x (fw_args w) (fw_kwargs w).
End FunctionWrapper.

(** tools.py:295-316 torch_double_to_float on dtypes. *)
Inductive dtype := float16 | bfloat16 | float32 | float64 | int32 | int64 | other_dtype.
Record tensor (D : Type) := { t_dtype : dtype; t_data : D }.
Arguments t_dtype {D}. Arguments t_data {D}. Arguments Build_tensor {D}.
Definition torch_double_to_float {D} (to_float32 : D -> D) (x : tensor D) (warn : bool)
  : res (tensor D * bool (* warning emitted *)) :=
  match t_dtype x, warn with
  | float64, true => Ok ({| t_dtype := float32; t_data := to_float32 (t_data x) |}, true)
  | float32, _ => Ok (x, false)
  | _, _ => Err ValueError
  end.

(** * Model of pocomc/particles.py *)
From Coq Require Import String ZArith List Bool.
From Verif Require Import Num PyBase.
Import ListNotations.
Open Scope list_scope.

(** particles.py:73-89: the fifteen keys of [past]. *)
Inductive key :=
| Ku | Kx | Klogdetj | Klogl | Klogp | Klogw | Kblobs | Kiter | Klogz | Kcalls
| Ksteps | Kefficiency | Kess | Kaccept | Kbeta.

Definition key_eq_dec (a b : key) : {a = b} + {a <> b}.
Proof. decide equality. Defined.

Section Particles.
  Context {T B : Type}.

  (** What the sampler stores under each key (sampler.py:470-473, 619-629,
      793-803): arrays for the particle properties, one number per iteration
      for the rest.  [blobs] is None when the likelihood returns no blobs.
      Simplification: dtypes are not modelled; [ess] is stored as a number even
      during warm-up, where Python stores the integer n_effective. *)
  Definition val (k : key) : Type :=
    match k with
    | Ku | Kx => mat T
    | Klogdetj | Klogl | Klogp | Klogw => vec T
    | Kblobs => option (list B)
    | Kiter | Kcalls | Ksteps => Z
    | Klogz | Kefficiency | Kess | Kaccept | Kbeta => T
    end.

  (** particles.py:73-89 [self.past]: one list per key, oldest first. *)
  Record past := {
    h_u : list (mat T); h_x : list (mat T);
    h_logdetj : list (vec T); h_logl : list (vec T); h_logp : list (vec T); h_logw : list (vec T);
    h_blobs : list (option (list B));
    h_iter : list Z; h_logz : list T; h_calls : list Z; h_steps : list Z;
    h_efficiency : list T; h_ess : list T; h_accept : list T; h_beta : list T
  }.

  (** particles.py:73-89 *)
  Definition empty_past : past :=
    {| h_u := []; h_x := []; h_logdetj := []; h_logl := []; h_logp := []; h_logw := []; h_blobs := [];
       h_iter := []; h_logz := []; h_calls := []; h_steps := []; h_efficiency := []; h_ess := [];
       h_accept := []; h_beta := [] |}.

  (** [self.past.get(key)] *)
  Definition lookup (p : past) (k : key) : list (val k) :=
    match k return list (val k) with
    | Ku => h_u p | Kx => h_x p | Klogdetj => h_logdetj p | Klogl => h_logl p | Klogp => h_logp p
    | Klogw => h_logw p | Kblobs => h_blobs p | Kiter => h_iter p | Klogz => h_logz p
    | Kcalls => h_calls p | Ksteps => h_steps p | Kefficiency => h_efficiency p | Kess => h_ess p
    | Kaccept => h_accept p | Kbeta => h_beta p
    end.

  (** the dictionary with the list under [k] replaced *)
  Definition store (p : past) (k : key) : list (val k) -> past :=
    match k return list (val k) -> past with
    | Ku => fun l => Build_past l (h_x p) (h_logdetj p) (h_logl p) (h_logp p) (h_logw p) (h_blobs p) (h_iter p) (h_logz p) (h_calls p) (h_steps p) (h_efficiency p) (h_ess p) (h_accept p) (h_beta p)
    | Kx => fun l => Build_past (h_u p) l (h_logdetj p) (h_logl p) (h_logp p) (h_logw p) (h_blobs p) (h_iter p) (h_logz p) (h_calls p) (h_steps p) (h_efficiency p) (h_ess p) (h_accept p) (h_beta p)
    | Klogdetj => fun l => Build_past (h_u p) (h_x p) l (h_logl p) (h_logp p) (h_logw p) (h_blobs p) (h_iter p) (h_logz p) (h_calls p) (h_steps p) (h_efficiency p) (h_ess p) (h_accept p) (h_beta p)
    | Klogl => fun l => Build_past (h_u p) (h_x p) (h_logdetj p) l (h_logp p) (h_logw p) (h_blobs p) (h_iter p) (h_logz p) (h_calls p) (h_steps p) (h_efficiency p) (h_ess p) (h_accept p) (h_beta p)
    | Klogp => fun l => Build_past (h_u p) (h_x p) (h_logdetj p) (h_logl p) l (h_logw p) (h_blobs p) (h_iter p) (h_logz p) (h_calls p) (h_steps p) (h_efficiency p) (h_ess p) (h_accept p) (h_beta p)
    | Klogw => fun l => Build_past (h_u p) (h_x p) (h_logdetj p) (h_logl p) (h_logp p) l (h_blobs p) (h_iter p) (h_logz p) (h_calls p) (h_steps p) (h_efficiency p) (h_ess p) (h_accept p) (h_beta p)
    | Kblobs => fun l => Build_past (h_u p) (h_x p) (h_logdetj p) (h_logl p) (h_logp p) (h_logw p) l (h_iter p) (h_logz p) (h_calls p) (h_steps p) (h_efficiency p) (h_ess p) (h_accept p) (h_beta p)
    | Kiter => fun l => Build_past (h_u p) (h_x p) (h_logdetj p) (h_logl p) (h_logp p) (h_logw p) (h_blobs p) l (h_logz p) (h_calls p) (h_steps p) (h_efficiency p) (h_ess p) (h_accept p) (h_beta p)
    | Klogz => fun l => Build_past (h_u p) (h_x p) (h_logdetj p) (h_logl p) (h_logp p) (h_logw p) (h_blobs p) (h_iter p) l (h_calls p) (h_steps p) (h_efficiency p) (h_ess p) (h_accept p) (h_beta p)
    | Kcalls => fun l => Build_past (h_u p) (h_x p) (h_logdetj p) (h_logl p) (h_logp p) (h_logw p) (h_blobs p) (h_iter p) (h_logz p) l (h_steps p) (h_efficiency p) (h_ess p) (h_accept p) (h_beta p)
    | Ksteps => fun l => Build_past (h_u p) (h_x p) (h_logdetj p) (h_logl p) (h_logp p) (h_logw p) (h_blobs p) (h_iter p) (h_logz p) (h_calls p) l (h_efficiency p) (h_ess p) (h_accept p) (h_beta p)
    | Kefficiency => fun l => Build_past (h_u p) (h_x p) (h_logdetj p) (h_logl p) (h_logp p) (h_logw p) (h_blobs p) (h_iter p) (h_logz p) (h_calls p) (h_steps p) l (h_ess p) (h_accept p) (h_beta p)
    | Kess => fun l => Build_past (h_u p) (h_x p) (h_logdetj p) (h_logl p) (h_logp p) (h_logw p) (h_blobs p) (h_iter p) (h_logz p) (h_calls p) (h_steps p) (h_efficiency p) l (h_accept p) (h_beta p)
    | Kaccept => fun l => Build_past (h_u p) (h_x p) (h_logdetj p) (h_logl p) (h_logp p) (h_logw p) (h_blobs p) (h_iter p) (h_logz p) (h_calls p) (h_steps p) (h_efficiency p) (h_ess p) l (h_beta p)
    | Kbeta => fun l => Build_past (h_u p) (h_x p) (h_logdetj p) (h_logl p) (h_logp p) (h_logw p) (h_blobs p) (h_iter p) (h_logz p) (h_calls p) (h_steps p) (h_efficiency p) (h_ess p) (h_accept p) l
    end.

  (** One entry of the dictionary passed to update; keys outside [past] (the
      sampler passes "weights") carry no usable value. *)
  Inductive item := Known (k : key) (v : val k) | Unknown (name : string).

  (** particles.py:93-148 update; the dictionary in iteration order. *)
  Fixpoint update (p : past) (data : list item) : past :=
    match data with
    | [] => p
    | Known k v :: data' => update (store p k (lookup p k ++ [v])) data'         (* 144-148 *)
    | Unknown _ :: data' => update p data'                                         (* 145 *)
    end.

  (** particles.py:150-164 pop *)
  Definition pop (p : past) (k : key) : res past :=
    match lookup p k with
    | [] => Err IndexError
    | _ => Ok (store p k (removelast (lookup p k)))
    end.

  (** particles.py:205-209 get(key): np.asarray of the list.
      Simplification: numpy's error for ragged lists is not modelled. *)
  Definition get (p : past) (k : key) : list (val k) := lookup p k.

  (** particles.py:213 get(key, index=i) *)
  Definition get_index (p : past) (k : key) (i : Z) : res (val k) := of_option IndexError (py_index (lookup p k) i).

  (** the rows of one stored value; None for a number (or None), which numpy
      refuses to concatenate *)
  Definition elt (k : key) : Type :=
    match k with
    | Ku | Kx => vec T
    | Klogdetj | Klogl | Klogp | Klogw => T
    | Kblobs => B
    | _ => Empty_set
    end.
  Definition rows_of (k : key) : val k -> option (list (elt k)) :=
    match k return val k -> option (list (elt k)) with
    | Ku | Kx => fun v => Some v
    | Klogdetj | Klogl | Klogp | Klogw => fun v => Some v
    | Kblobs => fun v => v
    | _ => fun _ => None
    end.

  (** particles.py:207 get(key, flat=True): np.concatenate, ValueError for an
      empty list and for zero-dimensional entries. *)
  Definition get_flat (p : past) (k : key) : res (list (elt k)) :=
    match lookup p k with
    | [] => Err ValueError
    | l => let! cs := mapM (fun v => of_option ValueError (rows_of k v)) l in Ok (concat cs)
    end.
End Particles.
Arguments past : clear implicits.
Arguments item : clear implicits.
Arguments val : clear implicits.
Arguments elt : clear implicits.

Section Weights.
  Context {T B : Type} {NT : NumT T}.
  Open Scope num_scope.

  (** particles.py:222-223: log of the mixture density at one log-likelihood *)
  Definition log_mixture (beta logz : list T) (l : T) : T :=
    nlse (map2 (fun b z => l * b - z) beta logz) - nlog (nofZ (Z.of_nat (length beta))).

  (** particles.py:215-231 compute_logw_and_logz.
      logz[i] (line 221) raises IndexError if fewer logz than beta are stored;
      np.concatenate (line 225) raises ValueError on an empty history.
      Simplification: rows of unequal length (numpy refuses them) are accepted. *)
  Definition compute_logw_and_logz (p : past T B) (beta_final : T) (normalize : bool) : res (vec T * T) :=
    let logz := h_logz p in                                                        (* 217 *)
    let logl := h_logl p in                                                        (* 218 *)
    let beta := h_beta p in                                                        (* 219 *)
    if Nat.ltb (length logz) (length beta) then Err IndexError                     (* 222 *)
    else
      let logw := map (map (fun l => l * beta_final - log_mixture beta logz l)) logl in  (* 221-224 *)
      match logw with
      | [] => Err ValueError                                                       (* 225 *)
      | _ =>
        let logw := concat logw in                                                 (* 225 *)
        let logz_new := nlse logw - nlog (nofZ (Z.of_nat (length logw))) in        (* 226 *)
        let logw := if normalize then map (fun l => l - nlse logw) logw else logw in  (* 228-229 *)
        Ok (logw, logz_new)
      end.

  (** The dictionary built by compute_results: the history as it is, with
      "logw" replaced by the flat weights once those have been computed
      ([None] if computing them raised: the dictionary then still holds the
      per-iteration entries of [past]). *)
  Record results := { r_past : past T B; r_logw : option (vec T) }.

  (** particles.py:69-91 *)
  Record particles := { p_past : past T B; p_results : option results }.
  Definition new_particles : particles := {| p_past := empty_past; p_results := None |}.

  (** particles.py:233-301 compute_results: result and new state.  The cache is
      assigned (line 290) before the weights are computed (line 294), so it is
      not None any more even if that raises. *)
  Definition compute_results (s : particles) : res results * particles :=
    match p_results s with
    | Some r => (Ok r, s)                                                          (* 289, 301 *)
    | None =>
      match compute_logw_and_logz (p_past s) (nofZ 1) true with                    (* 295 *)
      | Ok (logw, _) =>
        let r := {| r_past := p_past s; r_logw := Some logw |} in
        (Ok r, {| p_past := p_past s; p_results := Some r |})
      | Err e => (Err e, {| p_past := p_past s; p_results := Some {| r_past := p_past s; r_logw := None |} |})
      end
    end.

  Definition particles_update (s : particles) (data : list (item T B)) : particles :=
    {| p_past := update (p_past s) data; p_results := p_results s |}.
End Weights.
Arguments results : clear implicits.
Arguments particles : clear implicits.

(** * Specifications for the particle history *)
From Coq Require Import Reals String ZArith List Bool.
From Verif Require Import Num PyBase XReal Particles SpecTools.
Import ListNotations.

(** A history of calls on a Particles object. *)
Inductive call T B := Update (data : list (item T B)) | Pop (k : key).
Arguments Update {T B}. Arguments Pop {T B}.

(** The values a dictionary supplies under key [k]. *)
Fixpoint supplied {T B} (k : key) (data : list (item T B)) : list (val T B k) :=
  match data with
  | [] => []
  | Known k' v :: data' =>
      match key_eq_dec k' k with
      | left e => eq_rect k' (val T B) v k e :: supplied k data'
      | right _ => supplied k data'
      end
  | Unknown _ :: data' => supplied k data'
  end.

(** What a user expects under key [k] after the calls: everything supplied, in
    order, minus the last one for each pop of that key. *)
Fixpoint expected {T B} (k : key) (calls : list (call T B)) (acc : list (val T B k)) : list (val T B k) :=
  match calls with
  | [] => acc
  | Update d :: calls' => expected k calls' (acc ++ supplied k d)
  | Pop k' :: calls' => expected k calls' (if key_eq_dec k' k then removelast acc else acc)
  end.

(** Performing the calls on an object. *)
Fixpoint perform {T B} (p : past T B) (calls : list (call T B)) : res (past T B) :=
  match calls with
  | [] => Ok p
  | Update d :: calls' => perform (update p d) calls'
  | Pop k :: calls' => let! p' := pop p k in perform p' calls'
  end.

(** Any later sequence of calls on a Particles object: [Some d] is update(d),
    [None] is compute_results(). *)
Fixpoint later {T B} {NT : NumT T} (s : particles T B) (l : list (option (list (item T B)))) : particles T B :=
  match l with
  | [] => s
  | Some d :: l' => later (particles_update s d) l'
  | None :: l' => later (snd (compute_results s)) l'
  end.

Open Scope R_scope.
(** A non-empty history whose log-likelihoods (one list per iteration),
    temperatures and log-evidences are these real numbers. *)
Definition history {B} (p : past X B) (ls : list (list R)) (bs zs : list R) : Prop :=
  h_logl p = map (map Fin) ls /\ h_beta p = map Fin bs /\ h_logz p = map Fin zs /\ length bs = length zs /\ bs <> [] /\ concat ls <> [].

(** The multiple-importance-sampling ("balance heuristic") weight at inverse
    temperature b of a particle of log-likelihood l, when iteration t sampled
    from L^beta_t / Z_t. *)
Definition mixture_density (betas logzs : list R) (l : R) : R :=
  total (map2 (fun b z => exp (b * l) / exp z) betas logzs) / INR (length betas).
Definition balance_weight (betas logzs : list R) (b l : R) : R := exp (b * l) / mixture_density betas logzs l.

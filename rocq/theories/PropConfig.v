(** * Property theorems for the constructor of Sampler (C27 - C30, C78) *)
From Coq Require Import Reals ZArith String List Bool Lia Floats.SpecFloat.
From Coq Require Import List.
From Verif Require Import Num PyBase XReal FloatNum Tools Scaler LogLike Geometry Flow Sampler SpecConfig ConfigFacts ConfigCases.
Import ListNotations.
Open Scope string_scope.

(** ** C27 *)
(** In any arithmetic: only valid options are ever accepted, and they are the
    options of the sampler. *)
Theorem C27_only_valid {T C P Opt} {NT : NumT T} (W : world T C P Opt) (o : options T C P) s :
  new_sampler W o = Ok s -> valid o /\ usable_pool (a_pool o) /\ chosen W o s.
Proof. exact (new_sampler_ok W o s). Qed.
Print Assumptions C27_only_valid.
(** With positive sizes and a usable pool, exactly the invalid options are
    refused, with ValueError. *)
Theorem C27_validation {C P Opt} (W : world X C P Opt) (o : options X C P) :
  sensible W o -> usable_pool (a_pool o) ->
  (valid o -> exists s, new_sampler W o = Ok s /\ chosen W o s) /\ (~ valid o -> new_sampler W o = Err ValueError).
Proof. exact (validation W o). Qed.
Print Assumptions C27_validation.
Example C27_case : (sensible (T:=X) case_world default_options /\ usable_pool (a_pool (T:=X) default_options) /\ valid (T:=X) default_options) /\
  (sensible (T:=X) case_world other_options /\ usable_pool (a_pool (T:=X) other_options) /\ valid (T:=X) other_options).
Proof. exact (conj default_sensible other_sensible). Qed.

(** ** C28 *)
Theorem C28_derived_defaults {C P Opt} (W : world X C P Opt) (o : options X C P) s :
  sensible W o -> new_sampler W o = Ok s ->
  let n_active := c_n_active (s_cfg s) in let n_prior := c_n_prior (s_cfg s) in let batches := (n_prior / n_active)%nat in
  (forall e, a_n_active o = None -> requested_effective o = Some e -> n_active = (e / 2)%nat) /\
  (requested_effective o = None -> s_n_effective s = (2 * Z.of_nat n_active)%Z) /\
  (1 <= n_active)%nat /\
  (a_n_prior o = None -> exists k, (2 <= k)%nat /\ n_prior = (k * n_active)%nat /\ (s_n_effective s < Z.of_nat n_prior)%Z) /\
  (forall n, a_n_prior o = Some n -> n_prior = Nat.max n n_active) /\
  (a_train_frequency o = None -> (1 <= c_train_frequency (s_cfg s))%Z) /\
  (batches * n_active <= n_prior < (batches + 1) * n_active)%nat.
Proof.
  exact (fun S H => match derived W o s S H with
    conj a (conj b (conj c (conj d (conj e (conj f (conj g _)))))) => conj a (conj b (conj c (conj d (conj e (conj f g))))) end).
Qed.
Print Assumptions C28_derived_defaults.
(** In binary64 a supplied n_prior can lose one draw to rounding. *)
Theorem C28_binary64_prior_size_refuted : forall exp log pow erf erfinv pi, exists n a m,
  @prior_size B64 (B64NumT exp log pow erf erfinv pi) (Some n) 0 a = Ok m /\ (1 <= a)%nat /\ m <> Nat.max n a.
Proof. intros. exists 113%nat, 100%nat, 112%nat. split; [vm_compute; reflexivity|split; [lia|discriminate]]. Qed.
Print Assumptions C28_binary64_prior_size_refuted.
Example C28_case : sensible (T:=X) case_world default_options /\
  exists s, new_sampler (T:=X) case_world default_options = Ok s /\ c_n_prior (s_cfg s) = 1024%nat /\
    c_n_active (s_cfg s) = 256%nat /\ s_n_effective s = 512%Z.
Proof. exact (conj (proj1 default_sensible) default_sizes). Qed.

(** ** C29 *)
(** The documentation promises n_dim and 10 n_dim. *)
Theorem C29_step_defaults {C P Opt} (W : world X C P Opt) (o : options X C P) s :
  sensible W o -> new_sampler W o = Ok s -> a_n_steps o = None -> a_n_max_steps o = None ->
  c_n_steps (s_cfg s) = (Z.of_nat (dimensions W o) / 2)%Z /\ c_n_max_steps (s_cfg s) = (10 * (Z.of_nat (dimensions W o) / 2))%Z /\
  c_n_steps (s_cfg s) <> Z.of_nat (dimensions W o) /\ c_n_max_steps (s_cfg s) <> (10 * Z.of_nat (dimensions W o))%Z.
Proof. exact (step_defaults W o s). Qed.
Print Assumptions C29_step_defaults.
(** One parameter: no step is asked for, one is made. *)
Theorem C29_one_dimension {C P Opt} (W : world X C P Opt) (o : options X C P) s0 :
  sensible W o -> new_sampler W o = Ok s0 -> a_n_steps o = None -> a_n_max_steps o = None -> dimensions W o = 1%nat ->
  c_n_steps (s_cfg s0) = 0%Z /\ c_n_max_steps (s_cfg s0) = 0%Z /\
  forall R s s' c', s_cfg s = s_cfg s0 -> mutate W R s = Ok s' -> s_current s' = Some c' -> cu_steps c' = 1%Z.
Proof. exact (one_dimension W o s0). Qed.
Print Assumptions C29_one_dimension.
Example C29_case :
  (exists s, new_sampler (T:=X) case_world default_options = Ok s /\ a_n_steps (T:=X) default_options = None /\
     c_n_steps (s_cfg s) = 1%Z /\ c_n_max_steps (s_cfg s) = 10%Z /\ dimensions (T:=X) case_world default_options = 3%nat) /\
  (exists s, new_sampler (T:=X) case_world line_options = Ok s /\ c_n_steps (s_cfg s) = 0%Z).
Proof. exact steps_case. Qed.

(** ** C30 *)
Theorem C30_integer_pool {C P Opt} (W : world X C P Opt) (o : options X C P) n :
  a_pool o = PoolInt n -> (a_n_active o <> None \/ requested_effective o <> None) ->
  ((n <= 1)%Z -> new_sampler W o = Err AttributeError) /\
  ((1 < n)%Z -> sensible W o -> valid o -> exists s, new_sampler W o = Ok s /\ s_pool s = Some (wd_mp W n)).
Proof. exact (integer_pool W o n). Qed.
Print Assumptions C30_integer_pool.
Theorem C30_pool_object {C P Opt} (W : world X C P Opt) (o : options X C P) m :
  a_pool o = PoolObject m -> (a_n_active o <> None \/ requested_effective o <> None) ->
  match m with
  | Some f => sensible W o -> valid o -> exists s, new_sampler W o = Ok s /\ s_pool s = Some f
  | None => new_sampler W o = Err AttributeError
  end.
Proof. exact (pool_object W o m). Qed.
Print Assumptions C30_pool_object.
Example C30_case : a_pool (T:=X) other_options = PoolInt 4 /\ (a_n_active (T:=X) other_options <> None) /\
  sensible (T:=X) case_world other_options /\ valid (T:=X) other_options.
Proof. exact (conj eq_refl (conj (fun H : Some 10%nat = None => match H with end) (conj (proj1 other_sensible) (proj2 (proj2 other_sensible))))). Qed.

(** ** C78 *)
Theorem C78_training_options {T C P Opt} {NT : NumT T} (W : world T C P Opt) (o : options T C P) s :
  new_sampler W o = Ok s ->
  let c := c_train (s_cfg s) in let g := a_train_config o in
  c_validation_split c = last_given (fun i => match i with TC_validation_split v => Some v | _ => None end) g (nfrac 1 2) /\
  c_epochs c = last_given (fun i => match i with TC_epochs v => Some v | _ => None end) g 5000%Z /\
  c_batch_size c = last_given (fun i => match i with TC_batch_size v => Some v | _ => None end) g (Z.min (s_n_effective s / 2) 512) /\
  c_patience c = last_given (fun i => match i with TC_patience v => Some v | _ => None end) g (Z.of_nat (dimensions W o)) /\
  c_learning_rate c = last_given (fun i => match i with TC_learning_rate v => Some v | _ => None end) g (nfrac 1 1000) /\
  c_annealing c = last_given (fun i => match i with TC_annealing v => Some v | _ => None end) g false /\
  c_gaussian_scale c = last_given (fun i => match i with TC_gaussian_scale v => Some v | _ => None end) g None /\
  c_laplace_scale c = last_given (fun i => match i with TC_laplace_scale v => Some v | _ => None end) g None /\
  c_noise c = last_given (fun i => match i with TC_noise v => Some v | _ => None end) g None /\
  c_shuffle c = last_given (fun i => match i with TC_shuffle v => Some v | _ => None end) g true /\
  c_clip_grad_norm c = last_given (fun i => match i with TC_clip_grad_norm v => Some v | _ => None end) g (nofZ 1) /\
  c_verbose c = last_given (fun i => match i with TC_verbose v => Some v | _ => None end) g 0%Z.
Proof. exact (training_options W o s). Qed.
Print Assumptions C78_training_options.
Example C78_case : exists s, new_sampler (T:=X) case_world other_options = Ok s /\ c_epochs (c_train (s_cfg s)) = 4%Z /\
  c_batch_size (c_train (s_cfg s)) = 10%Z.
Proof. exact other_training. Qed.

(** * Small specification of the iterations that return, with the flow *)
From Coq Require Import Reals ZArith List.
From Coq Require Import List.
From Verif Require Import Num PyBase XReal Scaler Particles LogLike Geometry SpecGeometry Mcmc SpecMcmc SpecBalance SpecChain Flow Sampler SpecPosterior SpecIterate SpecReturn SpecTrainReturn.
Import ListNotations.
Local Open Scope R_scope.

(** the options of the training: no validation, or half or more (but not all) of the
    samples to train on; positive batches; progress is not printed, or there is an
    epoch to print *)
Record flow_options (c : fit_config X) : Prop := {
  fo_split : exists v, c_validation_split c = Fin v /\ (v = 0 \/ 1 / 2 <= v < 1);
  fo_batch : (0 < c_batch_size c)%Z;
  fo_verbose : (c_verbose c <= 0 \/ c_epochs c <> 0)%Z }.

Section Flow.
  Context {C P Opt : Type} (W : world X C P Opt) (R0 : rand X C P).
  (** the random numbers of a training of the flow on the survivors permute them *)
  Definition fit_permutations (s1 : sampler X C P) : Prop :=
    forall c, s_current s1 = Some c -> training_numbers (c_train (s_cfg s1)) (ir_fit (rn_iter R0 (s_t s1))) (length (cu_u c)).
  (** training the flow on the survivors ends with the parameters [p] *)
  Definition trained_to (s1 : sampler X C P) (p : P) : Prop :=
    exists c history early, s_current s1 = Some c /\
      flow_fit (wd_train W) (with_batch_size (c_train (s_cfg s1)) (Z.min (Z.of_nat (length (cu_u c)) / 2) (c_batch_size (c_train (s_cfg s1)))))
        (ir_fit (rn_iter R0 (s_t s1))) (s_flow s1) (cu_u c) (cu_weights c) = Ok (p, history, early).
  (** the flow with parameters [p] takes the points [us] to the points [ths] *)
  Definition images (p : P) (us ths : list (list R)) : Prop := Forall2 (fun u th => fst (wd_flow_forward W p (map Fin u)) = map Fin th) us ths.
  (** the trained flow does not take the sampled survivors into one hyperplane *)
  Definition well_spread_latent (d : nat) (s1 : sampler X C P) : Prop :=
    forall p pts ths, trained_to s1 p -> fit_sample R0 s1 pts -> images p pts ths -> spanning d ths.
End Flow.

(** the distribution is proper: the degrees of freedom are positive, and the
    covariance matrices symmetric and positive definite *)
Definition proper_geometry (d : nat) (g : geometry X) : Prop :=
  (exists nu, t_nu g = Some (Fin nu) /\ 0 < nu) /\ (exists V, t_cov g = Some (fin_mat V) /\ square d V /\ symmetric d V /\ pd d V) /\
  (exists V, normal_cov g = Some (squeeze (fin_mat V)) /\ square d V /\ symmetric d V /\ pd d V) /\ (exists mu, t_mean g = Some (map Fin mu) /\ length mu = d).
(** ... in the latent space, if the flow has been trained *)
Definition proper_latent {C P} (d : nat) (s : sampler X C P) : Prop := s_untrained s = false -> proper_geometry d (s_theta_geometry s).

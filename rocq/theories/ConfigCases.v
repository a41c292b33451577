(** * A concrete world and options for the examples of PropConfig.v *)
From Coq Require Import Reals ZArith String List Bool Lia Floats.SpecFloat.
From Coq Require Import List.
From Verif Require Import Num PyBase XReal FloatNum Tools Scaler LogLike Geometry Flow Sampler SpecConfig ConfigFacts.
Import ListNotations.
Open Scope string_scope.

Section Cases.
  Context {T : Type} {NT : NumT T}.
  (** a prior on three parameters in (0,1), the likelihood is the first coordinate *)
  Definition case_world : world T T nat unit :=
    {| wd_logpdf := fun xs => Ok (map (fun _ => nofZ 0) xs); wd_bounds := BArray true (repeat (nofZ 0, nofZ 1) 3); wd_dim := 3;
       wd_like := fun x => RScalar (hd (nofZ 0) x); wd_vlike := map (fun x => hd (nofZ 0) x);
       wd_mp := fun _ f xs => map f xs; wd_build := fun a => a_transforms a;
       wd_train := {| f_log_prob := fun _ _ => nofZ 0; f_transforms := fun _ => []; f_adamw := fun _ _ => tt;
                      f_step := fun _ o p _ => (o, p); f_schedule := fun o _ => o |};
       wd_flow_forward := fun _ u => (u, nofZ 0); wd_flow_inverse := fun _ u => (u, nofZ 0);
       wd_linalg := {| la_cholesky := fun m => Ok m; la_inv := fun m => Ok m; la_logdet := fun _ => nofZ 0 |};
       wd_fit := {| o_solve := fun _ v => Ok v; o_psi := fun x => x; o_bisect := fun _ => Ok (nofZ 1) |};
       wd_none_blob := None; wd_junk := repeat (nofZ 0) 3; wd_bc_fuel := 10; wd_to_f32 := fun x => x |}.
  (** the default arguments (sampler.py:154-185) *)
  Definition default_options : options T T nat :=
    {| a_n_dim := None; a_n_effective := Some 512%nat; a_n_active := Some 256%nat; a_vectorize := false; a_blobs_dtype := false;
       a_periodic := None; a_reflective := None; a_transform := "probit"; a_pool := PoolNone; a_flow := FName "nsf6";
       a_train_config := None; a_train_frequency := None; a_precondition := true; a_dynamic := true; a_metric := "ess";
       a_n_prior := None; a_sample := "tpcn"; a_n_steps := None; a_n_max_steps := None; a_resample := "mult";
       a_output_dir := None; a_output_label := None; a_n_ess := None |}.
  (** one parameter *)
  Definition line_options : options T T nat :=
    {| a_n_dim := Some 1%nat; a_n_effective := Some 512%nat; a_n_active := Some 256%nat; a_vectorize := false; a_blobs_dtype := false;
       a_periodic := None; a_reflective := None; a_transform := "probit"; a_pool := PoolNone; a_flow := FName "nsf6";
       a_train_config := None; a_train_frequency := None; a_precondition := true; a_dynamic := true; a_metric := "ess";
       a_n_prior := None; a_sample := "tpcn"; a_n_steps := None; a_n_max_steps := None; a_resample := "mult";
       a_output_dir := None; a_output_label := None; a_n_ess := None |}.
  (** other choices everywhere *)
  Definition other_options : options T T nat :=
    {| a_n_dim := Some 2%nat; a_n_effective := None; a_n_active := Some 10%nat; a_vectorize := true; a_blobs_dtype := false;
       a_periodic := Some [0%Z]; a_reflective := None; a_transform := "logit"; a_pool := PoolInt 4; a_flow := FObject 7%nat;
       a_train_config := Some [TC_epochs 3; TC_noise (Some (nofZ 1)); TC_other "foo"; TC_epochs 4]; a_train_frequency := Some 2%Z;
       a_precondition := false; a_dynamic := false; a_metric := "uss";
       a_n_prior := Some 25%nat; a_sample := "rwm"; a_n_steps := Some 5%Z; a_n_max_steps := Some 7%Z; a_resample := "syst";
       a_output_dir := Some "out"; a_output_label := Some "run"; a_n_ess := None |}.

  Lemma default_sensible : sensible case_world default_options /\ usable_pool (a_pool default_options) /\ valid default_options.
  Proof. repeat split; cbn; auto; try lia; try tauto; try (left; discriminate); try (intros [? ?]; discriminate). Qed.
  Lemma line_sensible : sensible case_world line_options /\ usable_pool (a_pool line_options) /\ valid line_options.
  Proof. repeat split; cbn; auto; try lia; try tauto; try (left; discriminate); try (intros [? ?]; discriminate). Qed.
  Lemma other_sensible : sensible case_world other_options /\ usable_pool (a_pool other_options) /\ valid other_options.
  Proof. repeat split; cbn; auto; try lia; try tauto; try (left; discriminate); try (intros [? ?]; discriminate). Qed.
End Cases.

Lemma other_training : exists s, new_sampler (T:=X) case_world other_options = Ok s /\ c_epochs (c_train (s_cfg s)) = 4%Z /\
  c_batch_size (c_train (s_cfg s)) = 10%Z.
Proof.
  destruct (good_pool (C:=X) (P:=nat) (Opt:=unit) case_world other_options) as [s [E _]]; try apply other_sensible.
  exists s. split; [exact E|]. pose proof (new_sampler_train _ _ _ E) as H. destruct (derived _ _ _ (proj1 other_sensible) E) as (_ & D & _).
  specialize (D eq_refl). pose proof (ch_active _ _ _ (proj2 (proj2 (new_sampler_ok _ _ _ E))) 10%nat eq_refl) as A.
  rewrite H, D, A. split; reflexivity.
Qed.
Lemma default_sizes : exists s, new_sampler (T:=X) case_world default_options = Ok s /\ c_n_prior (s_cfg s) = 1024%nat /\
  c_n_active (s_cfg s) = 256%nat /\ s_n_effective s = 512%Z.
Proof.
  destruct (good_pool (C:=X) (P:=nat) (Opt:=unit) case_world default_options) as [s [E H]]; try apply default_sensible.
  exists s. split; [exact E|]. pose proof (ch_active _ _ _ H 256%nat eq_refl) as A. pose proof (ch_effective _ _ _ H 512%nat eq_refl) as B.
  split; [|split; [exact A|exact B]]. unfold new_sampler in E.
  do 11 (let q := fresh "q" in let Q := fresh "Q" in apply bind_ok in E as [q [Q E]]). apply bind_ok in E as [np [Enp E]]. apply Ok_inj in E. subst s.
  injection Q as <-. cbn [c_n_prior s_cfg]. unfold prior_size, floordiv in Enp. cbn in Enp. injection Enp as <-. reflexivity.
Qed.

Lemma constructed o : sensible (T:=X) case_world o -> usable_pool (a_pool (T:=X) o) -> valid (T:=X) o ->
  exists s, new_sampler (T:=X) case_world o = Ok s.
Proof. intros H1 H2 H3. destruct (good_pool (C:=X) (P:=nat) (Opt:=unit) case_world o) as [s [E _]]; eauto. Qed.
Lemma steps_case :
  (exists s, new_sampler (T:=X) case_world default_options = Ok s /\ a_n_steps (T:=X) default_options = None /\
     c_n_steps (s_cfg s) = 1%Z /\ c_n_max_steps (s_cfg s) = 10%Z /\ dimensions (T:=X) case_world default_options = 3%nat) /\
  (exists s, new_sampler (T:=X) case_world line_options = Ok s /\ c_n_steps (s_cfg s) = 0%Z).
Proof.
  split.
  - destruct (constructed _ (proj1 default_sensible) (proj1 (proj2 default_sensible)) (proj2 (proj2 default_sensible))) as [s E].
    destruct (step_defaults _ _ _ (proj1 default_sensible) E eq_refl eq_refl) as (A & B & _). exists s. repeat split; auto.
  - destruct (constructed _ (proj1 line_sensible) (proj1 (proj2 line_sensible)) (proj2 (proj2 line_sensible))) as [s E].
    destruct (step_defaults _ _ _ (proj1 line_sensible) E eq_refl eq_refl) as (A & B & _). exists s. split; auto.
Qed.

(** * What the options of the constructor mean *)
From Coq Require Import ZArith String List Bool.
From Verif Require Import Num PyBase Scaler Flow LogLike Sampler.
Import ListNotations.
Open Scope string_scope.

Section Spec.
  Context {T C P Opt : Type}.
  Variable W : world T C P Opt.
  Variable o : options T C P.

  (** n_ess is an old name of n_effective and takes precedence *)
  Definition requested_effective : option nat := match a_n_ess o with Some n => Some n | None => a_n_effective o end.
  Definition dimensions : nat := match a_n_dim o with Some n => n | None => wd_dim W end.

  (** the options the constructor is documented to check *)
  Record valid : Prop := {
    v_transform : In (a_transform o) ["probit"; "logit"];
    v_metric : In (a_metric o) ["ess"; "uss"];
    v_sample : In (a_sample o) ["tpcn"; "rwm"];
    v_resample : In (a_resample o) ["mult"; "syst"];
    v_flow : match a_flow o with
             | FName s => In s ["maf3"; "maf6"; "maf12"; "nsf3"; "nsf6"; "nsf12"]
             | FObject _ => True
             | FOther => False
             end;
    v_sizes : a_n_active o <> None \/ requested_effective <> None;
    v_blobs : ~ (a_vectorize o = true /\ a_blobs_dtype o = true)
  }.

  (** the rest: sizes large enough, bounds as Prior.bounds returns them *)
  Record sensible : Prop := {
    se_dim : (1 <= dimensions)%nat;
    se_active : match a_n_active o, requested_effective with
                | Some n, _ => (1 <= n)%nat
                | None, Some n => (2 <= n)%nat
                | None, None => True
                end;
    se_bounds : match wd_bounds W with
                | BArray is_float rows => is_float = true /\ (dimensions <= length rows)%nat
                | BList => False
                | _ => True
                end
  }.
  (** a pool that can be used *)
  Definition usable_pool (p : pool_arg T C) : Prop :=
    match p with PoolNone => True | PoolInt n => (1 < n)%Z | PoolObject m => m <> None end.

  (** the sampler has the options that were asked for *)
  Record chosen (s : sampler T C P) : Prop := {
    ch_dim : c_n_dim (s_cfg s) = dimensions;
    ch_active : forall n, a_n_active o = Some n -> c_n_active (s_cfg s) = n;
    ch_effective : forall n, requested_effective = Some n -> s_n_effective s = Z.of_nat n;
    ch_steps : forall n, a_n_steps o = Some n -> c_n_steps (s_cfg s) = n;
    ch_max_steps : forall n, a_n_max_steps o = Some n -> c_n_max_steps (s_cfg s) = n;
    ch_frequency : forall n, a_train_frequency o = Some n -> c_train_frequency (s_cfg s) = n;
    ch_transform : (a_transform o = "probit" /\ transform (s_scaler s) = Probit) \/
                   (a_transform o = "logit" /\ transform (s_scaler s) = Logit);
    ch_periodic : periodic (s_scaler s) = a_periodic o;
    ch_reflective : reflective (s_scaler s) = a_reflective o;
    ch_metric : (a_metric o = "ess" /\ c_metric (s_cfg s) = ESS) \/ (a_metric o = "uss" /\ c_metric (s_cfg s) = USS);
    ch_sample : (a_sample o = "tpcn" /\ c_sample (s_cfg s) = TPCN) \/ (a_sample o = "rwm" /\ c_sample (s_cfg s) = RWMH);
    ch_resample : (a_resample o = "mult" /\ c_resample (s_cfg s) = MULT) \/ (a_resample o = "syst" /\ c_resample (s_cfg s) = SYST);
    ch_vectorize : c_vectorize (s_cfg s) = a_vectorize o;
    ch_precondition : c_preconditioned (s_cfg s) = a_precondition o;
    ch_dynamic : c_dynamic (s_cfg s) = a_dynamic o;
    ch_blobs : s_have_blobs s = a_blobs_dtype o;
    ch_flow : forall p, a_flow o = FObject p -> s_flow s = p;
    ch_pool : match a_pool o with
              | PoolNone => s_pool s = None
              | PoolInt n => s_pool s = Some (wd_mp W n)
              | PoolObject m => s_pool s = m
              end;
    ch_dir : c_output_dir (s_cfg s) = match a_output_dir o with Some d => d | None => "states" end;
    ch_label : c_output_label (s_cfg s) = match a_output_label o with Some l => l | None => "pmc" end
  }.
End Spec.

(** the value a training option gets: the last one given under that key, or the default *)
Definition last_given {A B} (pick : A -> option B) (given : option (list A)) (default : B) : B :=
  match given with
  | None => default
  | Some l => fold_left (fun acc i => match pick i with Some v => v | None => acc end) l default
  end.

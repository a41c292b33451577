(** * A concrete run in binary64 arithmetic

    Used only to show that the theorems about runs are not vacuous: a
    two-parameter problem with blobs and infinite likelihoods, four particles.
    The transcendental functions are approximations by three squarings and
    square roots; the theorems hold for every choice of them. *)
From Coq Require Import ZArith String List Bool Floats.SpecFloat.
From Verif Require Import Num FloatNum PyBase Tools Scaler Particles LogLike Geometry Mcmc Flow Sampler.
Import ListNotations.
Open Scope list_scope.

Definition iter3 (f : B64 -> B64) (x : B64) : B64 := Nat.iter 3 f x.
(** (1 + x / 8) ^ (8) *)
Definition exp64 (x : B64) : B64 :=
  match x with
  | S754_nan => S754_nan | S754_infinity true => b64_ofZ 0 | S754_infinity false => x
  | _ => if nltb x (b64_ofZ (-8)) then b64_ofZ 0 else if nltb (b64_ofZ 700) x then ninf
         else iter3 (fun a => nmul a a) (nadd (b64_ofZ 1) (ndiv x (b64_ofZ (8))))
  end.
(** 8 * (x ^ (1 / 8) - 1) *)
Definition log64 (x : B64) : B64 :=
  match x with
  | S754_zero _ => nopp ninf | S754_infinity false => x
  | _ => nmul (b64_ofZ (8)) (nsub (iter3 nsqrt x) (b64_ofZ 1))
  end.
Definition pow64 (a b : B64) : B64 := exp64 (nmul b (log64 a)).
#[global] Instance NT64 : NumT B64 := B64NumT exp64 log64 pow64 (fun x => x) (fun x => x) (b64_ofZ 3).

(** deterministic "random" numbers in [0,1) *)
Definition noise (z : Z) : B64 := nfrac ((z * z * 7919 + z * 104729 + 1237) mod 10007) 10007.

(** three regions: -infinity, negligible, constant *)
Definition like64 (x : vec B64) : B64 :=
  match x with
  | [a; b] => if nltb (b64_ofZ 6) a then nopp ninf else if nltb (b64_ofZ 1) a then b64_ofZ (-1000) else b64_ofZ (-1)
  | _ => b64_ofZ 0
  end.
Definition prior64 (x : vec B64) : B64 :=
  match x with [a; b] => if nltb (b64_ofZ 0) b && nltb b (b64_ofZ 1) then nopp (ndiv (nsqr a) (b64_ofZ 8)) else nopp ninf | _ => nopp ninf end.
Definition blob64 (x : vec B64) : list B64 := [nsum x].
Definition solve64 (m : mat B64) (v : vec B64) : res (vec B64) :=
  match m, v with
  | [[a; b]; [c; d]], [p; q] =>
      let det := nsub (nmul a d) (nmul b c) in
      Ok [ndiv (nsub (nmul d p) (nmul b q)) det; ndiv (nsub (nmul a q) (nmul c p)) det]
  | _, _ => Err LinAlgError
  end.
Definition inv64 (m : mat B64) : res (mat B64) :=
  match m with
  | [[a; b]; [c; d]] =>
      let det := nsub (nmul a d) (nmul b c) in
      Ok [[ndiv d det; nopp (ndiv b det)]; [nopp (ndiv c det); ndiv a det]]
  | _ => Err LinAlgError
  end.
Definition chol64 (m : mat B64) : res (mat B64) :=
  match m with
  | [[a; _]; [c; d]] => let l := nsqrt a in let k := ndiv c l in Ok [[l; b64_ofZ 0]; [k; nsqrt (nsub d (nsqr k))]]
  | _ => Err LinAlgError
  end.

Definition world64 : world B64 B64 nat unit :=
  {| wd_logpdf := fun xs => Ok (map prior64 xs);
     wd_bounds := BArray true [(nopp ninf, ninf); (b64_ofZ 0, b64_ofZ 1)]; wd_dim := 2;
     wd_like := fun x => RTuple (like64 x) (blob64 x); wd_vlike := map like64;
     wd_mp := fun _ f xs => map f xs; wd_build := fun a => a_transforms a;
     wd_train := {| f_log_prob := fun _ _ => b64_ofZ 0; f_transforms := fun _ => []; f_adamw := fun _ _ => tt;
                    f_step := fun _ o p _ => (o, S p); f_schedule := fun o _ => o |};
     wd_flow_forward := fun _ u => (u, b64_ofZ 0); wd_flow_inverse := fun _ u => (u, b64_ofZ 0);
     wd_linalg := {| la_cholesky := chol64; la_inv := inv64; la_logdet := fun _ => b64_ofZ 0 |};
     wd_fit := {| o_solve := solve64; o_psi := log64; o_bisect := fun _ => Ok (b64_ofZ 5) |};
     wd_none_blob := Some []; wd_junk := [b64_ofZ 0; b64_ofZ 0]; wd_bc_fuel := 10; wd_to_f32 := fun x => x |}.
Definition options64 (precondition : bool) : options B64 B64 nat :=
  {| a_n_dim := None; a_n_effective := Some 6%nat; a_n_active := Some 4%nat; a_vectorize := false; a_blobs_dtype := false;
     a_periodic := None; a_reflective := None; a_transform := "logit"; a_pool := PoolNone; a_flow := FName "maf3";
     a_train_config := Some [TC_shuffle false]; a_train_frequency := None; a_precondition := precondition; a_dynamic := true; a_metric := "ess";
     a_n_prior := Some 8%nat; a_sample := "tpcn"; a_n_steps := Some 1%Z; a_n_max_steps := Some 2%Z; a_resample := "mult";
     a_output_dir := None; a_output_label := None; a_n_ess := None |}.

Definition normal64 (z : Z) : B64 := nmul (b64_ofZ 3) (nsub (nadd (noise z) (noise (z + 1))) (b64_ofZ 1)).
Definition unif64 (z : Z) : B64 := let v := noise z in if nleb (b64_ofZ 0) v then v else b64_ofZ 0.
Definition draw64 (k : nat) : vec B64 :=
  let z := Z.of_nat k in [nmul (b64_ofZ 3) (normal64 (2 * z)); nmul (noise (2 * z + 101)) (nfrac 99 100)].
Definition rand64 : rand B64 B64 nat :=
  {| rn_prior := fun n => Ok (map (fun k => draw64 (Nat.modulo k 8)) (seq 0 n));
     rn_pick := fun t k => Z.to_nat (t + 3 * Z.of_nat k);
     rn_iter := fun t =>
       {| ir_fit := {| fr_perm := seq 0 100; fr_loader := fun _ _ => seq 0 100; fr_noise := fun _ _ _ => [] |};
          ir_geometry := noise t; ir_uniform := fun k => noise (t + 31 * Z.of_nat k); ir_offset := noise (t + 5);
          ir_step := fun i =>
            {| r_gamma := fun k a b => nmul a b; r_norm := fun k => [normal64 (t * 17 + i * 5 + 2 * Z.of_nat k); normal64 (t * 13 + i * 7 + 3 * Z.of_nat k + 500)];
               r_unif := fun k => unif64 (t * 3 + i * 11 + Z.of_nat k + 77); r_empty_logp := fun _ => b64_ofZ 0; r_empty_logl := fun _ => b64_ofZ 0;
               r_empty_blob := fun _ => [] |} |};
     rn_flow := fun _ n => (map (fun k => let z := Z.of_nat k in [normal64 (2 * z); normal64 (3 * z + 1000)]) (seq 0 n), repeat (b64_ofZ 0) n);
     rn_boot := fun j i => (j + 3 * i)%nat |}.
Definition args64 : run_args := {| ra_n_total := 8; ra_n_evidence := 0; ra_save_every := Some 1%Z; ra_fuel := 50; ra_bfuel := 60 |}.


Definition start64 : sampler B64 B64 nat :=
  Eval vm_compute in match new_sampler world64 (options64 true) with
                     | Ok s => s
                     | Err _ => {| s_cfg := {| c_n_dim := 0; c_n_active := 0; c_n_steps := 0; c_n_max_steps := 0; c_vectorize := false;
                                     c_train := train_config 0 0 None; c_train_frequency := 0; c_preconditioned := false; c_metric := ESS;
                                     c_dynamic := false; c_dynamic_ratio := b64_ofZ 0; c_sample := TPCN; c_resample := MULT; c_n_prior := 0;
                                     c_output_dir := ""; c_output_label := "" |};
                                   s_pool := None; s_n_effective := 0; s_have_blobs := false; s_n_total := None; s_n_evidence := None;
                                   s_particles := new_particles; s_t := 0; s_u_geometry := new_geometry; s_theta_geometry := new_geometry;
                                   s_flow := 0%nat; s_untrained := true;
                                   s_scaler := {| ndim := 0; low := []; high := []; periodic := None; reflective := None; transform := Probit;
                                     scale := false; diagonal := false; mask_none := []; mask_left := []; mask_right := []; mask_both := [];
                                     mu := None; sigma := None; Lmat := None; L_inv := None; log_det_L := None |};
                                   s_prior_samples := None; s_logz := None; s_logz_err := None; s_current := None; s_warmup := true; s_calls := 0;
                                   s_scale := b64_ofZ 0; s_evals := []; s_evidence_evals := [] |}
                     end.
Lemma start64_ok : new_sampler world64 (options64 true) = Ok start64.
Proof. vm_compute. reflexivity. Qed.

(** the run: events and final state *)
Definition trace64 := Eval vm_compute in run world64 args64 rand64 start64.
Lemma trace64_ok : run world64 args64 rand64 start64 = trace64.
Proof. vm_compute. reflexivity. Qed.
Definition final64 : sampler B64 B64 nat := Eval vm_compute in match snd trace64 with Ok s => s | Err _ => start64 end.
Lemma final64_ok : snd trace64 = Ok final64.
Proof. vm_compute. reflexivity. Qed.

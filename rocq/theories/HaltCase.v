(** * A training that is interrupted, followed by an iteration that does not train *)
From Coq Require Import ZArith String List Bool Lia Floats.SpecFloat.
From Verif Require Import Num FloatNum PyBase Tools Scaler Particles LogLike Geometry Mcmc SpecMcmc McmcNum Flow Sampler ConfigFacts SpecReach Reach SpecLoop RunCase RunCaseFacts.
Import ListNotations.
Set Bullet Behavior "Strict Subproofs".

(** the options of RunCase, the flow being trained every fifth iteration *)
Definition options_halt : options B64 B64 nat :=
  {| a_n_dim := None; a_n_effective := Some 6%nat; a_n_active := Some 4%nat; a_vectorize := false; a_blobs_dtype := false;
     a_periodic := None; a_reflective := None; a_transform := "logit"; a_pool := PoolNone; a_flow := FName "maf3";
     a_train_config := Some [TC_shuffle false]; a_train_frequency := Some 5%Z; a_precondition := true; a_dynamic := true; a_metric := "ess";
     a_n_prior := Some 8%nat; a_sample := "tpcn"; a_n_steps := Some 1%Z; a_n_max_steps := Some 2%Z; a_resample := "mult";
     a_output_dir := None; a_output_label := None; a_n_ess := None |}.
Definition get64 (m : res (sampler B64 B64 nat)) : sampler B64 B64 nat := match m with Ok s => s | Err _ => start64 end.
Definition h0 := Eval vm_compute in get64 (new_sampler world64 options_halt).
Lemma h0_ok : new_sampler world64 options_halt = Ok h0. Proof. vm_compute. reflexivity. Qed.
Definition h1 := Eval vm_compute in get64 (draw_prior world64 rand64 (set_targets 8 0 h0)).
Lemma h1_ok : draw_prior world64 rand64 (set_targets 8 0 h0) = Ok h1. Proof. vm_compute. reflexivity. Qed.
Definition h2 := Eval vm_compute in get64 (warmup_batch world64 rand64 0 h1).
Lemma h2_ok : warmup_batch world64 rand64 0 h1 = Ok h2. Proof. vm_compute. reflexivity. Qed.
Definition h3 := Eval vm_compute in get64 (warmup_batch world64 rand64 1 h2).
Lemma h3_ok : warmup_batch world64 rand64 1 h2 = Ok h3. Proof. vm_compute. reflexivity. Qed.
(** the first iteration is interrupted while the flow is being trained *)
Definition h4 := Eval vm_compute in get64 (reweight 60 (end_warmup h3)).
Lemma h4_ok : not_termination (end_warmup h3) = Ok true /\ reweight 60 (end_warmup h3) = Ok h4. Proof. vm_compute. split; reflexivity. Qed.
Definition h5 := Eval vm_compute in in_training h4 7%nat.
Lemma h5_reachable : reachable world64 (good_draws b64_random drawn64) true h5.
Proof.
  assert (R3 : reachable world64 (good_draws b64_random drawn64) true h3).
  { apply (rc_batch world64 _ true rand64 1 h2); [|exact rand64_good|reflexivity|apply Nat.ltb_lt; reflexivity|exact h3_ok].
    apply (rc_batch world64 _ true rand64 0 h1); [|exact rand64_good|reflexivity|apply Nat.ltb_lt; reflexivity|exact h2_ok].
    apply (rc_prior world64 _ true rand64 (set_targets 8 0 h0)); [|exact rand64_good|exact h1_ok].
    apply rc_targets. apply rc_new with (o := options_halt); [exact h0_ok|exact I]. }
  destruct h4_ok as [N4 E4]. change h5 with (in_training h4 7%nat).
  eapply (rc_training world64 _ true 60 (end_warmup h3)); [reflexivity|apply rc_end; [exact R3|reflexivity]|reflexivity|exact N4|exact E4|reflexivity|vm_compute; reflexivity].
Qed.
(** the next iteration does not train *)
Definition h6 := Eval vm_compute in get64 (reweight 60 h5).
Lemma h6_ok : reweight 60 h5 = Ok h6. Proof. vm_compute. reflexivity. Qed.
Definition h7 := Eval vm_compute in get64 (train world64 rand64 h6).
Lemma h7_ok : train world64 rand64 h6 = Ok h7. Proof. vm_compute. reflexivity. Qed.
Definition h8 := Eval vm_compute in get64 (resample rand64 h7).
Lemma h8_ok : resample rand64 h7 = Ok h8. Proof. vm_compute. reflexivity. Qed.
Lemma halted : geometry_in_use h8 = new_geometry /\ mutate world64 rand64 h8 = Err LinAlgError.
Proof. vm_compute. split; reflexivity. Qed.

(** * Concrete checkpoints and resumed runs *)
From Coq Require Import ZArith String List Bool Lia Floats.SpecFloat.
From Verif Require Import Num FloatNum PyBase Tools Scaler Particles LogLike Geometry Mcmc SpecMcmc McmcNum Flow Sampler ConfigFacts SpecReach Reach SpecTrace RunCase RunCaseFacts.
Import ListNotations.
Set Bullet Behavior "Strict Subproofs".

(** the checkpoint written during warm-up, and the run resumed from it *)
Definition early64 : sampler B64 B64 nat := Eval vm_compute in match nth_error (fst trace64) 0 with Some e => ev_state e | None => start64 end.
Definition resumed64 := Eval vm_compute in run_resumed world64 args64 rand64 early64 start64.
Lemma resumed64_ok : run_resumed world64 args64 rand64 early64 start64 = resumed64.
Proof. vm_compute. reflexivity. Qed.
Definition twice64 : sampler B64 B64 nat := Eval vm_compute in match snd resumed64 with Ok s => s | Err _ => start64 end.
Lemma early_case : exists e, In e (fst trace64) /\ s_warmup (ev_state e) = true /\ ev_state e = early64 /\
  run world64 args64 rand64 start64 = (fst trace64, Ok final64) /\ run_resumed world64 args64 rand64 early64 start64 = (fst resumed64, Ok twice64).
Proof.
  eexists. split; [left; reflexivity|]. split; [reflexivity|]. split; [reflexivity|]. split; [rewrite trace64_ok; reflexivity|rewrite resumed64_ok; reflexivity].
Qed.
(** a pool, which the run is resumed with *)
Definition pool64 : option (mapfn B64 B64) := Some (fun f xs => map f xs).
Definition pooled64 : sampler B64 B64 nat := with_pool start64 pool64.
Lemma pooled64_reachable fair interrupts : reachable world64 fair interrupts pooled64.
Proof.
  set (o := options64 true).
  apply rc_new with (o := {| a_n_dim := a_n_dim o; a_n_effective := a_n_effective o; a_n_active := a_n_active o; a_vectorize := a_vectorize o; a_blobs_dtype := a_blobs_dtype o;
     a_periodic := a_periodic o; a_reflective := a_reflective o; a_transform := a_transform o; a_pool := PoolObject pool64; a_flow := a_flow o;
     a_train_config := a_train_config o; a_train_frequency := a_train_frequency o; a_precondition := a_precondition o; a_dynamic := a_dynamic o; a_metric := a_metric o;
     a_n_prior := a_n_prior o; a_sample := a_sample o; a_n_steps := a_n_steps o; a_n_max_steps := a_n_max_steps o; a_resample := a_resample o;
     a_output_dir := a_output_dir o; a_output_label := a_output_label o; a_n_ess := a_n_ess o |}); [|intros f xs; reflexivity].
  vm_compute. reflexivity.
Qed.
Lemma late_case : exists e, In e (fst trace64) /\ ev_file e = Checkpoint 3 /\ s_warmup (ev_state e) = false /\ run world64 args64 rand64 start64 = (fst trace64, Ok final64).
Proof. eexists. split; [right; right; left; reflexivity|]. split; [reflexivity|]. split; [reflexivity|]. rewrite trace64_ok. reflexivity. Qed.

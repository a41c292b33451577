(** * Phases of the concrete run *)
From Coq Require Import ZArith String List Bool Lia Floats.SpecFloat.
From Verif Require Import Num FloatNum PyBase Tools Scaler Particles LogLike Geometry Mcmc SpecMcmc McmcNum Flow Sampler ConfigFacts SpecReach Reach RunCase RunCaseFacts.
Import ListNotations.
Set Bullet Behavior "Strict Subproofs".

(** after the prior draws, and after a warm-up batch, the second of whose four
    draws has an infinite log-likelihood *)
Definition drawn_state64 : sampler B64 B64 nat := Eval vm_compute in match draw_prior world64 rand64 (set_targets 8 0 start64) with Ok s => s | Err _ => start64 end.
Lemma drawn_state64_ok : draw_prior world64 rand64 (set_targets 8 0 start64) = Ok drawn_state64.
Proof. vm_compute. reflexivity. Qed.
Lemma drawn_state64_reachable interrupts : reachable world64 (good_draws b64_random drawn64) interrupts drawn_state64.
Proof. apply (rc_prior world64 _ interrupts rand64 (set_targets 8 0 start64)); [|exact rand64_good|exact drawn_state64_ok]. apply rc_targets, start64_reachable. Qed.
Definition batch_state64 : sampler B64 B64 nat := Eval vm_compute in match warmup_batch world64 rand64 1 drawn_state64 with Ok s => s | Err _ => start64 end.
Lemma batch_state64_ok : warmup_batch world64 rand64 1 drawn_state64 = Ok batch_state64.
Proof. vm_compute. reflexivity. Qed.

(** the first tempered iteration *)
Definition warm64 : sampler B64 B64 nat := Eval vm_compute in match nth_error (fst trace64) 1 with Some e => ev_state e | None => start64 end.
Lemma warm64_in : exists e, In e (fst trace64) /\ ev_state e = warm64.
Proof. vm_compute. eexists. split; [right; left; reflexivity|reflexivity]. Qed.
Lemma warm64_reachable interrupts : reachable world64 (good_draws b64_random drawn64) interrupts warm64.
Proof. destruct warm64_in as [e [A <-]]. exact (proj1 (trace64_reachable _ interrupts rand64_good) e A). Qed.
Lemma warm64_facts : s_warmup warm64 = false /\ not_termination warm64 = Ok true.
Proof. vm_compute. split; reflexivity. Qed.
Definition reweighted64 : sampler B64 B64 nat := Eval vm_compute in match reweight 60 warm64 with Ok s => s | Err _ => start64 end.
Lemma reweighted64_ok : reweight 60 warm64 = Ok reweighted64.
Proof. vm_compute. reflexivity. Qed.
Definition trained64 : sampler B64 B64 nat := Eval vm_compute in match train world64 rand64 reweighted64 with Ok s => s | Err _ => start64 end.
Lemma trained64_ok : train world64 rand64 reweighted64 = Ok trained64.
Proof. vm_compute. reflexivity. Qed.
Definition resampled64 : sampler B64 B64 nat := Eval vm_compute in match resample rand64 trained64 with Ok s => s | Err _ => start64 end.
Lemma resampled64_ok : resample rand64 trained64 = Ok resampled64.
Proof. vm_compute. reflexivity. Qed.

(** a likelihood that is zero everywhere *)
Definition zero64 : world B64 B64 nat unit :=
  {| wd_logpdf := wd_logpdf world64; wd_bounds := wd_bounds world64; wd_dim := 2;
     wd_like := fun x => RScalar (nopp ninf); wd_vlike := map (fun _ => nopp ninf);
     wd_mp := wd_mp world64; wd_build := wd_build world64; wd_train := wd_train world64;
     wd_flow_forward := wd_flow_forward world64; wd_flow_inverse := wd_flow_inverse world64;
     wd_linalg := wd_linalg world64; wd_fit := wd_fit world64;
     wd_none_blob := None; wd_junk := [b64_ofZ 0; b64_ofZ 0]; wd_bc_fuel := 10; wd_to_f32 := fun x => x |}.
Lemma zero64_regular : regular zero64 prior64 (fun _ => nopp ninf) None.
Proof. constructor; [|reflexivity|]. - intros xs v H. apply Ok_inj in H. now subst v. - intros x. left. reflexivity. Qed.
Lemma zero64_case : reachable zero64 (good_draws b64_random drawn64) true drawn_state64 /\ warmup_batch zero64 rand64 0 drawn_state64 = Err ValueError.
Proof.
  split; [|vm_compute; reflexivity]. apply (rc_prior zero64 _ true rand64 (set_targets 8 0 start64)); [|exact rand64_good|exact drawn_state64_ok].
  apply rc_targets. apply rc_new with (o := options64 true); [exact start64_ok|exact I].
Qed.

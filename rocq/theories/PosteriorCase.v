(** * Concrete calls of posterior() *)
From Coq Require Import ZArith Reals Lra.
From Coq Require Import String List Bool Lia.
From Verif Require Import Num XReal FloatNum PyBase Tools Scaler Particles LogLike Geometry Mcmc SpecMcmc McmcNum Flow Sampler
  SpecReach SpecRun SpecExact RunCase RunCaseFacts ExactCase LoopMain SpecPosterior.
Import ListNotations.
Set Bullet Behavior "Strict Subproofs".

(** posterior(return_blobs=True, trim_importance_weights=True, ess_trim=0.99, bins_trim=10) *)
Definition trimmed64 : posterior_args B64 :=
  {| pa_resample := false; pa_return_blobs := true; pa_trim := true; pa_return_logw := false; pa_ess := nfrac 99 100; pa_bins := 10 |}.
(** the same with resample=True *)
Definition resampled64 : posterior_args B64 :=
  {| pa_resample := true; pa_return_blobs := true; pa_trim := true; pa_return_logw := false; pa_ess := nfrac 99 100; pa_bins := 10 |}.
Definition half64 : B64 := nfrac 1 2.
Definition summary64 (a : posterior_args B64) := match posterior a (fun _ => half64) half64 final64 with Ok o => Some (length (po_x o), match po_blobs o with Some b => length b | None => 0%nat end) | Err _ => None end.
Lemma trimmed64_ok : summary64 trimmed64 = Some (14%nat, 14%nat).
Proof. vm_compute. reflexivity. Qed.
Lemma resampled64_ok : summary64 resampled64 = Some (14%nat, 14%nat).
Proof. vm_compute. reflexivity. Qed.
Lemma summary64_ok a n m : summary64 a = Some (n, m) -> exists o, posterior a (fun _ => half64) half64 final64 = Ok o /\ length (po_x o) = n.
Proof. unfold summary64. destruct (posterior a _ _ final64) as [o|e]; [|discriminate]. intros H. exists o. split; [reflexivity|]. congruence. Qed.

Lemma caseX_posterior : exists s, reachable worldX (good_draws x_random (strictly_inside rowsX)) true s /\ iterations (history_of s) <> 0%nat /\
  regular worldX (fun _ => Fin 0) likeX None /\ (forall x, likeX x <> NaN) /\ (forall x, likeX x <> PInf) /\ s_have_blobs s = false.
Proof.
  destruct caseX_reachable as (s & H1 & H2 & H3). exists s. split; [exact H1|]. split; [exact H2|]. split; [exact worldX_regular|].
  split; [|split; [|exact H3]]; intros x E; destruct (likeX_finite x) as [l L]; rewrite L in E; discriminate.
Qed.

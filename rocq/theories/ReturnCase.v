(** * A concrete case of an iteration that returns without the flow *)
From Coq Require Import Reals ZArith List Lra Lia.
From Coq Require Import List.
From Verif Require Import Num PyBase XReal SpecTools Scaler Particles LogLike Geometry SpecGeometry GeometryFacts Mcmc SpecMcmc SpecBalance SpecChain Flow Sampler SpecPosterior SpecIterate IterateFit IterateCase SpecReturn.
Import ListNotations.
Set Bullet Behavior "Strict Subproofs".
Local Open Scope R_scope.
Lemma linalg1_total : total_linalg 1 linalg1.
Proof.
  assert (Q : forall V, square 1 V -> pd 1 V -> exists v, V = [[v]] /\ 0 < v).
  { intros V HV HP. destruct (square1 V HV) as [v ->]. exists v. split; [reflexivity|]. specialize (HP (fun _ => 1) ltac:(exists 0%nat; split; [lia|lra])).
    unfold quad, sum_lt, sum_over, entry in HP. cbn in HP. lra. }
  constructor; intros V HV _ HP; destruct (Q V HV HP) as (v & -> & Hv); cbn.
  - rewrite (proj2 (Rltb_true 0 v) Hv). eauto.
  - rewrite (proj2 (Reqb_false v 0)) by lra. eauto.
Qed.
Lemma spread1 (s1 : sampler X unit nat) c1 a b : s_current s1 = Some c1 -> cu_u c1 = fin_mat [[a]; [b]] -> a <> b -> cu_weights c1 = Some (map Fin [1/2; 1/2]) ->
  well_spread 1 rand1 s1.
Proof.
  intros Hc Eu AB Ew pts (c & q & us & off & again & Hc' & Eu' & Ew' & Eo & [La Pk] & At). rewrite Hc in Hc'. injection Hc' as <-.
  rewrite Eu in Eu'. assert (us = [[a]; [b]]) as -> by (destruct us as [|[|x [|]] [|[|y [|]] [|]]]; cbn in Eu'; congruence). rewrite Ew in Ew'. injection Ew' as Ew'.
  assert (q = [1/2; 1/2]) as -> by (destruct q as [|? [|? [|]]]; cbn in Ew'; congruence).
  assert (off = 1/2) as -> by (cbn in Eo; congruence).
  destruct again as [|i [|j [|]]]; try discriminate. pose proof (Pk 0%nat i eq_refl) as [Bi [Ci Di]]. pose proof (Pk 1%nat j eq_refl) as [Bj [Cj Dj]].
  cbn [length INR] in *. assert (i = 0%nat) as ->.
  { destruct i as [|[|i]]; [reflexivity| |cbn in Bi; lia]. destruct Ci as [Ci|Ci]; [lia|]. unfold total in Ci. cbn in Ci. lra. }
  assert (j = 1%nat) as ->.
  { destruct j as [|[|j]]; [|reflexivity|cbn in Bj; lia]. unfold total in Dj. cbn in Dj. lra. }
  inversion At as [|? ? ? ? E1 At1]; subst. inversion At1 as [|? ? ? ? E2 At2]; subst. inversion At2; subst. cbn in E1, E2. injection E1 as <-. injection E2 as <-.
  now apply spanning2.
Qed.

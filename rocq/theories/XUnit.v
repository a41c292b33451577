(** * The interval [0,1] in the extended reals *)
From Coq Require Import ZArith Reals List Bool Lra.
From Verif Require Import Num XReal Particles Sampler SpecReach SpecRun BetaFacts.
Open Scope R_scope.

Lemma xleb_trans a b c : xleb a b = true -> xleb b c = true -> xleb a c = true.
Proof. destruct a, b, c; cbn; try easy. rewrite !Rleb_true. lra. Qed.
Lemma x_unit_interval : @unit_interval X XNumT (fun _ => True).
Proof.
  constructor; try (exact I).
  - change (Rleb (IZR 0) (IZR 1) = true). apply Rleb_true. lra.
  - intros a b _ _. destruct a, b; cbn; try easy; rewrite ?Rleb_true; auto; intros; split; auto; lra.
  - intros a b c _ _ _. apply xleb_trans.
  - intros a b _ _ H0 H H1. split; [exact I|].
    destruct a as [a| | |]; try discriminate H0; destruct b as [b| | |]; try discriminate.
    unfold nfrac. cbn [nmul nadd ndiv nofZ nleb numT_Num XNumT XNum] in *. rewrite xleb_fin, Rleb_true in *.
    rewrite xdiv_fin by lra. cbn [xadd xmul xleb]. rewrite !Rleb_true. lra.
Qed.

Lemma exact_ladder {C P Opt} (W : world X C P Opt) (fair : rand X C P -> Prop) (interrupts : bool) (s : sampler X C P) :
  reachable W fair interrupts s ->
  temperatures (h_beta (history_of s)) /\ (s_warmup s = true -> Forall (eq (Fin 0)) (h_beta (history_of s))).
Proof.
  intros H. destruct (reachable_ladder W fair interrupts (fun _ => True) x_unit_interval s H) as (A & _ & B). split; auto.
Qed.

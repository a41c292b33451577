(** * The kernels in exact arithmetic and in binary64 *)
From Coq Require Import Reals ZArith List Bool Lia Lra Floats.SpecFloat.
From Coq Require Import List.
From Verif Require Import Num PyBase PyBaseFacts XReal FloatNum Scaler ScalerStruct Geometry Mcmc SpecMcmc McmcFacts McmcInv McmcJunk.
Import ListNotations.
Open Scope R_scope.

(** ** Special values *)
Definition x_undefined (a : X) : Prop := a = NInf \/ a = NaN.
Definition x_random (a : X) : Prop := exists u, a = Fin u /\ 0 <= u < 1.
Lemma X_ieee : @ieee_like X XNumT x_undefined x_random.
Proof.
  constructor; unfold x_undefined, x_random.
  - left. reflexivity.
  - intros a b [->| ->]; destruct b; cbn; auto.
  - intros a b [->| ->]; destruct b; cbn; auto.
  - intros a b [->| ->] H; destruct b as [y| | |]; cbn in *; auto; try discriminate. unfold xinf_mul. apply Rleb_true in H. repeat rcase; auto; lra.
  - intros a [->| ->]; cbn; auto.
  - cbn. repeat split. apply Rltb_true. lra.
  - intros v [u [-> Hu]]. cbn. apply Rltb_false. lra.
Qed.

Definition b64_undefined (a : B64) : Prop := a = S754_infinity true \/ a = S754_nan.
(** numpy's random(): non-negative *)
Definition b64_random (a : B64) : Prop := SFleb (b64_ofZ 0) a = true.
Lemma B64_ieee exp log pow erf erfinv pi :
  exp (S754_infinity true) = S754_zero false -> exp S754_nan = S754_nan ->
  @ieee_like B64 (B64NumT exp log pow erf erfinv pi) b64_undefined b64_random.
Proof.
  intros E1 E2. constructor; unfold b64_undefined, b64_random.
  - left. reflexivity.
  - intros a b [->| ->]; destruct b as [[]|[]| |[] ? ?]; cbn; auto.
  - intros a b [->| ->]; destruct b as [[]|[]| |[] ? ?]; cbn; auto.
  - intros a b [->| ->] H; destruct b as [[]|[]| |[] ? ?]; cbn in *; auto; try discriminate.
  - intros a [->| ->]; cbn; [right; exact E1|left; now rewrite E2].
  - repeat split; vm_compute; reflexivity.
  - intros v H. destruct v as [[]|[]| |[] ? ?]; cbn in *; auto; discriminate.
Qed.

(** ** alpha is a probability *)
Lemma accept_prob_range (a : X) : exists p, accept_prob a = Fin p /\ 0 <= p <= 1.
Proof.
  unfold accept_prob. destruct a as [x| | |]; cbn.
  - pose proof (exp_pos x). unfold nmin2; cbn. rcase; cbn; eexists; split; try reflexivity; lra.
  - exists 1. split; [reflexivity|lra].
  - unfold nmin2; cbn. rcase; [|lra]. exists 0. split; [reflexivity|lra].
  - exists 0. split; [reflexivity|lra].
Qed.
Lemma accept_prob_range_b64 exp log pow erf erfinv pi (a : B64) :
  (exp a = S754_nan \/ SFleb (b64_ofZ 0) (exp a) = true) ->
  let p := @accept_prob B64 (B64NumT exp log pow erf erfinv pi) a in SFleb (b64_ofZ 0) p = true /\ SFleb p (b64_ofZ 1) = true.
Proof.
  intros H. unfold accept_prob, nmin2. cbn [nexp B64NumT nisnan numT_Num nltb nofZ B64Num].
  change (b64_isnan (b64_ofZ 1)) with false. cbv iota.
  destruct H as [H|H].
  - rewrite H. cbn. split; reflexivity.
  - destruct (b64_isnan (exp a)) eqn:En; [destruct (exp a); discriminate|].
    destruct (SFltb (exp a) (b64_ofZ 1)) eqn:E1.
    + rewrite En. split; [exact H|]. unfold SFltb, SFleb in *. destruct (SFcompare (exp a) (b64_ofZ 1)) as [[]|]; auto; discriminate.
    + change (b64_isnan (b64_ofZ 1)) with false. cbv iota. split; reflexivity.
Qed.
Lemma step_alpha_accept {T B} {NT : NumT T} (env : kernel_env T B) beta step r i st st' stop :
  is_step env beta step -> step r i st = Ok (st', stop) ->
  length (m_alpha st') = length (w_x (m_w st)) /\ forall a, In a (m_alpha st') -> exists l, a = accept_prob l.
Proof.
  intros [[nu [ic [ch ->]]]|[[ch ->]|[[nu [ic [ch ->]]]|[ch ->]]]];
    [unfold ppcn_step, flow_inverse|unfold prwm_step, flow_inverse|unfold pcn_step|unfold rwm_step];
  (match goal with |- bind ?M _ = _ -> _ => destruct M as [[[? ?] ?]|]; cbn [bind]; [|discriminate] end;
   match goal with |- bind ?M _ = _ -> _ => destruct M as [?|]; cbn [bind]; [|discriminate] end;
   match goal with |- context [plateau ?q1 ?q2 ?q3 ?q4] => destruct (plateau q1 q2 q3 q4) as [[? ?] ?] end;
   let H := fresh in intros H; injection H as <- <-; cbn [m_alpha]; split;
   [rewrite map_length, seq_length; reflexivity|]; let Ha := fresh in intros ? Ha; apply in_map_iff in Ha as [? [<- _]]; eexists; reflexivity).
Qed.

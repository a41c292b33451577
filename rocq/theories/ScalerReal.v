(** * A point with a finite image and a finite log-Jacobian is finite *)
From Coq Require Import Reals ZArith List Bool Lia Lra.
From Coq Require Import List.
From Verif Require Import Num PyBase PyBaseFacts XReal RList Scaler ScalerStruct SpecScaler ScalerFacts ConfigFacts.
Import ListNotations.
Set Bullet Behavior "Strict Subproofs".
Local Open Scope R_scope.

Lemma xadd_fin_inv a b c : xadd a b = Fin c -> is_fin a /\ is_fin b.
Proof. destruct a, b; try discriminate. split; eexists; reflexivity. Qed.
Lemma xsum_fin_inv (l : list X) c : @nsum X XNum l = Fin c -> Forall is_fin l.
Proof.
  revert c. induction l as [|a l IH]; intros c H; [constructor|]. apply xadd_fin_inv in H as [H1 [r H2]]. constructor; [exact H1|]. now apply (IH r).
Qed.
Lemma inv1_real t lo hi u : is_fin (fst (inv1 (NT := XNumT) t lo hi u)) -> is_fin (snd (inv1 (NT := XNumT) t lo hi u)) -> is_fin u.
Proof.
  unfold inv1. destruct (kind_of lo hi) eqn:K; cbn [fst snd]; try tauto.
  destruct u; [eexists; reflexivity| | |]; intros _ H; exfalso; revert H.
  all: unfold inverse_both1; destruct t; cbn [snd]; unfold nlogaddexp; cbn -[IZR]; unfold kind_of in K; cbn in K;
    destruct lo, hi; cbn -[IZR] in *; try discriminate K; repeat (rcase; cbn -[IZR]); intros [q Hq]; try discriminate Hq; try lra.
  exfalso. revert E2. replace (1 + 0) with 1 by ring. rewrite ln_1. replace (- (0 + 0)) with 0 by ring. rewrite exp_0. lra.
Qed.
Lemma inverse_map_real t lo hi u : length lo = length u -> length hi = length u ->
  Forall is_fin (map fst (map3' (inv1 (NT := XNumT) t) lo hi u)) -> Forall is_fin (map snd (map3' (inv1 (NT := XNumT) t) lo hi u)) -> Forall is_fin u.
Proof.
  revert lo hi. induction u as [|a u IH]; intros [|l lo] [|h hi] L1 L2; try discriminate; [constructor|]. cbn [map3' map]. intros H1 H2.
  inversion H1; subst. inversion H2; subst. injection L1 as L1. injection L2 as L2. constructor; [eapply inv1_real; eassumption|apply (IH lo hi); assumption].
Qed.
Lemma xaffine_real m s a : s <> 0 -> is_fin (xadd (Fin m) (xmul (Fin s) a)) -> is_fin a.
Proof.
  intros Hs H. destruct a; [eexists; reflexivity| | |]; exfalso; destruct H as [q H]; cbn in H; unfold xinf_mul in H; revert H; repeat (rcase; cbn); intros; try discriminate; lra.
Qed.
Lemma affine_real m s (u : list X) : length m = length u -> length s = length u -> Forall (fun x => x <> 0) s ->
  Forall is_fin (@vadd X XNum (map Fin m) (map2 (@nmul X XNum) (map Fin s) u)) -> Forall is_fin u.
Proof.
  revert m s. induction u as [|a u IH]; intros [|x m] [|y s] L1 L2; try discriminate; [intros; constructor|]. intros HS H.
  inversion HS; subst. cbn in H. inversion H; subst. injection L1 as L1. injection L2 as L2. constructor; [eapply xaffine_real; eassumption|apply (IH m s); assumption].
Qed.
Lemma all_fin (u : list X) : Forall is_fin u -> exists v, u = map Fin v.
Proof. induction 1 as [|a u [r ->] _ [v ->]]; [now exists []|now exists (r :: v)]. Qed.
Lemma fin_all x : Forall is_fin (map Fin x).
Proof. induction x; constructor; [eexists; reflexivity|assumption]. Qed.

Lemma inverse_real r n rows junk u x l : constructed r n rows -> diagonal_scaling r n -> length junk = n -> length u = n ->
  inverse_row r junk u = Ok (map Fin x, Fin l) -> exists v, u = map Fin v.
Proof.
  intros HC HS HJ HU H. apply all_fin. destruct (constructed_facts r n rows HC) as [W [N [ELo [EHi HA]]]].
  pose proof W as [Wl Wh _ _ _ _].
  assert (I0 : forall u (l' : X), length u = n -> inverse0_row r junk u = Ok (map Fin x, l') -> is_fin l' -> Forall is_fin u).
  { intros v l' Hv E [q ->]. rewrite inverse0_row_spec in E by congruence. apply Ok_inj in E. injection E as E1 E2.
    eapply inverse_map_real; [| |rewrite E1; apply fin_all|eapply xsum_fin_inv; exact E2]; congruence. }
  unfold inverse_row in H. destruct (scale r) eqn:Es; [|eapply I0; eauto; eexists; reflexivity].
  destruct HS as [HS|[Hd (m & s & Hm & Hsg & Lm & Ls & HP)]]; [congruence|].
  unfold inverse_affine_row in H. rewrite Hm, Hd, Hsg in H. cbn [of_option bind] in H. rewrite map_length, HU, Lm, Nat.eqb_refl in H. cbn [bind] in H.
  apply bind_ok in H as [[x' l'] [E H]]. apply Ok_inj in H. injection H as -> H. apply xadd_fin_inv in H as [_ H].
  apply (affine_real m s); [congruence|congruence|eapply Forall_impl; [|exact HP]; cbn; intros; lra|].
  eapply I0; [|exact E|exact H]. unfold vadd. rewrite map2_length_eq with (n := n); rewrite ?map_length; auto. apply map2_length_eq; now rewrite ?map_length.
Qed.

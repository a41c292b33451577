(** * The binary64 instance and Flocq

    The operations of SpecFloat on well-formed numbers are those of Flocq's
    BinarySingleNaN, hence correctly rounded. *)
From Coq Require Import ZArith Reals List Bool Lia Lra Floats.SpecFloat.
From Flocq Require Import Core.Core IEEE754.BinarySingleNaN Mult_error.
From Verif Require Import Num FloatNum Particles Sampler SpecReach SpecRun BetaFacts.

Local Notation prec := b64_prec.
Local Notation emax := b64_emax.
#[local] Instance Hprec : Prec_gt_0 prec := eq_refl.
#[local] Instance Hmax : Prec_lt_emax prec emax := eq_refl.
Notation bf := (binary_float prec emax).

(** a well-formed number *)
Definition b64_good (x : B64) : Prop := valid_binary prec emax x = true.
Lemma good_B2SF (x : bf) : b64_good (B2SF x).
Proof. apply valid_binary_B2SF. Qed.
Lemma good_is (x : B64) : b64_good x -> exists y : bf, x = B2SF y.
Proof. intros H. exists (SF2B x H). now rewrite B2SF_SF2B. Qed.

Lemma round_nearest_even_equiv s m l : round_nearest_even m l = choice_mode mode_NE s m l.
Proof. case l; [reflexivity|intro c]. case c; [|reflexivity..]. now simpl; unfold Round.cond_incr; case Z.even. Qed.
Lemma binary_round_aux_equiv sx mx ex lx :
  SpecFloat.binary_round_aux prec emax sx mx ex lx = BinarySingleNaN.binary_round_aux prec emax mode_NE sx mx ex lx.
Proof.
  unfold SpecFloat.binary_round_aux, BinarySingleNaN.binary_round_aux. set (mrse' := shr_fexp _ _ _). case mrse'; intros mrs' e'; simpl.
  now rewrite (round_nearest_even_equiv sx).
Qed.
Lemma binary_round_equiv s m e : SpecFloat.binary_round prec emax s m e = BinarySingleNaN.binary_round prec emax mode_NE s m e.
Proof.
  unfold SpecFloat.binary_round, BinarySingleNaN.binary_round, shl_align_fexp. set (mez := shl_align _ _ _); case mez as [mz ez].
  apply binary_round_aux_equiv.
Qed.
Lemma binary_normalize_equiv m e szero : SpecFloat.binary_normalize prec emax m e szero =
  B2SF (BinarySingleNaN.binary_normalize prec emax Hprec Hmax mode_NE m e szero).
Proof.
  case m as [ | p | p]; [now simpl|simpl; rewrite B2SF_SF2B; apply binary_round_equiv..].
Qed.
Lemma add_equiv (x y : bf) : SFadd prec emax (B2SF x) (B2SF y) = B2SF (Bplus mode_NE x y).
Proof.
  case x as [sx|sx| |sx mx ex Bx]; case y as [sy|sy| |sy my ey By]; [now (trivial || simpl; case Bool.eqb)..|].
  apply binary_normalize_equiv.
Qed.
Lemma mul_equiv (x y : bf) : SFmul prec emax (B2SF x) (B2SF y) = B2SF (Bmult mode_NE x y).
Proof.
  case x as [sx|sx| |sx mx ex Bx]; case y as [sy|sy| |sy my ey By]; [now trivial..|]. simpl. rewrite B2SF_SF2B. apply binary_round_aux_equiv.
Qed.
Lemma div_equiv (x y : bf) : SFdiv prec emax (B2SF x) (B2SF y) = B2SF (Bdiv mode_NE x y).
Proof.
  case x as [sx|sx| |sx mx ex Bx]; case y as [sy|sy| |sy my ey By]; [now (trivial || simpl; case Bool.eqb)..|].
  simpl. rewrite B2SF_SF2B. set (melz := SFdiv_core_binary _ _ _ _ _ _). case melz as [[mz ez] lz]. apply binary_round_aux_equiv.
Qed.
Lemma ofZ_equiv z : b64_ofZ z = B2SF (BinarySingleNaN.binary_normalize prec emax Hprec Hmax mode_NE z 0 false).
Proof. apply binary_normalize_equiv. Qed.
Lemma good_ofZ z : b64_good (b64_ofZ z).
Proof. rewrite ofZ_equiv. apply good_B2SF. Qed.

(** ** Comparison *)
Lemma leb_finite (x y : bf) : is_finite x = true -> is_finite y = true -> (SFleb (B2SF x) (B2SF y) = true <-> (B2R x <= B2R y)%R).
Proof.
  intros Fx Fy. change (SFleb (B2SF x) (B2SF y)) with (Bleb x y). rewrite (Bleb_correct _ _ x y Fx Fy).
  destruct (Rle_bool_spec (B2R x) (B2R y)); split; auto; try discriminate. intros. lra.
Qed.
Lemma leb_refl (x : bf) : is_nan x = false -> SFleb (B2SF x) (B2SF x) = true.
Proof.
  intros H. destruct x as [s|s| |s m e B]; try discriminate; try (destruct s; reflexivity).
  apply leb_finite; auto. lra.
Qed.
Lemma leb_not_nan (x y : bf) : SFleb (B2SF x) (B2SF y) = true -> is_nan x = false /\ is_nan y = false.
Proof. destruct x as [[]|[]| |[] m e B], y as [[]|[]| |[] m' e' B']; cbn; auto; discriminate. Qed.
Lemma leb_trans (x y z : bf) : SFleb (B2SF x) (B2SF y) = true -> SFleb (B2SF y) (B2SF z) = true -> SFleb (B2SF x) (B2SF z) = true.
Proof.
  intros H1 H2. destruct (is_finite x) eqn:Fx.
  - destruct (is_finite y) eqn:Fy.
    + destruct (is_finite z) eqn:Fz.
      * apply leb_finite in H1; auto. apply leb_finite in H2; auto. apply leb_finite; auto. lra.
      * destruct z as [[]|[]| |[] m e B]; try discriminate; destruct x as [[]|[]| |[] ? ? ?], y as [[]|[]| |[] ? ? ?]; cbn in *; auto; try discriminate.
    + destruct y as [[]|[]| |[] m e B]; try discriminate; destruct x as [[]|[]| |[] ? ? ?], z as [[]|[]| |[] ? ? ?]; cbn in *; auto; try discriminate.
  - destruct x as [[]|[]| |[] m e B]; try discriminate; destruct y as [[]|[]| |[] ? ? ?]; cbn in *; try discriminate; destruct z as [[]|[]| |[] ? ? ?]; cbn in *; auto; try discriminate.
Qed.

(** ** The midpoint *)
Notation fmt := (generic_format radix2 (SpecFloat.fexp prec emax)).
Notation rnd := (round radix2 (SpecFloat.fexp prec emax) ZnearestE).
Lemma fmt_double (a : R) : fmt a -> fmt (2 * a)%R.
Proof.
  intros Fa. destruct (Req_dec a 0) as [->|Ha]; [rewrite Rmult_0_r; apply generic_format_0|].
  set (m := Ztrunc (scaled_mantissa radix2 (SpecFloat.fexp prec emax) a)). set (e := cexp radix2 (SpecFloat.fexp prec emax) a).
  assert (E : a = F2R (Float radix2 m e)) by exact Fa.
  apply (generic_format_F2R' _ _ _ (Float radix2 m (e + 1))).
  - transitivity (2 * F2R (Float radix2 m e))%R; [|exact (eq_sym (f_equal (Rmult 2) E))]. unfold F2R. cbn [Fnum Fexp]. rewrite bpow_plus. change (bpow radix2 1) with 2%R. ring.
  - intros _. unfold e, cexp. replace (2 * a)%R with (a * bpow radix2 1)%R by (change (bpow radix2 1) with 2%R; ring).
    rewrite (mag_mult_bpow radix2 a 1 Ha). cbn [Fexp]. unfold SpecFloat.fexp. lia.
Qed.
Lemma fmt_of (x : bf) : fmt (B2R x).
Proof. apply generic_format_B2R. Qed.
Lemma rnd_between (lo x hi : R) : fmt lo -> fmt hi -> (lo <= x <= hi)%R -> (lo <= rnd x <= hi)%R.
Proof. intros Fl Fh [H1 H2]. split; [apply round_ge_generic|apply round_le_generic]; auto; try (apply fexp_correct; reflexivity); apply valid_rnd_N. Qed.
Definition half_bf : bf := Bdiv mode_NE (BinarySingleNaN.binary_normalize prec emax Hprec Hmax mode_NE 1 0 false)
  (BinarySingleNaN.binary_normalize prec emax Hprec Hmax mode_NE 2 0 false).
Lemma half_value : B2R half_bf = (1 / 2)%R /\ is_finite half_bf = true.
Proof.
  assert (E : B2SF half_bf = S754_finite false 4503599627370496 (-53)).
  { unfold half_bf. rewrite <- div_equiv, <- !binary_normalize_equiv. vm_compute. reflexivity. }
  rewrite <- SF2R_B2SF, <- is_finite_SF_B2SF, E. split; [|reflexivity]. unfold SF2R, F2R. cbn [Fnum Fexp cond_Zopp]. cbn. lra.
Qed.
Lemma bpow_big : (2 < bpow radix2 emax)%R.
Proof. change 2%R with (bpow radix2 1). apply bpow_lt. reflexivity. Qed.
Lemma mid_between (a b : bf) : is_finite a = true -> is_finite b = true -> (0 <= B2R a)%R -> (B2R a <= B2R b)%R -> (B2R b <= 1)%R ->
  is_finite (Bmult mode_NE (Bplus mode_NE b a) half_bf) = true /\ (B2R a <= B2R (Bmult mode_NE (Bplus mode_NE b a) half_bf) <= B2R b)%R.
Proof.
  intros Fa Fb Ha Hab Hb. pose proof (Bplus_correct prec emax _ _ mode_NE b a Fb Fa) as P. cbn [round_mode] in P.
  pose proof (rnd_between (2 * B2R a) (B2R b + B2R a) (2 * B2R b) (fmt_double _ (fmt_of a)) (fmt_double _ (fmt_of b)) ltac:(lra)) as Q.
  pose proof bpow_big as G. destruct half_value as [Eh Fh].
  rewrite Rlt_bool_true in P by (rewrite Rabs_pos_eq; lra). destruct P as (P & PF & _).
  pose proof (Bmult_correct prec emax _ _ mode_NE (Bplus mode_NE b a) half_bf) as M. cbn [round_mode] in M. rewrite P, Eh in M.
  pose proof (rnd_between (B2R a) (rnd (B2R b + B2R a) * (1 / 2)) (B2R b) (fmt_of a) (fmt_of b) ltac:(lra)) as Q2.
  rewrite Rlt_bool_true in M by (rewrite Rabs_pos_eq; lra). destruct M as (M & MF & _). rewrite MF, PF, Fh, M. split; auto.
Qed.
Lemma one_value : B2SF (BinarySingleNaN.binary_normalize prec emax Hprec Hmax mode_NE 1 0 false) = S754_finite false 4503599627370496 (-52).
Proof. rewrite <- binary_normalize_equiv. reflexivity. Qed.
Lemma finite_between (x : bf) : SFleb (b64_ofZ 0) (B2SF x) = true -> SFleb (B2SF x) (b64_ofZ 1) = true ->
  is_finite x = true /\ (0 <= B2R x <= 1)%R.
Proof.
  intros H0 H1.
  assert (F : is_finite x = true). { change (b64_ofZ 0) with (S754_zero false) in H0. replace (b64_ofZ 1) with (S754_finite false 4503599627370496 (-52)) in H1 by (vm_compute; reflexivity).
    destruct x as [[]|[]| |[] m e B]; auto; discriminate. }
  split; auto. rewrite ofZ_equiv in H0, H1. apply leb_finite in H0; auto. apply leb_finite in H1; auto.
  rewrite <- (SF2R_B2SF _ _ (BinarySingleNaN.binary_normalize _ _ _ _ mode_NE 1 0 false)), one_value in H1. split; [exact H0|].
  eapply Rle_trans; [exact H1|]. unfold SF2R, F2R. cbn. lra.
Qed.

Lemma b64_unit_interval exp log pow erf erfinv pi : @unit_interval B64 (B64NumT exp log pow erf erfinv pi) b64_good.
Proof.
  constructor; cbn [nleb nofZ numT_Num B64NumT B64Num].
  - apply good_ofZ.
  - apply good_ofZ.
  - reflexivity.
  - intros a b Ha Hb H. destruct (good_is a Ha) as [a' ->], (good_is b Hb) as [b' ->]. destruct (leb_not_nan _ _ H). split; now apply leb_refl.
  - intros a b c Ha Hb Hc. destruct (good_is a Ha) as [a' ->], (good_is b Hb) as [b' ->], (good_is c Hc) as [c' ->]. apply leb_trans.
  - intros a b Ha Hb H0 H H1. destruct (good_is a Ha) as [a' ->], (good_is b Hb) as [b' ->].
    pose proof (leb_trans _ _ _ (eq_ind _ (fun z => SFleb z (B2SF a') = true) H0 _ (ofZ_equiv 0)) H) as H0b. rewrite <- ofZ_equiv in H0b.
    assert (H1a : SFleb (B2SF a') (b64_ofZ 1) = true). { rewrite (ofZ_equiv 1) in H1 |- *. apply (leb_trans _ _ _ H H1). }
    destruct (finite_between a' H0 H1a) as [Fa Ra], (finite_between b' H0b H1) as [Fb Rb].
    apply leb_finite in H; auto. destruct (mid_between a' b' Fa Fb ltac:(lra) H ltac:(lra)) as [Fm [M1 M2]].
    unfold nfrac. cbn [nmul nadd ndiv nofZ numT_Num B64NumT B64Num]. rewrite !ofZ_equiv, div_equiv, add_equiv, mul_equiv. fold half_bf.
    split; [apply good_B2SF|]. split; apply leb_finite; auto.
Qed.

Lemma binary64_ladder {C P Opt} exp log pow erf erfinv pi :
  let _ := B64NumT exp log pow erf erfinv pi in
  forall (W : world B64 C P Opt) (fair : rand B64 C P -> Prop) (interrupts : bool) (s : sampler B64 C P),
  reachable W fair interrupts s ->
  temperatures (h_beta (history_of s)) /\ (s_warmup s = true -> Forall (eq (b64_ofZ 0)) (h_beta (history_of s))).
Proof.
  intros NT W fair interrupts s H.
  destruct (@reachable_ladder B64 C P Opt NT W fair interrupts b64_good (b64_unit_interval exp log pow erf erfinv pi) s H) as (A & _ & B). split; auto.
Qed.

(** * The binary64 instance of the number class

    IEEE-754 binary64 (precision 53, emax 1024, round to nearest even) by the
    executable specification [SpecFloat] of the standard library: pure Gallina,
    no primitive floats and no axioms.  The transcendental functions of libm /
    scipy are parameters of the [NumT] instance. *)
From Coq Require Import ZArith List Bool Floats.SpecFloat.
From Verif Require Import Num.

Definition B64 := spec_float.
Definition b64_prec : Z := 53.
Definition b64_emax : Z := 1024.

Definition b64_ofZ (z : Z) : B64 := binary_normalize b64_prec b64_emax z 0 false.
Definition b64_isfinite (x : B64) : bool :=
  match x with S754_zero _ | S754_finite _ _ _ => true | _ => false end.
Definition b64_isnan (x : B64) : bool := match x with S754_nan => true | _ => false end.
(** int(x): truncation towards zero *)
Definition b64_trunc (x : B64) : option Z :=
  match x with
  | S754_zero _ => Some 0%Z
  | S754_finite s m e =>
      let a := if (0 <=? e)%Z then (Z.pos m * 2 ^ e)%Z else (Z.pos m / 2 ^ (- e))%Z in
      Some (if s then (- a)%Z else a)
  | _ => None
  end.

#[global] Instance B64Num : Num B64 := {
  nofZ := b64_ofZ;
  nadd := SFadd b64_prec b64_emax; nsub := SFsub b64_prec b64_emax;
  nmul := SFmul b64_prec b64_emax; ndiv := SFdiv b64_prec b64_emax;
  nopp := SFopp; nabs := SFabs; nsqrt := SFsqrt b64_prec b64_emax;
  nltb := SFltb; nleb := SFleb; neqb := SFeqb;
  nisfinite := b64_isfinite; nisnan := b64_isnan;
  ninf := S754_infinity false; ntrunc := b64_trunc
}.

(** the transcendental functions are arguments *)
Definition B64NumT (exp log : B64 -> B64) (pow : B64 -> B64 -> B64) (erf erfinv : B64 -> B64) (pi : B64) : NumT B64 :=
  {| numT_Num := B64Num; nexp := exp; nlog := log; npow := pow; nerf := erf; nerfinv := erfinv; npi := pi |}.

(** NumB64.v -- the arithmetic of [double]: IEEE 754 binary64 with round to nearest even,
    as defined by the standard library (Coq.Floats.SpecFloat, the specification of Coq's
    primitive floats).  All NaNs are one value.  Decimal literals: a non-negative exponent
    is an exact integer rounded once; a negative one is the correctly rounded quotient of
    two integers that are exact in binary64 (true of every literal of the code). *)

From Coq Require Import ZArith NArith Bool SpecFloat.
From Verif Require Import Base.

Definition prec : Z := 53.
Definition emax : Z := 1024.

Definition B64 := spec_float.

Definition b64_of_Z (z : Z) : B64 := binary_normalize prec emax z 0 false.

Definition b64_lit (m e : Z) : B64 :=
  if (0 <=? e)%Z then b64_of_Z (m * 10 ^ e)
  else SFdiv prec emax (b64_of_Z m) (b64_of_Z (10 ^ (- e))).

(** Truncation towards zero. *)
Definition b64_trunc (x : B64) : option Z :=
  match x with
  | S754_zero _ => Some 0%Z
  | S754_finite s m e =>
      let a := (if (0 <=? e) then Zpos m * 2 ^ e else Zpos m / 2 ^ (- e))%Z in
      Some (if s then (- a)%Z else a)
  | _ => None
  end.

#[global] Instance NumB64 : Num B64 := {|
  nadd := SFadd prec emax;
  nsub := SFsub prec emax;
  nmul := SFmul prec emax;
  nopp := SFopp;
  nle := SFleb;
  nlt := SFltb;
  nlit := b64_lit;
  nofN := fun n => b64_of_Z (Z.of_N n);
  ninf := S754_infinity false;
  ndblmin := binary_normalize prec emax 1 (-1022) false;
  ntrunc := b64_trunc
|}.

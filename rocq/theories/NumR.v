(** NumR.v -- exact real arithmetic.  Theorems about it describe the code without rounding.
    There is no infinity among the reals: [inf] stands for the value of INFINITY (the
    stop time of an instance without one) and is an arbitrary parameter. *)

From Coq Require Import Reals ZArith NArith Bool.
From Verif Require Import Base.

Definition Rtrunc (x : R) : Z := if Rle_dec 0 x then Int_part x else (- Int_part (- x))%Z.
Definition Rleb (a b : R) : bool := if Rle_dec a b then true else false.
Definition Rltb (a b : R) : bool := if Rlt_dec a b then true else false.

Definition NumR (inf : R) : Num R := {|
  nadd := Rplus;
  nsub := Rminus;
  nmul := Rmult;
  nopp := Ropp;
  nle := Rleb;
  nlt := Rltb;
  nlit := fun m e => (IZR m * powerRZ 10 e)%R;
  nofN := fun n => IZR (Z.of_N n);
  ninf := inf;
  ndblmin := powerRZ 2 (-1022);
  ntrunc := fun x => Some (Rtrunc x)
|}.

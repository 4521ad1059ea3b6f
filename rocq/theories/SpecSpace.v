(** SpecSpace.v -- the equations of StateSpace in terms of the values read (specification for C37). *)
From Coq Require Import List NArith ZArith Bool.
From Verif Require Import Base Instance ModelIface Core Fmi3 Api Fmus SpecVars SpecOde.
Import ListNotations.
Set Implicit Arguments.
Section Space.
  Context {F : Type} {NF : Num F}.
  (** Row [i] of a matrix with [k] columns, stored row by row as fmi3GetFloat64 returns it. *)
  Definition row_of (k i : nat) (a : list F) : list F := firstn k (skipn (i * k) a).
  (** P x + Q u for a P with [rows] rows and [nx] columns, a Q with [rows] rows and [nu] columns; every
      component is summed from 0 on, first the terms of x, then those of u. *)
  Definition affine (rows nx nu : nat) (P Q x u : list F) : list F :=
    map (fun i => sumprod nu (row_of nu i Q) u (sumprod nx (row_of nx i P) x nzero)) (seq 0 rows).
End Space.

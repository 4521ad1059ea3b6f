(** SpecOrbit.v -- the trajectory of VanDerPol (specification for C77). *)
From Coq Require Import List NArith ZArith Bool Arith Reals.
From Verif Require Import Base SpecEqs.
Import ListNotations.
Set Implicit Arguments.

(** x0, x1: one step of 0.01 of the Euler method, in any arithmetic; [vanderpol] is the equation of x1. *)
Section Orbit.
  Context {F : Type} {NF : Num F}.
  Definition orbit_next (mu : F) (x : F * F) : F * F :=
    (nadd (fst x) (nmul (nlit 1 (-2)) (snd x)), nadd (snd x) (nmul (nlit 1 (-2)) (vanderpol [fst x; snd x; mu]))).
  Definition orbit_after (n : nat) (mu : F) (x : F * F) : F * F := Nat.iter n (orbit_next mu) x.
End Orbit.

(** SpecLinear.v -- the trajectory of StateSpace (specification for C78). *)
From Coq Require Import List NArith ZArith Bool Arith Reals.
From Verif Require Import Base SpecOde SpecSpace.
Import ListNotations.
Set Implicit Arguments.
Section Linear.
  Context {F : Type} {NF : Num F}.
  (** One step of 0.001 of the Euler method for x' = A x + B u with [n] states and [m] inputs, the input held; A and B row
      by row. *)
  Definition linear_next (n m : nat) (A B u x : list F) : list F :=
    map (fun p => nadd (fst p) (nmul (nlit 1 (-3)) (snd p))) (combine x (affine n n m A B x u)).
  Definition linear_after (k n m : nat) (A B u x : list F) : list F := Nat.iter k (linear_next n m A B u) x.
End Linear.
(** a v + b w *)
Definition mix (a b : R) (v w : list R) : list R := map (fun p => (a * fst p + b * snd p)%R) (combine v w).

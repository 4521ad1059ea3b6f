(** SpecDeriv.v -- partial derivatives as a caller sees them (specification for C33 and C34). *)
From Coq Require Import List NArith ZArith Reals Bool.
From Verif Require Import Base Instance ModelIface Core Fmi3 Fmi2 Api Fmus.
Import ListNotations.
Set Implicit Arguments.

(** The first [n] products of two vectors, summed up. *)
Fixpoint inner (n : nat) (a b : list R) : R :=
  match n, a, b with S n', x :: a', y :: b' => (x * y + inner n' a' b')%R | _, _, _ => 0%R end.

(** The FMUs with an implementation of getPartialDerivative. *)
Definition has_partials (f : FMU) : bool := match f with VanDerPol | Roberts => true | _ => false end.

(** The answer to a request for the derivative of [u] with respect to [k] (one unknown, one known, seed 1). *)
Section Partial.
  Context {F : Type} {NF : Num F} (m : Model F) (szof : N).
  Notation D := (md m).
  Definition partial3 (env : Env) (s : Sys F D) (u k : N) (x : F) : Prop :=
    exists b s' t, exec3 m szof 0 env (O3GetDirectionalDerivative (Some [u]) 1 (Some [k]) 1 (Some [nlit 1 0]) (Some [b])) s =
      Done (OK, OFloats (Some [x]), s', t).
  Definition partial2 (env : Env) (s : Sys F D) (u k : N) (x : F) : Prop :=
    exists b s' t, exec2 m szof 0 env (O2GetDirectionalDerivative (Some [u]) 1 (Some [k]) 1 (Some [nlit 1 0]) (Some [b])) s =
      Done (OK, OFloats (Some [x]), s', t).
End Partial.

(** [l] with the [n]-th element replaced by [z] *)
Definition replaced (n : nat) (z : R) (l : list R) : list R := firstn n l ++ z :: skipn (S n) l.

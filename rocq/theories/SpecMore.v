(** SpecMore.v -- what simulate_fmi3_cs has to write for StateSpace and Resource (specification for C79). *)
From Coq Require Import List NArith ZArith Bool Arith.
From Coq.Init Require Import Byte.
From Verif Require Import Base Instance ModelIface Core Fmi3 Api Fmus SpecSpace SpecLinear SpecPrograms.
Import ListNotations.
Set Implicit Arguments.
Section More.
  Context {F : Type} {NF : Num F}.
  (** The start values of StateSpace/FMI3.xml: three states, inputs and outputs, all matrices the identity, u = (1, 2, 3), x = 0. *)
  Definition unit3 : list F := [nlit 1 0; nzero; nzero; nzero; nlit 1 0; nzero; nzero; nzero; nlit 1 0].
  Definition u3 : list F := [nofN 1; nofN 2; nofN 3].
  Definition x3 (k : nat) : list F := linear_after k 3 3 unit3 unit3 u3 [nzero; nzero; nzero].
  Definition y3 (k : nat) : list F := affine 3 3 3 unit3 unit3 (x3 k) u3.
  (** Line [k]: the time and y. *)
  Definition space_row (k : nat) : F * Out F (md (model_of (F := F) FMI3 StateSpace)) := (point StateSpace k, OVals TFloat64 (Some (y3 k))).
  (** Line [k] for a file that begins with the character [c]. *)
  Definition resource_row (c : Z) (k : nat) : F * Out F (md (model_of (F := F) FMI3 Resource)) := (point Resource k, OVals TInt32 (Some [c])).
End More.
Definition y_txt : bytes := [x79; x2e; x74; x78; x74].

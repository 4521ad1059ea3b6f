(** SpecClocks.v -- the ticks of the clocks of Clocks (specification for C39 and C40). *)
From Coq Require Import List NArith ZArith Bool.
From Verif Require Import Base Instance ModelIface Core Fmi3 Api.
Import ListNotations.
Set Implicit Arguments.
Local Open Scope Z_scope.

(** How often each input clock was activated, and whether the output clock has ticked and was not read. *)
Record Tally := mkTally { ticks1 : Z; ticks2 : Z; ticks3 : Z; ticked : bool }.
Definition tally0 : Tally := mkTally 0 0 0 false.
Definition ticks (a : Tally) : Z := ticks1 a + ticks2 a + ticks3 a.
Definition every_fifth (n : Z) : bool := n mod 5 =? 0.

Definition tick (c : N) (a : Tally) : Tally :=
  let b := every_fifth (ticks a + 1) in
  if N.eqb c 1001 then mkTally (ticks1 a + 1) (ticks2 a) (ticks3 a) b
  else if N.eqb c 1002 then mkTally (ticks1 a) (ticks2 a + 1) (ticks3 a) b
  else if N.eqb c 1003 then mkTally (ticks1 a) (ticks2 a) (ticks3 a + 1) b
  else a.
(** The effect of one call with its status: a successful activation counts, reading the output clock clears
    it, Reset starts anew. *)
Definition tally1 {F D} (o : Op3 F D) (st : Status) (a : Tally) : Tally :=
  match o with
  | O3ActivateModelPartition c _ => match st with OK => tick c a | _ => a end
  | O3GetClock (Some (c :: _)) (S _) _ => if N.eqb c 1005 then mkTally (ticks1 a) (ticks2 a) (ticks3 a) false else a
  | O3Reset => tally0
  | _ => a
  end.
Fixpoint tally {F D X Y : Type} (l : list (Env * Op3 F D)) (obs : list (Status * X * Y)) (a : Tally) : Tally :=
  match l, obs with
  | (_, o) :: l', (st, _, _) :: obs' => tally l' obs' (tally1 o st a)
  | _, _ => a
  end.

(** The lock calls of a call. *)
Definition locks {F} (t : list (Event F)) : list bool :=
  flat_map (fun e => match e with ELock => [true] | EUnlock => [false] | _ => [] end) t.

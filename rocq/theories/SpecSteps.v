(** SpecSteps.v -- specification vocabulary for DoStep (C17-C22, C45, C46). *)
From Coq Require Import List NArith ZArith Bool.
From Verif Require Import Base Instance ModelIface Core Fmi3 Api.
Import ListNotations.
Set Implicit Arguments.

Section SpecSteps.
  Context {F : Type} {NF : Num F}.

  (** [t] lies beyond [p] by more than the tolerance EPSILON, absolute or relative. *)
  Definition beyond (t p : F) : bool := nlt p t && negb (isClose t p).

  Section Inst.
    Context {D : Type}.
    Implicit Types s : Sys F D.
    Definition time_of s : F := time (ctl (sinst s)).
    Definition start_of s : F := startTime (ctl (sinst s)).
    Definition stop_of s : F := stopTime (ctl (sinst s)).
    (** the number of solver steps, a uint64_t *)
    Definition steps_of s : N := nSteps (ctl (sinst s)).
    (** the end of the previous communication step *)
    Definition end_of s : F := nextCommunicationPoint (ctl (sinst s)).

    (** The arguments DoStep has to accept. *)
    Definition acceptable s (ccp h : F) : Prop :=
      isClose ccp (end_of s) = true /\ nle h nzero = false /\ beyond (nadd ccp h) (stop_of s) = false.
  End Inst.

  Section Grid.
    Context (h : F).                                  (* the solver step of the FMU *)
    (** The [n]-th point of the solver grid. *)
    Definition grid (a : F) (n : N) : F := nadd a (nmul (nofN n) h).
    (** The internal time lies on the grid that starts at the start time. *)
    Definition on_grid (c : Ctl F) : Prop :=
      nSteps c = 0%N /\ time c = startTime c \/ time c = grid (startTime c) (nSteps c).
    (** The [k]-th next step number. *)
    Definition later (n : N) (k : nat) : N := N.modulo (n + N.of_nat k) two64.
    (** The time [k] solver steps after [c]. *)
    Definition after (k : nat) (c : Ctl F) : F :=
      match k with O => time c | S _ => grid (startTime c) (later (nSteps c) k) end.
  End Grid.

  (** [s'] is [k] solver steps of size [h] after [s]; start and stop time are those of [s]. *)
  Definition clock {D} (h : F) (k : nat) (s s' : Sys F D) : Prop :=
    time_of s' = after h k (ctl (sinst s)) /\ start_of s' = start_of s /\ stop_of s' = stop_of s /\
    steps_of s' = match k with O => steps_of s | S _ => later (steps_of s) k end.

  (** The calls that set the clock: all others leave it alone, except DoStep, which advances it. *)
  Definition sets_clock3 {D} (o : Op3 F D) : bool :=
    match o with O3SetTime _ | O3EnterInitializationMode _ _ _ | O3Reset | O3SetFMUState _ => true | _ => false end.
  Definition sets_clock2 {D} (o : Op2 F D) : bool :=
    match o with O2SetTime _ | O2SetupExperiment _ _ _ | O2Reset | O2SetFMUstate _ => true | _ => false end.
  Definition is_DoStep3 {D} (o : Op3 F D) : bool := match o with O3DoStep _ _ _ _ _ _ => true | _ => false end.
  Definition is_DoStep2 {D} (o : Op2 F D) : bool := match o with O2DoStep _ _ => true | _ => false end.

  (** The times reported by the intermediate update callback. *)
  Definition reported (t : list (Event F)) : list F :=
    flat_map (fun e => match e with EIntermediateUpdate a => [a] | _ => [] end) t.
End SpecSteps.

(** Communication steps of sizes [hs], the first one from [a]; the point reached by them. *)
Section Chain.
  Context {F : Type} {NF : Num F} {D : Type}.
  Fixpoint chain3 (a : F) (hs : list F) : list (Op3 F D) :=
    match hs with [] => [] | h :: hs => O3DoStep a h true true true true :: chain3 (nadd a h) hs end.
  Fixpoint chain2 (a : F) (hs : list F) : list (Op2 F D) :=
    match hs with [] => [] | h :: hs => O2DoStep a h :: chain2 (nadd a h) hs end.
  Definition upto (a : F) (hs : list F) : F := fold_left nadd hs a.
  (** A DoStep that went to its end: neither an early return nor the end of the simulation. *)
  Definition whole3 (x : Status * Out F D * list (Event F)) : Prop :=
    exists e last t, x = (OK, ODoStep (mkDoStepOut e (Some false) (Some false) last), t).
  Definition whole2 (x : Status * Out F D * list (Event F)) : Prop := fst (fst x) = OK.
End Chain.

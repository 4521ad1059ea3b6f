(** FmuStair.v -- Stair/config.h and Stair/model.c.
    Line numbers refer to Stair/model.c unless stated otherwise. *)

From Coq Require Import List NArith ZArith Bool Arith.
From Verif Require Import Base Instance ModelIface.
Import ListNotations.
Set Implicit Arguments.

(** config.h ValueReference *)
Inductive STVar := STtime | STcounter.
Definition st_var (vr : N) : option STVar :=
  if N.eqb vr 0 then Some STtime else if N.eqb vr 1 then Some STcounter else None.

(** config.h ModelData: one int *)
Record STData := mkST { st_counter : Z }.

Definition st_token : bytes :=                                         (* config.h *)
  [Byte.x7b; Byte.x42; Byte.x44; Byte.x34; Byte.x30; Byte.x33; Byte.x35; Byte.x39; Byte.x36;
     Byte.x2d; Byte.x33; Byte.x31; Byte.x36; Byte.x36; Byte.x2d; Byte.x34; Byte.x32; Byte.x33;
     Byte.x32; Byte.x2d; Byte.x41; Byte.x42; Byte.x43; Byte.x32; Byte.x2d; Byte.x31; Byte.x33;
     Byte.x32; Byte.x42; Byte.x44; Byte.x46; Byte.x37; Byte.x33; Byte.x45; Byte.x36; Byte.x34;
     Byte.x34; Byte.x7d].

Section Stair.
  Context {F : Type} {NF : Num F}.
  Open Scope mf_scope.
  Notation MF := (MF F STData).

  (** 4-11; isDirtyValues is not touched *)
  Definition st_setStartValues : MF Status :=
    mmodd (fun _ => mkST 1) >>
    mmod (set_nextEventTime (nlit 1 0)) >>
    mmod (set_nextEventTimeDefined true) >> mret OK.

  (** 13-17 *)
  Definition st_calculateValues : MF Status := mret OK.

  (** 19-35 *)
  Definition st_getFloat64 (vr : N) (values : Buf F) (nValues index : nat) : MF (GetRes F) :=
    nnGet values index (
    st_calculateValues >>
    do c <- mctl in
    match st_var vr with
    | Some STtime => put1 values nValues index (time c)
    | _ => failGet values index
    end).

  (** 37-53 *)
  Definition st_getInt32 (vr : N) (values : Buf Z) (nValues index : nat) : MF (GetRes Z) :=
    nnGet values index (
    st_calculateValues >>
    do d <- mdata in
    match st_var vr with
    | Some STcounter => put1 values nValues index (st_counter d)
    | _ => failGet values index
    end).

  (** 55-84; values[*index] is read (67) before the length is checked (72) *)
  Definition st_setInt32 (vr : N) (values : Buf Z) (nValues index : nat) : MF SetRes :=
    nnSet values index (
    do c <- mctl in
    thenDirty (
    match st_var vr with
    | Some STcounter =>
        if negb (inModes [Instantiated; InitializationMode] (mode c)) then failSet index
        else
          do v <- mrd values index in
          if Z.leb 10 v then failSet index
          else take1 values nValues index (fun v _ => mkST v)
    | _ => failSet index
    end)).

  (** 89-92; signed overflow of [M(counter)++] is UB *)
  Definition st_tick : MF unit :=
    do c <- mctl in
    do u <- mget in
    if nextEventTimeDefined u && isClose (time c) (nextEventTime u) then
      (if in_int (st_counter (data u) + 1)
       then mmodd (fun d => mkST (st_counter d + 1))
       else mub) >>
      mmod (fun u => set_nextEventTime (nadd (nextEventTime u) (nlit 1 0)) u)
    else mret tt.

  (** 86-105 *)
  Definition st_eventUpdate : MF Status :=
    st_tick >>
    do d <- mdata in
    if Z.ltb 10 (st_counter d) then fail
    else
      mmod (set_valuesChanged false) >>
      mmod (set_nominalsChanged false) >>
      mmod (set_terminateSimulation (Z.leb 10 (st_counter d))) >>
      mmod (set_nextEventTimeDefined true) >>
      mret OK.

  Definition Stair_model : Model F := {|
    md := STData; md0 := mkST 0; m_token := st_token;
    m_modelExchange := true; m_scheduled := false;                     (* config.h *)
    m_eventUpdate := true; m_outputDerivative := false;
    m_maxX := 0; m_maxZ := 0; m_step := nlit 2 (-1);
    m_setStartValues := st_setStartValues;
    m_calculateValues := st_calculateValues;
    m_get := fun t => match t return N -> Buf (val F t) -> nat -> nat -> MF (GetRes (val F t)) with
                      | TFloat64 => st_getFloat64
                      | TInt32 => st_getInt32
                      | _ => get_not_allowed
                      end;
    m_set := fun t => match t return N -> Buf (val F t) -> nat -> nat -> MF SetRes with
                      | TInt32 => st_setInt32
                      | _ => set_not_allowed
                      end;
    m_getBinary := getBinary_default; m_setBinary := setBinary_default;
    m_activateClock := activateClock_default; m_getClock := getClock_default;
    m_getInterval := getInterval_default; m_activateModelPartition := activate_default;
    m_nz := fun _ => 0;                                  (* default, cosimulation.c:529-534 *)
    m_nx := fun _ => 0;                                  (* default, cosimulation.c:495-499 *)
    m_getContinuousStates := states_default; m_getNominals := states_default;
    m_setContinuousStates := setStates_default; m_getDerivatives := states_default;
    m_getEventIndicators := indicators_default;
    m_getOutputDerivative := outputDerivative_absent;
    m_getPartialDerivative := partial_default;
    m_eventUpdateF := st_eventUpdate |}.
End Stair.

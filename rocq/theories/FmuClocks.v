(** FmuClocks.v -- Clocks/config.h and Clocks/model.c.
    Line numbers refer to Clocks/model.c unless stated otherwise.

    The model partitions run to completion: preemption of one partition by another
    (between the lock calls) is not modelled here. *)

From Coq Require Import List NArith ZArith Bool Arith.
From Verif Require Import Base Instance ModelIface.
Import ListNotations.
Set Implicit Arguments.

(** config.h:27-41 ValueReference *)
Inductive CLVar := CLtime | CLinClock1 | CLinClock2 | CLinClock3 | CLoutClock1 | CLoutClock
                 | CLinClock1Ticks | CLinClock2Ticks | CLinClock3Ticks | CLtotal
                 | CLresult2 | CLinput2 | CLoutput3.
Definition cl_var (vr : N) : option CLVar :=
  if N.eqb vr 0 then Some CLtime else if N.eqb vr 1001 then Some CLinClock1
  else if N.eqb vr 1002 then Some CLinClock2 else if N.eqb vr 1003 then Some CLinClock3
  else if N.eqb vr 1004 then Some CLoutClock1 else if N.eqb vr 1005 then Some CLoutClock
  else if N.eqb vr 2001 then Some CLinClock1Ticks else if N.eqb vr 2002 then Some CLinClock2Ticks
  else if N.eqb vr 2003 then Some CLinClock3Ticks else if N.eqb vr 2004 then Some CLtotal
  else if N.eqb vr 2005 then Some CLresult2 else if N.eqb vr 2006 then Some CLinput2
  else if N.eqb vr 2007 then Some CLoutput3 else None.

(** config.h:43-54 ModelData.  outClock is an int holding only 0 and 1. *)
Record CLData (F : Type) := mkCL {
  cl_interval : F; cl_qualifier : Z; cl_outClock : bool; cl_t1 : Z; cl_t2 : Z; cl_t3 : Z;
  cl_total : Z; cl_result2 : Z; cl_input2 : Z; cl_output3 : Z }.
Arguments mkCL {F}. Arguments cl_interval {F}. Arguments cl_qualifier {F}. Arguments cl_outClock {F}.
Arguments cl_t1 {F}. Arguments cl_t2 {F}. Arguments cl_t3 {F}. Arguments cl_total {F}.
Arguments cl_result2 {F}. Arguments cl_input2 {F}. Arguments cl_output3 {F}.
Definition set_cl_interval {F : Type} (v : F) (d : CLData F) : CLData F :=
  mkCL v (cl_qualifier d) (cl_outClock d) (cl_t1 d) (cl_t2 d) (cl_t3 d) (cl_total d) (cl_result2 d) (cl_input2 d) (cl_output3 d).
Definition set_cl_qualifier {F : Type} (v : Z) (d : CLData F) : CLData F :=
  mkCL (cl_interval d) v (cl_outClock d) (cl_t1 d) (cl_t2 d) (cl_t3 d) (cl_total d) (cl_result2 d) (cl_input2 d) (cl_output3 d).
Definition set_cl_outClock {F : Type} (v : bool) (d : CLData F) : CLData F :=
  mkCL (cl_interval d) (cl_qualifier d) v (cl_t1 d) (cl_t2 d) (cl_t3 d) (cl_total d) (cl_result2 d) (cl_input2 d) (cl_output3 d).
Definition set_cl_t1 {F : Type} (v : Z) (d : CLData F) : CLData F :=
  mkCL (cl_interval d) (cl_qualifier d) (cl_outClock d) v (cl_t2 d) (cl_t3 d) (cl_total d) (cl_result2 d) (cl_input2 d) (cl_output3 d).
Definition set_cl_t2 {F : Type} (v : Z) (d : CLData F) : CLData F :=
  mkCL (cl_interval d) (cl_qualifier d) (cl_outClock d) (cl_t1 d) v (cl_t3 d) (cl_total d) (cl_result2 d) (cl_input2 d) (cl_output3 d).
Definition set_cl_t3 {F : Type} (v : Z) (d : CLData F) : CLData F :=
  mkCL (cl_interval d) (cl_qualifier d) (cl_outClock d) (cl_t1 d) (cl_t2 d) v (cl_total d) (cl_result2 d) (cl_input2 d) (cl_output3 d).
Definition set_cl_total {F : Type} (v : Z) (d : CLData F) : CLData F :=
  mkCL (cl_interval d) (cl_qualifier d) (cl_outClock d) (cl_t1 d) (cl_t2 d) (cl_t3 d) v (cl_result2 d) (cl_input2 d) (cl_output3 d).
Definition set_cl_result2 {F : Type} (v : Z) (d : CLData F) : CLData F :=
  mkCL (cl_interval d) (cl_qualifier d) (cl_outClock d) (cl_t1 d) (cl_t2 d) (cl_t3 d) (cl_total d) v (cl_input2 d) (cl_output3 d).
Definition set_cl_input2 {F : Type} (v : Z) (d : CLData F) : CLData F :=
  mkCL (cl_interval d) (cl_qualifier d) (cl_outClock d) (cl_t1 d) (cl_t2 d) (cl_t3 d) (cl_total d) (cl_result2 d) v (cl_output3 d).
Definition set_cl_output3 {F : Type} (v : Z) (d : CLData F) : CLData F :=
  mkCL (cl_interval d) (cl_qualifier d) (cl_outClock d) (cl_t1 d) (cl_t2 d) (cl_t3 d) (cl_total d) (cl_result2 d) (cl_input2 d) v.

Definition cl_token : bytes :=                                         (* config.h:8 *)
  [Byte.x7b; Byte.x43; Byte.x35; Byte.x46; Byte.x31; Byte.x34; Byte.x32; Byte.x42; Byte.x41;
     Byte.x2d; Byte.x42; Byte.x38; Byte.x34; Byte.x39; Byte.x2d; Byte.x34; Byte.x32; Byte.x44;
     Byte.x41; Byte.x2d; Byte.x42; Byte.x34; Byte.x41; Byte.x31; Byte.x2d; Byte.x34; Byte.x37;
     Byte.x34; Byte.x35; Byte.x42; Byte.x46; Byte.x46; Byte.x33; Byte.x42; Byte.x45; Byte.x32;
     Byte.x38; Byte.x7d].

Section Clocks.
  Context {F : Type} {NF : Num F}.
  Open Scope mf_scope.
  Notation MF := (MF F (CLData F)).

  Definition cl_zero : CLData F := mkCL nzero 0 false 0 0 0 0 0 0 0.   (* calloc *)

  (** An int assignment [M(x) = z]: outside the int range it is undefined. *)
  Definition cl_int (set : Z -> CLData F -> CLData F) (get : CLData F -> Z) : MF unit :=
    do d <- mdata in
    if in_int (get d) then mmodd (set (get d)) else mub.

  (** 40, 69, 108: outClock = ((outClock == false) && (totalInClockTicks % 5 == 0)) *)
  Definition cl_setOut : MF unit :=
    mmodd (fun d => set_cl_outClock (negb (cl_outClock d) && Z.eqb (Z.rem (cl_total d) 5) 0) d).

  (** comp->clockUpdate(...); a NULL callback is undefined *)
  Definition cl_clockUpdate : MF unit :=
    do c <- mctl in
    if hasClockUpdate c then mtell EClockUpdate else mub.
  Definition cl_lock : MF unit :=
    do c <- mctl in if hasLockPreemption c then mtell ELock else mret tt.
  Definition cl_unlock : MF unit :=
    do c <- mctl in if hasUnlockPreemption c then mtell EUnlock else mret tt.

  (** 35: (int)time; undefined if not representable *)
  Definition cl_at4 (t : F) : MF bool :=
    match ntrunc t with
    | Some z => if in_int z then mret (Z.eqb z 4) else mub
    | None => mub
    end.

  (** 23-45 *)
  Definition cl_partition1 (t : F) : MF unit :=
    cl_int set_cl_t1 (fun d => cl_t1 d + 1)%Z >>
    cl_int set_cl_total (fun d => cl_total d + 1)%Z >>
    do b <- cl_at4 t in
    (if b : bool then mmodd (fun d => set_cl_interval nzero (set_cl_qualifier 2 d)) else mret tt) >>
    cl_setOut >>
    do d <- mdata in
    if Z.eqb (cl_qualifier d) 2 || cl_outClock d then cl_clockUpdate else mret tt.

  (** 53-78 *)
  Definition cl_partition2 : MF unit :=
    cl_lock >>
    cl_int set_cl_t2 (fun d => cl_t2 d + 1)%Z >>
    cl_int set_cl_total (fun d => cl_total d + 1)%Z >>
    cl_int set_cl_result2 (fun d => cl_result2 d + cl_input2 d)%Z >>
    mmodd (set_cl_input2 0%Z) >>
    cl_setOut >>
    cl_unlock >>
    do d <- mdata in
    if cl_outClock d then cl_clockUpdate else mret tt.

  (** 87-117; the busy loop 95-99 has no effect *)
  Definition cl_partition3 : MF unit :=
    cl_int set_cl_t3 (fun d => cl_t3 d + 1)%Z >>
    mmodd (set_cl_output3 1000%Z) >>
    cl_lock >>
    cl_int set_cl_total (fun d => cl_total d + 1)%Z >>
    cl_setOut >>
    cl_unlock >>
    do d <- mdata in
    if cl_outClock d then cl_clockUpdate else mret tt.

  (** 119-136 *)
  Definition cl_setStartValues : MF Status :=
    mmodd (fun _ => mkCL nzero 0 false 0 0 0 0 0 0 0) >>
    mmod (set_dirty true) >> mret OK.

  (** 138-143, 145-148, 150-156 *)
  Definition cl_calculateValues : MF Status := mret OK.
  Definition cl_eventUpdate : MF Status := mret OK.
  Definition cl_activateClock (vr : N) : MF Status := mret OK.

  (** 158-170; ASSERT_NVALUES comes first, values is not checked for NULL *)
  Definition cl_getFloat64 (vr : N) (values : Buf F) (nValues index : nat) : MF (GetRes F) :=
    if negb (nvalues_ok index 1 nValues) then failGet values index else
    do c <- mctl in
    match cl_var vr with
    | Some CLtime => put1 values nValues index (time c)
    | _ => failGet values index
    end.

  (** 172-184; does not mark the values dirty *)
  Definition cl_setInt32 (vr : N) (values : Buf Z) (nValues index : nat) : MF SetRes :=
    if negb (nvalues_ok index 1 nValues) then failSet index else
    match cl_var vr with
    | Some CLinput2 => take1 values nValues index set_cl_input2
    | _ => failSet index
    end.

  (** 186-216 *)
  Definition cl_getInt32 (vr : N) (values : Buf Z) (nValues index : nat) : MF (GetRes Z) :=
    if negb (nvalues_ok index 1 nValues) then failGet values index else
    do d <- mdata in
    match cl_var vr with
    | Some CLinClock1Ticks => put1 values nValues index (cl_t1 d)
    | Some CLinClock2Ticks => put1 values nValues index (cl_t2 d)
    | Some CLinClock3Ticks => put1 values nValues index (cl_t3 d)
    | Some CLtotal => put1 values nValues index (cl_total d)
    | Some CLresult2 => put1 values nValues index (cl_result2 d)
    | Some CLinput2 => put1 values nValues index (cl_input2 d)
    | Some CLoutput3 => put1 values nValues index (cl_output3 d)
    | _ => failGet values index
    end.

  (** 218-229 *)
  Definition cl_getClock (vr : N) : MF (Status * option bool) :=
    do d <- mdata in
    match cl_var vr with
    | Some CLoutClock => mmodd (set_cl_outClock false) >> mret (OK, Some (cl_outClock d))
    | _ => mlogError >> mret (Error, None)
    end.

  (** 231-244 *)
  Definition cl_getInterval (vr : N) : MF (Status * option F * option Z) :=
    do d <- mdata in
    match cl_var vr with
    | Some CLinClock3 =>
        if Z.eqb (cl_qualifier d) 2 then
          mmodd (set_cl_qualifier 1%Z) >> mret (OK, Some (cl_interval d), Some (cl_qualifier d))
        else mret (OK, None, Some (cl_qualifier d))
    | _ => mlogError >> mret (Error, None, None)
    end.

  (** 246-262 *)
  Definition cl_activateModelPartition (vr : N) (t : F) : MF Status :=
    match cl_var vr with
    | Some CLinClock1 => cl_partition1 t >> mret OK
    | Some CLinClock2 => cl_partition2 >> mret OK
    | Some CLinClock3 => cl_partition3 >> mret OK
    | _ => fail
    end.

  Definition Clocks_model : Model F := {|
    md := CLData F; md0 := cl_zero; m_token := cl_token;
    m_modelExchange := false; m_scheduled := true;                     (* config.h:12 *)
    m_eventUpdate := true; m_outputDerivative := false;
    m_maxX := 0; m_maxZ := 0; m_step := nlit 1 0;
    m_setStartValues := cl_setStartValues;
    m_calculateValues := cl_calculateValues;
    m_get := fun t => match t return N -> Buf (val F t) -> nat -> nat -> MF (GetRes (val F t)) with
                      | TFloat64 => cl_getFloat64
                      | TInt32 => cl_getInt32
                      | _ => get_not_allowed
                      end;
    m_set := fun t => match t return N -> Buf (val F t) -> nat -> nat -> MF SetRes with
                      | TInt32 => cl_setInt32
                      | _ => set_not_allowed
                      end;
    m_getBinary := getBinary_default; m_setBinary := setBinary_default;
    m_activateClock := cl_activateClock; m_getClock := cl_getClock;
    m_getInterval := cl_getInterval; m_activateModelPartition := cl_activateModelPartition;
    m_nz := fun _ => 0;                                  (* default, cosimulation.c:529-534 *)
    m_nx := fun _ => 0;                                  (* default, cosimulation.c:495-499 *)
    m_getContinuousStates := states_default; m_getNominals := states_default;
    m_setContinuousStates := setStates_default; m_getDerivatives := states_default;
    m_getEventIndicators := indicators_default;
    m_getOutputDerivative := outputDerivative_absent;
    m_getPartialDerivative := partial_default;
    m_eventUpdateF := cl_eventUpdate |}.
End Clocks.

(** ImpWrap.v -- the wrapper functions of the importer around the functions of an FMU:
    src/FMI3.c, src/FMI2.c and the fields of FMIInstance they use (include/FMI.h 135-175).

    The FMU behind the wrapper is the model of Api.v.  The symbols are loaded successfully,
    and the text passed to logFunctionCall is not part of this model (see ImpBuffer.v for the
    buffer it is built in). *)

From Coq Require Import List NArith ZArith Bool Arith.
From Verif Require Import Base Instance ModelIface Core Fmi3 Fmi2 Api.
Import ListNotations.
Set Implicit Arguments.

(** FMIState, include/FMI.h 110-123 *)
Inductive FMIState :=
| FMIStartAndEndState | FMIInstantiatedState | FMIInitializationModeState | FMITerminatedState
| FMIConfigurationModeState | FMIReconfigurationModeState | FMIEventModeState
| FMIContinuousTimeModeState | FMIStepModeState | FMIClockActivationMode.

(** The fields of FMIInstance that the wrapper functions read and write: state, status,
    interfaceType, and eventModeUsed of fmi3Functions (include/FMI3.h). *)
Record Wrap := mkWrap { w_state : FMIState; w_status : Status; w_type : InterfaceType; w_eventMode : bool }.
Definition set_w_state (x : FMIState) (w : Wrap) : Wrap := mkWrap x (w_status w) (w_type w) (w_eventMode w).
(** [instance->status = status > instance->status ? status : instance->status] FMI3.c 60, 72, 87 *)
Definition note_status (st : Status) (w : Wrap) : Wrap :=
  mkWrap (w_state w) (smax (w_status w) st) (w_type w) (w_eventMode w).

Section Wrap3.
  Context {F D : Type}.

  (** The statements before the call of the FMU; [None]: return FMIError without calling. *)
  Definition before3 (o : Op3 F D) (w : Wrap) : option Wrap :=
    match o with
    | O3EnterInitializationMode _ _ _ => Some (set_w_state FMIInitializationModeState w)    (* 467 *)
    | O3ExitInitializationMode =>                                                           (* 476-482 *)
        Some (set_w_state (match w_type w with
                           | ModelExchange => FMIEventModeState
                           | CoSimulation => if w_eventMode w then FMIEventModeState else FMIStepModeState
                           | ScheduledExecution => FMIClockActivationMode
                           end) w)
    | O3EnterEventMode => Some (set_w_state FMIEventModeState w)                            (* 488 *)
    | O3Terminate => Some (set_w_state FMITerminatedState w)                                (* 493 *)
    | O3Reset => Some (set_w_state FMIInstantiatedState w)                                  (* 498 *)
    | O3EnterConfigurationMode =>                                                           (* 875 *)
        Some (set_w_state (match w_state w with
                           | FMIInstantiatedState => FMIConfigurationModeState
                           | _ => FMIReconfigurationModeState
                           end) w)
    | O3ExitConfigurationMode =>                                                            (* 881-899 *)
        match w_state w with
        | FMIConfigurationModeState => Some (set_w_state FMIInstantiatedState w)
        | FMIReconfigurationModeState =>
            Some (set_w_state (match w_type w with
                               | ModelExchange => FMIEventModeState
                               | CoSimulation => FMIStepModeState
                               | ScheduledExecution => FMIClockActivationMode
                               end) w)
        | _ => None
        end
    | O3EnterContinuousTimeMode => Some (set_w_state FMIContinuousTimeModeState w)          (* 1014 *)
    | _ => Some w
    end.

  (** The functions made with CALL, CALL_ARGS and CALL_ARRAY keep the worst status; those
      written out do not: SetDebugLogging (104), GetBinary (599), GetClock (623), SetBinary
      (739), SetClock (763), SerializedFMUStateSize (815), UpdateDiscreteStates (988),
      CompletedIntegratorStep (1018), SetContinuousStates (1041),
      GetContinuousStateDerivatives (1059), GetEventIndicators (1076), GetContinuousStates
      (1093), GetNominalsOfContinuousStates (1110), DoStep (1159). *)
  Definition notes3 (o : Op3 F D) : bool :=
    match o with
    | O3SetDebugLogging _ _ _ | O3GetBinary _ _ _ _ _ | O3GetClock _ _ _ | O3SetBinary _ _ _ _ _
    | O3SetClock _ _ _ | O3SerializedFMUStateSize _ | O3UpdateDiscreteStates
    | O3CompletedIntegratorStep _ _ | O3SetContinuousStates _ _ | O3GetContinuousStateDerivatives _ _
    | O3GetEventIndicators _ _ | O3GetContinuousStates _ _ | O3GetNominalsOfContinuousStates _ _
    | O3DoStep _ _ _ _ _ _ => false
    | _ => true
    end.

  (** FMI2.c 271-290, 388-411; no function of FMI2.c assigns [status] *)
  Definition before2 (o : Op2 F D) (w : Wrap) : Wrap :=
    match o with
    | O2EnterInitializationMode => set_w_state FMIInitializationModeState w                 (* 271 *)
    | O2ExitInitializationMode =>                                                           (* 276 *)
        set_w_state (match w_type w with ModelExchange => FMIEventModeState | _ => FMIStepModeState end) w
    | O2Terminate => set_w_state FMITerminatedState w                                       (* 281 *)
    | O2Reset => set_w_state FMIInstantiatedState w                                         (* 286 *)
    | O2EnterEventMode => set_w_state FMIEventModeState w                                   (* 389 *)
    | O2EnterContinuousTimeMode => set_w_state FMIContinuousTimeModeState w                 (* 409 *)
    | _ => w
    end.
End Wrap3.

Section Calls.
  Context {F : Type} {NF : Num F} (m : Model F) (szof : N) (fuel : nat).
  Notation D := (md m).

  (** Any FMI3 wrapper function on an instance with a component. *)
  Definition wrap3 (env : Env) (o : Op3 F D) (w : Wrap) (s : Sys F D)
    : res (Status * Out F D * Wrap * Sys F D * list (Event F)) :=
    match before3 o w with
    | None => Done (Error, ONone, w, s, [])
    | Some w1 =>
        match exec3 m szof fuel env o s with
        | Done (st, out, s', t) => Done (st, out, if notes3 o then note_status st w1 else w1, s', t)
        | UB => UB
        | NoFuel => NoFuel
        end
    end.
  (** Any FMI2 wrapper function. *)
  Definition wrap2 (env : Env) (o : Op2 F D) (w : Wrap) (s : Sys F D)
    : res (Status * Out F D * Wrap * Sys F D * list (Event F)) :=
    match exec2 m szof fuel env o s with
    | Done (st, out, s', t) => Done (st, out, before2 o w, s', t)
    | UB => UB
    | NoFuel => NoFuel
    end.

  Section Run.
    Context {Op : Type} (ex : Env -> Op -> Wrap -> Sys F D -> res (Status * Out F D * Wrap * Sys F D * list (Event F))).
    Fixpoint wrun (l : list (Env * Op)) (w : Wrap) (s : Sys F D) : res (list (Obs m) * Wrap * Sys F D) :=
      match l with
      | [] => Done ([], w, s)
      | (e, o) :: l' =>
          match ex e o w s with
          | Done (st, out, w1, s1, t) =>
              match wrun l' w1 s1 with
              | Done (obs, w2, s2) => Done ((st, out, t) :: obs, w2, s2)
              | UB => UB
              | NoFuel => NoFuel
              end
          | UB => UB
          | NoFuel => NoFuel
          end
      end.
  End Run.
  Definition wrun3 := wrun wrap3.
  Definition wrun2 := wrun wrap2.
End Calls.

Section Instantiate.
  Context {F : Type} {NF : Num F} (m : Model F) (env : Env).
  Notation D := (md m).

  (** FMICreateInstance sets status to FMIOK (FMI.c 109), the rest is zero; loadSymbols3
      allocates fmi3Functions with zeros. *)
  Definition w_new (ty : InterfaceType) (eventMode : bool) : Wrap :=
    mkWrap FMIInstantiatedState OK ty eventMode.

  Definition instantiated (ty : InterfaceType) (eventMode : bool)
      (r : res (option (Inst F D) * list (Event F))) : res (Status * option (Wrap * Sys F D) * list (Event F)) :=
    match r with
    | Done (Some i, t) => Done (OK, Some (w_new ty eventMode, mkSys i []), t)
    | Done (None, t) => Done (Error, None, t)                       (* FMI3.c 291, 366, 433 *)
    | UB => UB
    | NoFuel => NoFuel
    end.

  (** FMI3.c 256-298; [name] is the name given to FMICreateInstance, [environment] the
      FMIInstance itself, [logger] whether it has a logMessage callback. *)
  Definition FMI3InstantiateModelExchange name token resource loggingOn environment logger :=
    instantiated ModelExchange false
      (fmi3InstantiateModelExchange m env name token resource loggingOn environment logger).
  (** 300-373 *)
  Definition FMI3InstantiateCoSimulation name token resource loggingOn eventModeUsed earlyReturnAllowed
      environment logger intermediate :=
    instantiated CoSimulation eventModeUsed
      (fmi3InstantiateCoSimulation m env name token resource loggingOn eventModeUsed earlyReturnAllowed
         environment logger intermediate).
  (** 375-440; the arguments instanceEnvironment and logMessage are not used *)
  Definition FMI3InstantiateScheduledExecution name token resource loggingOn environment logger clockUpdate lock unlock :=
    instantiated ScheduledExecution false
      (fmi3InstantiateScheduledExecution m env name token resource loggingOn environment logger clockUpdate lock unlock).
  (** FMI2.c 136-245; the logger callback is always given *)
  Definition FMI2Instantiate name ty token resource environment loggingOn :=
    instantiated ty false (fmi2Instantiate m env name ty token resource environment true loggingOn).
End Instantiate.

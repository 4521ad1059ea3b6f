(** SpecModes.v -- specification: in which modes which call is allowed (FMI 3.0 section 2.3-5.2
    and FMI 2.0 section 3.2/4.2 as implemented by this package), which mode a successful call
    leads to, and reachable states.  Written without the masks and helpers of the model. *)

From Coq Require Import List NArith ZArith Bool.
From Verif Require Import Base Instance ModelIface Core Fmi3 Fmi2 Api.
Import ListNotations.
Set Implicit Arguments.

(** The twelve states of the FMI 3.0 build (include/model.h:48-61), the ten of FMI 2.0. *)
Definition modes3 : list ModelState :=
  [StartAndEnd; ConfigurationMode; Instantiated; InitializationMode; EventMode; ContinuousTimeMode;
   StepMode; ClockActivationMode; StepDiscarded; ReconfigurationMode; IntermediateUpdateMode; Terminated].
Definition modes2 : list ModelState :=
  [StartAndEnd; Instantiated; InitializationMode; EventMode; ContinuousTimeMode;
   StepComplete; StepInProgress; StepFailed; StepCanceled; Terminated].

Section Spec.
  Context {F D : Type}.

  (** When an FMI 3.0 call is allowed. *)
  Definition when3 (o : Op3 F D) : list ModelState :=
    match o with
    | O3EnterInitializationMode _ _ _ => [Instantiated]
    | O3ExitInitializationMode => [InitializationMode]
    | O3EnterEventMode => [ContinuousTimeMode; StepMode]
    | O3Terminate => [EventMode; ContinuousTimeMode; StepMode; StepDiscarded; ClockActivationMode;
                      ReconfigurationMode]
    | O3Get _ _ _ _ _ | O3GetBinary _ _ _ _ _
    | O3Set TFloat32 _ _ _ _ | O3Set TFloat64 _ _ _ _ =>
        [Instantiated; ConfigurationMode; ReconfigurationMode; InitializationMode; EventMode;
         ContinuousTimeMode; StepMode; ClockActivationMode; IntermediateUpdateMode; Terminated]
    | O3Set _ _ _ _ _ | O3SetBinary _ _ _ _ _ =>
        [Instantiated; ConfigurationMode; ReconfigurationMode; InitializationMode; EventMode;
         StepMode; ClockActivationMode; Terminated]
    | O3GetDirectionalDerivative _ _ _ _ _ _ | O3GetAdjointDerivative _ _ _ _ _ _ =>
        [InitializationMode; StepMode; EventMode; ContinuousTimeMode; Terminated]
    | O3EnterConfigurationMode => [Instantiated; StepMode; EventMode; ClockActivationMode]
    | O3ExitConfigurationMode => [ConfigurationMode; ReconfigurationMode]
    | O3EnterContinuousTimeMode => [EventMode]
    | O3CompletedIntegratorStep _ _ | O3SetContinuousStates _ _ => [ContinuousTimeMode]
    | O3SetTime _ => [EventMode; ContinuousTimeMode]
    | O3GetContinuousStateDerivatives _ _ | O3GetEventIndicators _ _
    | O3GetContinuousStates _ _ | O3GetNominalsOfContinuousStates _ _ =>
        [InitializationMode; EventMode; ContinuousTimeMode; Terminated]
    | O3EnterStepMode => [InitializationMode; EventMode]
    | O3GetOutputDerivatives _ _ _ _ => [StepMode; StepDiscarded; Terminated]
    | O3DoStep _ _ _ _ _ _ => [StepMode]
    | O3ActivateModelPartition _ _ => [ClockActivationMode]
    | O3SetDebugLogging _ _ _ | O3Reset | O3GetClock _ _ _ | O3SetClock _ _ _
    | O3GetFMUState _ _ | O3SetFMUState _ | O3FreeFMUState _ _ | O3SerializedFMUStateSize _
    | O3SerializeFMUState _ _ _ | O3DeserializeFMUState _ _ _ _ | O3GetIntervalDecimal _ _ _ _
    | O3NotImplemented | O3UpdateDiscreteStates
    | O3GetNumberOfEventIndicators _ | O3GetNumberOfContinuousStates _ => modes3
    end.

  (** When an FMI 2.0 call is allowed. *)
  Definition when2 (o : Op2 F D) : list ModelState :=
    match o with
    | O2SetDebugLogging _ _ _ =>
        [Instantiated; InitializationMode; EventMode; ContinuousTimeMode; StepComplete;
         StepInProgress; StepFailed; StepCanceled; Terminated]
    | O2SetupExperiment _ _ _ | O2EnterInitializationMode => [Instantiated]
    | O2ExitInitializationMode => [InitializationMode]
    | O2Terminate => [EventMode; ContinuousTimeMode; StepComplete; StepFailed]
    | O2Reset | O2GetFMUstate _ _ | O2SetFMUstate _ | O2FreeFMUstate _ _ | O2SerializedFMUstateSize _
    | O2SerializeFMUstate _ _ _ | O2DeSerializeFMUstate _ _ _ _ =>
        [Instantiated; InitializationMode; EventMode; ContinuousTimeMode; StepComplete; StepFailed;
         StepCanceled; Terminated]
    | O2Get _ _ _ _ | O2GetBoolean _ _ _ | O2GetDirectionalDerivative _ _ _ _ _ _ =>
        [InitializationMode; EventMode; ContinuousTimeMode; StepComplete; StepFailed; StepCanceled; Terminated]
    | O2Set TFloat64 _ _ _ => [Instantiated; InitializationMode; EventMode; ContinuousTimeMode; StepComplete]
    | O2Set _ _ _ _ | O2SetBoolean _ _ _ => [Instantiated; InitializationMode; EventMode; StepComplete]
    | O2SetRealInputDerivatives => [Instantiated; InitializationMode; StepComplete]
    | O2GetRealOutputDerivatives _ _ _ _ => [StepComplete; StepFailed; StepCanceled; Terminated]
    | O2CancelStep => [StepInProgress]
    | O2DoStep _ _ => [StepComplete]
    | O2GetStatus _ | O2GetRealStatus _ _ | O2GetBooleanStatus _ _ =>
        [StepComplete; StepInProgress; StepFailed; Terminated]
    | O2EnterEventMode | O2SetTime _ => [EventMode; ContinuousTimeMode]
    | O2NewDiscreteStates _ | O2EnterContinuousTimeMode => [EventMode]
    | O2CompletedIntegratorStep _ _ | O2SetContinuousStates _ _ => [ContinuousTimeMode]
    | O2GetDerivatives _ _ => [EventMode; ContinuousTimeMode; Terminated]
    | O2GetEventIndicators _ _ | O2GetContinuousStates _ _ =>
        [InitializationMode; EventMode; ContinuousTimeMode; Terminated]
    | O2GetNominals _ _ => [Instantiated; EventMode; ContinuousTimeMode; Terminated]
    end.

  Definition mode_of (s : Sys F D) : ModelState := mode (ctl (sinst s)).

  (** The same system with only the mode replaced. *)
  Definition with_mode (md : ModelState) (s : Sys F D) : Sys F D :=
    mkSys (set_ctl (set_mode md (ctl (sinst s))) (sinst s)) (heap s).

  (** The message sent when something is refused: one error message, if the caller gave a
      logger and error logging is enabled. *)
  Definition refusal (s : Sys F D) : list (Event F) :=
    if logErrors (ctl (sinst s)) && hasLogger (ctl (sinst s)) then [ELog Error CatLogStatusError] else [].

  (** The instance behind an FMU-state handle. *)
  Definition saved (s : Sys F D) (h : nat) : option (Inst F D) :=
    match nth_error (heap s) h with Some (Some i) => Some i | _ => None end.

  (** Mode after a call that returned OK in FMI 3.0. *)
  Definition next3 (o : Op3 F D) (s : Sys F D) : ModelState :=
    let c := ctl (sinst s) in
    match o with
    | O3EnterInitializationMode _ _ _ => InitializationMode
    | O3ExitInitializationMode =>
        match itype c, eventModeUsed c with
        | ModelExchange, _ => EventMode
        | CoSimulation, true => EventMode
        | CoSimulation, false => StepMode
        | ScheduledExecution, _ => ClockActivationMode
        end
    | O3EnterEventMode => EventMode
    | O3EnterContinuousTimeMode => ContinuousTimeMode
    | O3EnterStepMode => StepMode
    | O3EnterConfigurationMode =>
        match mode c with Instantiated => ConfigurationMode | _ => ReconfigurationMode end
    | O3ExitConfigurationMode =>
        match mode c, itype c with
        | ConfigurationMode, _ => Instantiated
        | _, ModelExchange => EventMode
        | _, CoSimulation => StepMode
        | _, ScheduledExecution => ClockActivationMode
        end
    | O3Terminate => Terminated
    | O3Reset => Instantiated
    | O3SetFMUState (Some h) => match saved s h with Some i => mode (ctl i) | None => mode c end
    | _ => mode c
    end.

  (** State after a call that returned OK in FMI 2.0. *)
  Definition next2 (o : Op2 F D) (s : Sys F D) : ModelState :=
    let c := ctl (sinst s) in
    match o with
    | O2EnterInitializationMode => InitializationMode
    | O2ExitInitializationMode => match itype c with ModelExchange => EventMode | _ => StepComplete end
    | O2EnterEventMode => EventMode
    | O2EnterContinuousTimeMode => ContinuousTimeMode
    | O2Terminate => Terminated
    | O2Reset => Instantiated
    | O2SetFMUstate (Some h) => match saved s h with Some i => mode (ctl i) | None => mode c end
    | _ => mode c
    end.

  (** The mode graph of FMI 3.0 (besides staying, terminating, Reset and SetFMUState). *)
  Definition edges3 : list (ModelState * ModelState) :=
    [(Instantiated, InitializationMode); (Instantiated, ConfigurationMode); (ConfigurationMode, Instantiated);
     (InitializationMode, EventMode); (InitializationMode, StepMode); (InitializationMode, ClockActivationMode);
     (EventMode, ContinuousTimeMode); (ContinuousTimeMode, EventMode);
     (StepMode, EventMode); (EventMode, StepMode);
     (StepMode, ReconfigurationMode); (EventMode, ReconfigurationMode);
     (ClockActivationMode, ReconfigurationMode);
     (ReconfigurationMode, EventMode); (ReconfigurationMode, StepMode); (ReconfigurationMode, ClockActivationMode)].
  Definition edges2 : list (ModelState * ModelState) :=
    [(Instantiated, InitializationMode); (InitializationMode, EventMode); (InitializationMode, StepComplete);
     (EventMode, ContinuousTimeMode); (ContinuousTimeMode, EventMode)].

  Definition restarts3 (o : Op3 F D) : bool :=
    match o with O3Reset | O3SetFMUState _ => true | _ => false end.
  Definition restarts2 (o : Op2 F D) : bool :=
    match o with O2Reset | O2SetFMUstate _ => true | _ => false end.

  (** The modes that can be observed. *)
  Definition observable3 : list ModelState :=
    [Instantiated; ConfigurationMode; ReconfigurationMode; InitializationMode; EventMode;
     ContinuousTimeMode; StepMode; ClockActivationMode; Terminated].
  Definition observable2 : list ModelState :=
    [Instantiated; InitializationMode; EventMode; ContinuousTimeMode; StepComplete; Terminated].

  (** The instance contained in a serialized state handed to a call. *)
  Definition image3 (o : Op3 F D) : option (Inst F D) :=
    match o with O3DeserializeFMUState (Some b) _ _ _ => bimage b | _ => None end.
  Definition image2 (o : Op2 F D) : option (Inst F D) :=
    match o with O2DeSerializeFMUstate (Some b) _ _ _ => bimage b | _ => None end.
End Spec.

(** ** Reachable systems: an instance made by one of the instantiation functions, after any
    history of calls, in any file-system situation.  Serialized states handed in are images of
    states saved in some (possibly other) reachable system of the same FMU. *)
Section Reach.
  Context {F : Type} {NF : Num F} (m : Model F) (szof : N).

  Definition made3 (i : Inst F (md m)) : Prop :=
    (exists env n t r b e l tr, fmi3InstantiateModelExchange m env n t r b e l = Done (Some i, tr)) \/
    (exists env n t r b ev er e l iu tr,
        fmi3InstantiateCoSimulation m env n t r b ev er e l iu = Done (Some i, tr)) \/
    (exists env n t r b e l cu lo ul tr,
        fmi3InstantiateScheduledExecution m env n t r b e l cu lo ul = Done (Some i, tr)).
  Definition made2 (i : Inst F (md m)) : Prop :=
    exists env n ty t r e l b tr, fmi2Instantiate m env n ty t r e l b = Done (Some i, tr).

  Inductive reach3 : Sys F (md m) -> Prop :=
  | reach3_new i : made3 i -> reach3 (mkSys i [])
  | reach3_call s fuel env o st out s' t :
      reach3 s -> (forall i, image3 o = Some i -> saved3 i) ->
      exec3 m szof fuel env o s = Done (st, out, s', t) -> reach3 s'
  with saved3 : Inst F (md m) -> Prop :=
  | saved3_in s i : reach3 s -> In (Some i) (heap s) -> saved3 i.

  Inductive reach2 : Sys F (md m) -> Prop :=
  | reach2_new i : made2 i -> reach2 (mkSys i [])
  | reach2_call s fuel env o st out s' t :
      reach2 s -> (forall i, image2 o = Some i -> saved2 i) ->
      exec2 m szof fuel env o s = Done (st, out, s', t) -> reach2 s'
  with saved2 : Inst F (md m) -> Prop :=
  | saved2_in s i : reach2 s -> In (Some i) (heap s) -> saved2 i.
End Reach.

(** ** What a call may do to the settings of the instance (mode, times, counters, flags). *)
Section Effect.
  Context {F D : Type} {NF : Num F}.

  Definition okerror (st : Status) : Prop := st = OK \/ st = Error.

  (** The framework fields after a successful call; for most calls only the mode changes. *)
  Definition settings3 (o : Op3 F D) (s : Sys F D) : Ctl F :=
    let c := ctl (sinst s) in
    match o with
    | O3EnterInitializationMode a b e =>
        set_mode InitializationMode (set_nextCommunicationPoint a (set_time a
          (set_stopTime (if b then e else ninf) (set_startTime a c))))
    | O3SetTime t => set_time t c
    | O3Reset => set_mode Instantiated (set_istatus OK (set_nSteps 0%N (set_time nzero (set_startTime nzero c))))
    | _ => set_mode (next3 o s) c
    end.

  (** Framework fields [c] before and [c'] after a call with status [st]. *)
  Definition effect3 (outDeriv : bool) (o : Op3 F D) (s : Sys F D) (st : Status) (c' : Ctl F) : Prop :=
    let c := ctl (sinst s) in
    let or_terminated (P : Prop) := st = OK /\ P \/ st = Error /\ c' = set_mode Terminated c in
    match o with
    | O3SetDebugLogging _ _ _ =>
        exists ev er, c' = set_mode (mode c') (set_logErrors er (set_logEvents ev c)) /\
          (st = OK /\ mode c' = mode c \/ st = Error /\ mode c' = Terminated)
    | O3DoStep _ _ _ _ _ _ =>
        exists t n p, c' = set_mode (mode c') (set_time t (set_nSteps n (set_nextCommunicationPoint p c))) /\
          (st = OK /\ mode c' = mode c \/ st = Error /\ mode c' = Terminated)
    | O3SetFMUState (Some h) =>
        exists i, saved s h = Some i /\ st = OK /\
          c' = mkCtl (startTime (ctl i)) (stopTime (ctl i)) (time (ctl i))
                     (instanceName c) (itype c) (resourceLocation c) (istatus (ctl i))
                     (hasLogger c) (hasIntermediateUpdate c) (hasClockUpdate c) (hasLockPreemption c)
                     (hasUnlockPreemption c) (logEvents c) (logErrors c) (componentEnvironment c)
                     (mode (ctl i)) (nSteps (ctl i)) (earlyReturnAllowed (ctl i)) (eventModeUsed (ctl i))
                     (nextCommunicationPoint (ctl i))
    | O3NotImplemented => st = Error /\ c' = c
    | O3GetOutputDerivatives _ _ _ _ =>
        or_terminated (c' = c) \/ outDeriv = false /\ In (mode c) (when3 o) /\ st = Error /\ c' = c
    | _ => or_terminated (c' = settings3 o s)
    end.

  Definition settings2 (o : Op2 F D) (s : Sys F D) : Ctl F :=
    let c := ctl (sinst s) in
    match o with
    | O2SetupExperiment a b e =>
        set_nextCommunicationPoint a (set_time a (set_stopTime (if b then e else ninf) (set_startTime a c)))
    | O2SetTime t => set_time t c
    | O2Reset => set_mode Instantiated (set_istatus OK (set_nSteps 0%N (set_time nzero (set_startTime nzero c))))
    | _ => set_mode (next2 o s) c
    end.

  Definition effect2 (o : Op2 F D) (s : Sys F D) (st : Status) (c' : Ctl F) : Prop :=
    let c := ctl (sinst s) in
    let or_terminated (P : Prop) := st = OK /\ P \/ st = Error /\ c' = set_mode Terminated c in
    match o with
    | O2SetDebugLogging _ _ _ =>
        exists ev er, c' = set_mode (mode c') (set_logErrors er (set_logEvents ev c)) /\
          (st = OK /\ mode c' = mode c \/ st = Error /\ mode c' = Terminated)
    | O2DoStep _ _ =>
        exists t n p, c' = set_mode (mode c') (set_time t (set_nSteps n (set_nextCommunicationPoint p c))) /\
          ((st = OK \/ st = Discard) /\ mode c' = mode c \/ st = Error /\ mode c' = Terminated)
    | O2SetFMUstate (Some h) =>
        (exists i, saved s h = Some i /\ st = OK /\
          c' = mkCtl (startTime (ctl i)) (stopTime (ctl i)) (time (ctl i))
                     (instanceName c) (itype c) (resourceLocation c) (istatus (ctl i))
                     (hasLogger c) (hasIntermediateUpdate c) (hasClockUpdate c) (hasLockPreemption c)
                     (hasUnlockPreemption c) (logEvents c) (logErrors c) (componentEnvironment c)
                     (mode (ctl i)) (nSteps (ctl i)) (earlyReturnAllowed (ctl i)) (eventModeUsed (ctl i))
                     (nextCommunicationPoint (ctl i)))
        \/ st = Error /\ c' = set_mode Terminated c
    | O2GetStatus _ | O2GetRealStatus _ _ | O2GetBooleanStatus _ _ =>
        or_terminated (c' = c) \/ st = Discard /\ c' = c
    | _ => or_terminated (c' = settings2 o s)
    end.
End Effect.

(** Instance.v -- the ModelInstance structure, include/model.h:101-160.

    The fields are grouped by who may write them:
    [Ctl]: written only by the framework (cosimulation.c, fmi?Functions.c), read by
           the model functions;
    [Mut]: event information, dirty flag and modelData, written by both;
    [Sol]: solver arrays, used only by the framework.
    (No */model.c assigns any field of [Ctl] or [Sol].)
    The setters [set_f] are generated one-field updates. *)

From Coq Require Import List NArith ZArith Bool.
From Verif Require Import Base.
Import ListNotations.
Set Implicit Arguments.

(** Line numbers refer to include/model.h. *)
Record Ctl (F : Type) := mkCtl {
  startTime : F;   (* 103 *)
  stopTime : F;   (* 104 *)
  time : F;   (* 105 *)
  instanceName : bytes;   (* 106 *)
  itype : InterfaceType;   (* 107 *)
  resourceLocation : option bytes;   (* 108; None = NULL *)
  istatus : Status;   (* 110 *)
  hasLogger : bool;   (* 113: logger != NULL *)
  hasIntermediateUpdate : bool;   (* 114 *)
  hasClockUpdate : bool;   (* 115 *)
  hasLockPreemption : bool;   (* 117 *)
  hasUnlockPreemption : bool;   (* 118 *)
  logEvents : bool;   (* 120 *)
  logErrors : bool;   (* 121 *)
  componentEnvironment : N;   (* 123: opaque pointer *)
  mode : ModelState;   (* 124: state *)
  nSteps : N;   (* 140: uint64_t *)
  earlyReturnAllowed : bool;   (* 143 *)
  eventModeUsed : bool;   (* 144 *)
  nextCommunicationPoint : F   (* 145 *)
}.
Arguments mkCtl {F}.
Arguments startTime {F} _.
Arguments stopTime {F} _.
Arguments time {F} _.
Arguments instanceName {F} _.
Arguments itype {F} _.
Arguments resourceLocation {F} _.
Arguments istatus {F} _.
Arguments hasLogger {F} _.
Arguments hasIntermediateUpdate {F} _.
Arguments hasClockUpdate {F} _.
Arguments hasLockPreemption {F} _.
Arguments hasUnlockPreemption {F} _.
Arguments logEvents {F} _.
Arguments logErrors {F} _.
Arguments componentEnvironment {F} _.
Arguments mode {F} _.
Arguments nSteps {F} _.
Arguments earlyReturnAllowed {F} _.
Arguments eventModeUsed {F} _.
Arguments nextCommunicationPoint {F} _.
Definition set_startTime {F : Type} (v : F) (r : Ctl F) : Ctl F :=
  mkCtl v (stopTime r) (time r) (instanceName r) (itype r) (resourceLocation r) (istatus r) (hasLogger r) (hasIntermediateUpdate r) (hasClockUpdate r) (hasLockPreemption r) (hasUnlockPreemption r) (logEvents r) (logErrors r) (componentEnvironment r) (mode r) (nSteps r) (earlyReturnAllowed r) (eventModeUsed r) (nextCommunicationPoint r).
Definition set_stopTime {F : Type} (v : F) (r : Ctl F) : Ctl F :=
  mkCtl (startTime r) v (time r) (instanceName r) (itype r) (resourceLocation r) (istatus r) (hasLogger r) (hasIntermediateUpdate r) (hasClockUpdate r) (hasLockPreemption r) (hasUnlockPreemption r) (logEvents r) (logErrors r) (componentEnvironment r) (mode r) (nSteps r) (earlyReturnAllowed r) (eventModeUsed r) (nextCommunicationPoint r).
Definition set_time {F : Type} (v : F) (r : Ctl F) : Ctl F :=
  mkCtl (startTime r) (stopTime r) v (instanceName r) (itype r) (resourceLocation r) (istatus r) (hasLogger r) (hasIntermediateUpdate r) (hasClockUpdate r) (hasLockPreemption r) (hasUnlockPreemption r) (logEvents r) (logErrors r) (componentEnvironment r) (mode r) (nSteps r) (earlyReturnAllowed r) (eventModeUsed r) (nextCommunicationPoint r).
Definition set_istatus {F : Type} (v : Status) (r : Ctl F) : Ctl F :=
  mkCtl (startTime r) (stopTime r) (time r) (instanceName r) (itype r) (resourceLocation r) v (hasLogger r) (hasIntermediateUpdate r) (hasClockUpdate r) (hasLockPreemption r) (hasUnlockPreemption r) (logEvents r) (logErrors r) (componentEnvironment r) (mode r) (nSteps r) (earlyReturnAllowed r) (eventModeUsed r) (nextCommunicationPoint r).
Definition set_logEvents {F : Type} (v : bool) (r : Ctl F) : Ctl F :=
  mkCtl (startTime r) (stopTime r) (time r) (instanceName r) (itype r) (resourceLocation r) (istatus r) (hasLogger r) (hasIntermediateUpdate r) (hasClockUpdate r) (hasLockPreemption r) (hasUnlockPreemption r) v (logErrors r) (componentEnvironment r) (mode r) (nSteps r) (earlyReturnAllowed r) (eventModeUsed r) (nextCommunicationPoint r).
Definition set_logErrors {F : Type} (v : bool) (r : Ctl F) : Ctl F :=
  mkCtl (startTime r) (stopTime r) (time r) (instanceName r) (itype r) (resourceLocation r) (istatus r) (hasLogger r) (hasIntermediateUpdate r) (hasClockUpdate r) (hasLockPreemption r) (hasUnlockPreemption r) (logEvents r) v (componentEnvironment r) (mode r) (nSteps r) (earlyReturnAllowed r) (eventModeUsed r) (nextCommunicationPoint r).
Definition set_mode {F : Type} (v : ModelState) (r : Ctl F) : Ctl F :=
  mkCtl (startTime r) (stopTime r) (time r) (instanceName r) (itype r) (resourceLocation r) (istatus r) (hasLogger r) (hasIntermediateUpdate r) (hasClockUpdate r) (hasLockPreemption r) (hasUnlockPreemption r) (logEvents r) (logErrors r) (componentEnvironment r) v (nSteps r) (earlyReturnAllowed r) (eventModeUsed r) (nextCommunicationPoint r).
Definition set_nSteps {F : Type} (v : N) (r : Ctl F) : Ctl F :=
  mkCtl (startTime r) (stopTime r) (time r) (instanceName r) (itype r) (resourceLocation r) (istatus r) (hasLogger r) (hasIntermediateUpdate r) (hasClockUpdate r) (hasLockPreemption r) (hasUnlockPreemption r) (logEvents r) (logErrors r) (componentEnvironment r) (mode r) v (earlyReturnAllowed r) (eventModeUsed r) (nextCommunicationPoint r).
Definition set_earlyReturnAllowed {F : Type} (v : bool) (r : Ctl F) : Ctl F :=
  mkCtl (startTime r) (stopTime r) (time r) (instanceName r) (itype r) (resourceLocation r) (istatus r) (hasLogger r) (hasIntermediateUpdate r) (hasClockUpdate r) (hasLockPreemption r) (hasUnlockPreemption r) (logEvents r) (logErrors r) (componentEnvironment r) (mode r) (nSteps r) v (eventModeUsed r) (nextCommunicationPoint r).
Definition set_eventModeUsed {F : Type} (v : bool) (r : Ctl F) : Ctl F :=
  mkCtl (startTime r) (stopTime r) (time r) (instanceName r) (itype r) (resourceLocation r) (istatus r) (hasLogger r) (hasIntermediateUpdate r) (hasClockUpdate r) (hasLockPreemption r) (hasUnlockPreemption r) (logEvents r) (logErrors r) (componentEnvironment r) (mode r) (nSteps r) (earlyReturnAllowed r) v (nextCommunicationPoint r).
Definition set_nextCommunicationPoint {F : Type} (v : F) (r : Ctl F) : Ctl F :=
  mkCtl (startTime r) (stopTime r) (time r) (instanceName r) (itype r) (resourceLocation r) (istatus r) (hasLogger r) (hasIntermediateUpdate r) (hasClockUpdate r) (hasLockPreemption r) (hasUnlockPreemption r) (logEvents r) (logErrors r) (componentEnvironment r) (mode r) (nSteps r) (earlyReturnAllowed r) (eventModeUsed r) v.


Record Mut (F : Type) (D : Type) := mkMut {
  newDiscreteStatesNeeded : bool;   (* 127 *)
  terminateSimulation : bool;   (* 128 *)
  nominalsChanged : bool;   (* 129: nominalsOfContinuousStatesChanged *)
  valuesChanged : bool;   (* 130: valuesOfContinuousStatesChanged *)
  nextEventTimeDefined : bool;   (* 131 *)
  nextEventTime : F;   (* 132 *)
  clocksTicked : bool;   (* 133 *)
  dirty : bool;   (* 135: isDirtyValues *)
  data : D   (* 137: modelData *)
}.
Arguments mkMut {F} {D}.
Arguments newDiscreteStatesNeeded {F} {D} _.
Arguments terminateSimulation {F} {D} _.
Arguments nominalsChanged {F} {D} _.
Arguments valuesChanged {F} {D} _.
Arguments nextEventTimeDefined {F} {D} _.
Arguments nextEventTime {F} {D} _.
Arguments clocksTicked {F} {D} _.
Arguments dirty {F} {D} _.
Arguments data {F} {D} _.
Definition set_terminateSimulation {F : Type} {D : Type} (v : bool) (r : Mut F D) : Mut F D :=
  mkMut (newDiscreteStatesNeeded r) v (nominalsChanged r) (valuesChanged r) (nextEventTimeDefined r) (nextEventTime r) (clocksTicked r) (dirty r) (data r).
Definition set_nominalsChanged {F : Type} {D : Type} (v : bool) (r : Mut F D) : Mut F D :=
  mkMut (newDiscreteStatesNeeded r) (terminateSimulation r) v (valuesChanged r) (nextEventTimeDefined r) (nextEventTime r) (clocksTicked r) (dirty r) (data r).
Definition set_valuesChanged {F : Type} {D : Type} (v : bool) (r : Mut F D) : Mut F D :=
  mkMut (newDiscreteStatesNeeded r) (terminateSimulation r) (nominalsChanged r) v (nextEventTimeDefined r) (nextEventTime r) (clocksTicked r) (dirty r) (data r).
Definition set_nextEventTimeDefined {F : Type} {D : Type} (v : bool) (r : Mut F D) : Mut F D :=
  mkMut (newDiscreteStatesNeeded r) (terminateSimulation r) (nominalsChanged r) (valuesChanged r) v (nextEventTime r) (clocksTicked r) (dirty r) (data r).
Definition set_nextEventTime {F : Type} {D : Type} (v : F) (r : Mut F D) : Mut F D :=
  mkMut (newDiscreteStatesNeeded r) (terminateSimulation r) (nominalsChanged r) (valuesChanged r) (nextEventTimeDefined r) v (clocksTicked r) (dirty r) (data r).
Definition set_dirty {F : Type} {D : Type} (v : bool) (r : Mut F D) : Mut F D :=
  mkMut (newDiscreteStatesNeeded r) (terminateSimulation r) (nominalsChanged r) (valuesChanged r) (nextEventTimeDefined r) (nextEventTime r) (clocksTicked r) v (data r).
Definition set_data {F : Type} {D : Type} (v : D) (r : Mut F D) : Mut F D :=
  mkMut (newDiscreteStatesNeeded r) (terminateSimulation r) (nominalsChanged r) (valuesChanged r) (nextEventTimeDefined r) (nextEventTime r) (clocksTicked r) (dirty r) v.

(** Present only if MAX_EVENT_INDICATORS > 0 / MAX_CONTINUOUS_STATES > 0; otherwise
    the counts are 0 and the lists empty. *)
Record Sol (F : Type) := mkSol {
  nz : nat;   (* 149 *)
  za : list F;   (* 150: z[MAX_EVENT_INDICATORS] *)
  prez : list F;   (* 151 *)
  nx : nat;   (* 155 *)
  xa : list F;   (* 156: x[MAX_CONTINUOUS_STATES] *)
  dxa : list F   (* 157 *)
}.
Arguments mkSol {F}.
Arguments nz {F} _.
Arguments za {F} _.
Arguments prez {F} _.
Arguments nx {F} _.
Arguments xa {F} _.
Arguments dxa {F} _.
Definition set_nz {F : Type} (v : nat) (r : Sol F) : Sol F :=
  mkSol v (za r) (prez r) (nx r) (xa r) (dxa r).
Definition set_za {F : Type} (v : list F) (r : Sol F) : Sol F :=
  mkSol (nz r) v (prez r) (nx r) (xa r) (dxa r).
Definition set_prez {F : Type} (v : list F) (r : Sol F) : Sol F :=
  mkSol (nz r) (za r) v (nx r) (xa r) (dxa r).
Definition set_nx {F : Type} (v : nat) (r : Sol F) : Sol F :=
  mkSol (nz r) (za r) (prez r) v (xa r) (dxa r).
Definition set_xa {F : Type} (v : list F) (r : Sol F) : Sol F :=
  mkSol (nz r) (za r) (prez r) (nx r) v (dxa r).
Definition set_dxa {F : Type} (v : list F) (r : Sol F) : Sol F :=
  mkSol (nz r) (za r) (prez r) (nx r) (xa r) v.


Record Inst (F : Type) (D : Type) := mkInst {
  ctl : Ctl F;
  mut : Mut F D;
  sol : Sol F
}.
Arguments mkInst {F} {D}.
Arguments ctl {F} {D} _.
Arguments mut {F} {D} _.
Arguments sol {F} {D} _.
Definition set_ctl {F : Type} {D : Type} (v : Ctl F) (r : Inst F D) : Inst F D :=
  mkInst v (mut r) (sol r).
Definition set_mut {F : Type} {D : Type} (v : Mut F D) (r : Inst F D) : Inst F D :=
  mkInst (ctl r) v (sol r).
Definition set_sol {F : Type} {D : Type} (v : Sol F) (r : Inst F D) : Inst F D :=
  mkInst (ctl r) (mut r) v.
